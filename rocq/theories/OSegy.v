(** The SEG-Y writers.  Models src/OSEGY.cpp, src/OSEGYRev0.cpp,
    src/OSEGYRev1.cpp and src/OSEGYRev2.cpp. *)
From Verif Require Import Base Platform Fp TraceHdr SegyTypes SegyCodec Ebcdic ISegy.

(** How write_trace was assembled by the constructor (the lambda stored in
    [Impl::write_trace]): whether the first trace completes the binary header
    (and which flavour), whether additional trace headers are written, and
    whether the sample count is variable. *)
Inductive minimal : Type :=
| MNone        (* the caller supplied a binary header *)
| MAnyInt      (* OSEGYRev0.cpp:68-96, OSEGYRev1.cpp:79-110 *)
| MIntOnly.    (* OSEGYRev2.cpp:130-152, SAMP_INT must be an integer *)

Record osegy : Type := mkO {
  o_file : file;
  o_bh : bin_hdr;
  o_maps : layouts;
  o_text : list (list Z);
  o_stanzas : list (list Z);
  o_endian : endian;
  o_bps : Z;
  o_sbuf : list Z;         (* samp_buf: reused between traces *)
  o_first : Z;             (* first_trace_pos *)
  o_min : minimal;
  o_add : bool;
  o_var : bool
}.

(** OSEGY.cpp:236-287 [write_bin_header]: seeks to 3200 first. *)
Definition write_bin_header (e : endian) (b : bin_hdr) (f : file) : outcome file :=
  let* blk := bin_header_bytes e b in
  let* f1 := fseek TEXT_HEADER_SIZE f in
  Ok (fwrite blk f1).

(** OSEGY.cpp:293-349 (and 361-418): all fields of one layout into the zeroed
    header block. *)
Fixpoint wr_fields (p : platform) (e : endian) (l : layout) (h : hdr)
         (block : list Z) : outcome (list Z) :=
  match l with
  | [] => Ok block
  | en :: l' =>
    let* d := wr_field p e (e_type en) (hget h (e_name en)) in
    let* block' := upd block (e_off en) d in
    wr_fields p e l' h block'
  end.

Definition hdr_block (p : platform) (e : endian) (l : layout) (h : hdr)
  : outcome (list Z) := wr_fields p e l h (zeros TR_HEADER_SIZE).

(** OSEGY.cpp:289-351 [write_trace_header]: layout 0; [tr_hdr_map[0]] of an
    empty vector is out of bounds. *)
Definition write_trace_header (p : platform) (e : endian) (ls : layouts) (h : hdr)
           (f : file) : outcome file :=
  match ls with
  | [] => UB
  | (_, l) :: _ =>
    let* blk := hdr_block p e l h in Ok (fwrite blk f)
  end.

(** OSEGY.cpp:353-422 [write_additional_trace_headers]:
    [for (i = 1; i < max_num; ++i)], [n] iterations remain; blocks without a
    layout are written as zeros. *)
Fixpoint write_additional (p : platform) (e : endian) (ls : layouts) (h : hdr)
         (n : nat) (f : file) : outcome file :=
  match n with
  | O => Ok f
  | S n' =>
    match ls with
    | [] => write_additional p e [] h n' (fwrite (zeros TR_HEADER_SIZE) f)
    | (_, l) :: ls' =>
      let* blk := hdr_block p e l h in
      write_additional p e ls' h n' (fwrite blk f)
    end
  end.

(** OSEGY.cpp:452-459 [write_trace_samples_fix]: the samples are stored from
    the start of the (reused) buffer, then the whole buffer is written. *)
Definition fill_samples (p : platform) (e : endian) (fmt : Z) (smp : list Z)
           (sbuf : list Z) : outcome (list Z) :=
  let* wsmp := sample_writer p e fmt in
  let* encs := mapM wsmp smp in
  upd sbuf 0 (concat encs).

(** [vector::resize(n)] keeps a prefix and appends zeros. *)
Definition resize_buf (p : platform) (n : Z) (b : list Z) : outcome (list Z) :=
  let* sz := resize_to p n in
  Ok (firstn (Z.to_nat sz) b ++ repeat 0 (Z.to_nat sz - List.length b)%nat).

Definition o_upd (s : osegy) (f : file) (b : bin_hdr) (sb : list Z) : osegy :=
  mkO f b (o_maps s) (o_text s) (o_stanzas s) (o_endian s) (o_bps s) sb
      (o_first s) (o_min s) (o_add s) (o_var s).

(** [*hdr.get(key)]: dereferencing an empty optional is undefined. *)
Definition get_req (h : hdr) (k : string) : outcome value :=
  match hget h k with Some v => Ok v | None => UB end.

(** OSEGYRev0.cpp:69-94, OSEGYRev1.cpp:80-107, OSEGYRev2.cpp:132-151: complete
    the binary header from the first trace. *)
Definition set_min (p : platform) (m : minimal) (h : hdr) (s : osegy)
  : outcome osegy :=
  if negb (fpos (o_file s) =? o_first s) then Ok s else
  let* v := get_req h "SAMP_NUM" in
  let* n := get_int v in
  if 32767 <? n then Throw ESedaman else
  let b1 := set_samp_per_tr (o_bh s) (wraps 16 n) in
  let* v := get_req h "SAMP_INT" in
  let* d := match m, v with
            | MIntOnly, _ => let* z := get_int v in Ok (i2d z)
            | _, VInt z => Ok (i2d z)
            | _, VDbl d => Ok d
            end in
  (* samp_int > INT16_MAX || !static_cast<int16_t>(samp_int) *)
  if d_lt (i2d 32767) d then Throw ESedaman else
  let* si := d2s p 16 d in
  if si =? 0 then Throw ESedaman else
  let b2 := set_samp_int b1 si in
  let* bytes := sarith 64 (n * o_bps s) in
  let* sb := resize_buf p bytes (o_sbuf s) in
  let* f1 := write_bin_header (o_endian s) b2 (o_file s) in
  Ok (o_upd s f1 b2 sb).

(** OSEGY.cpp:442-450 [write_trace_samples_var]: buffer size from SAMP_NUM. *)
Definition var_buf (p : platform) (h : hdr) (bps : Z) (sb : list Z)
  : outcome (list Z) :=
  let* v := get_req h "SAMP_NUM" in
  let* n := get_int v in
  let* prod := sarith 64 (n * bps) in
  let bytes := wrapu 64 prod in
  if bytes =? len sb then Ok sb else resize_buf p bytes sb.

(** The [write_trace] lambdas of the three revisions. *)
Definition write_trace (p : platform) (s : osegy) (t : trace) : outcome osegy :=
  let* s1 := (match o_min s with
              | MNone => Ok s
              | m => set_min p m (t_hdr t) s
              end) in
  let* f1 := write_trace_header p (o_endian s1) (o_maps s1) (t_hdr t) (o_file s1) in
  let* f2 := (if o_add s1
              then write_additional p (o_endian s1) (tl (o_maps s1)) (t_hdr t)
                     (Z.to_nat (bh_max_num_add_tr_headers (o_bh s1) - 1)) f1
              else Ok f1) in
  let* sb := (if o_var s1 then var_buf p (t_hdr t) (o_bps s1) (o_sbuf s1)
              else Ok (o_sbuf s1)) in
  let* sb' := fill_samples p (o_endian s1) (bh_format_code (o_bh s1)) (t_smp t) sb in
  Ok (o_upd s1 (fwrite sb' f2) (o_bh s1) sb').

Fixpoint write_traces (p : platform) (s : osegy) (ts : list trace) : outcome osegy :=
  match ts with
  | [] => Ok s
  | t :: ts' => let* s1 := write_trace p s t in write_traces p s1 ts'
  end.

(** [txt_hdr.replace(pos, 12, with)] at the place of "SEG-Y_REV2.0"
    (line 39, column 5 of the template, i.e. offset 3044). *)
Definition replace_rev (by_ : list Z) : list Z :=
  firstn (Z.to_nat 3044) default_text_header ++ by_
  ++ skipn (Z.to_nat 3056) default_text_header.

(** OSEGYRev0.cpp:34-42: [string(' ', 12)] is 32 characters of code 12. *)
Definition rev0_default_text : list Z := ascii_to_ebcdic (replace_rev (repeat 12 32)).
(** OSEGYRev1.cpp:34-41 *)
Definition rev1_default_text : list Z := replace_rev (bytes_of_string "SEG Y REV1  ").
(** OSEGYRev2.cpp:37-40 *)
Definition rev2_default_text : list Z := default_text_header.

Definition is_3200 (s : list Z) : bool := len s =? TEXT_HEADER_SIZE.

(** [file.write(s.c_str(), 3200)]: the first 3200 characters. *)
Definition write_text (s : list Z) (f : file) : file :=
  fwrite (firstn (Z.to_nat TEXT_HEADER_SIZE) s) f.

(** [memcmp(&header, &zero, sizeof)] == 0 *)
Definition same_as (p : platform) (a b : bin_hdr) : bool := bin_eqb a b && p_pad_eq p.

(** OSEGYRev0.cpp:31-111: [txt = []] is the empty string (default argument). *)
Definition rev0_open (p : platform) (txt : list Z) (bh : bin_hdr) (ls : layouts)
  : outcome osegy :=
  let* _ := check_tr_hdr_map bh ls in
  let* t := (match txt with
             | [] => Ok rev0_default_text
             | _ => if is_3200 txt then Ok txt else Throw ESedaman
             end) in
  let f1 := write_text t empty_file in
  let b := if bh_format_code bh =? 0 then set_format_code bh 1 else bh in
  let* e := endian_of (bh_endianness b) in
  let* f2 := write_bin_header e b f1 in
  let first := fpos f2 in
  let* _ := sample_writer p e (bh_format_code b) in
  match o_bytes_per_sample (bh_format_code b) with
  | None => UB
  | Some bps =>
    if same_as p b (set_format_code bin_zero 1)
    then Ok (mkO f2 b ls [t] [] e bps [] first MAnyInt false false)
    else
      let* sb := resize_buf p (wrapu 16 (bh_samp_per_tr b) * bps) [] in
      Ok (mkO f2 b ls [t] [] e bps sb first MNone false false)
  end.

(** OSEGY.cpp:424-431 [write_ext_text_headers] after the binary header. *)
Definition write_ext_text (texts : list (list Z)) (f : file) : file :=
  fold_left (fun f t => write_text t f) (tl texts) f.

(** The common start of OSEGYRev1.cpp:34-57 and OSEGYRev2.cpp:37-64. *)
Definition open_12 (p : platform) (dflt : list Z) (txts : list (list Z))
           (bh : bin_hdr)
  : outcome (list (list Z) * bin_hdr * endian * Z * file) :=
  let* ts := (match txts with
              | [] => Ok [dflt]
              | _ => if forallb is_3200 txts then Ok txts else Throw ESedaman
              end) in
  match ts with
  | [] => UB
  | t0 :: _ =>
    let f1 := write_text t0 empty_file in
    let b := if bh_format_code bh =? 0 then set_format_code bh 5 else bh in
    let* e := endian_of (bh_endianness b) in
    let* f2 := write_bin_header e b f1 in
    let b' := set_ext_text_headers_num b (wraps 16 (wraps 32 (len ts - 1))) in
    let f3 := write_ext_text ts f2 in
    let* _ := sample_writer p e (bh_format_code b') in
    match o_bytes_per_sample (bh_format_code b') with
    | None => UB
    | Some bps => Ok (ts, b', e, bps, f3)
    end
  end.

(** OSEGYRev1.cpp:31-124 *)
Definition rev1_open (p : platform) (txts : list (list Z)) (bh : bin_hdr)
           (ls : layouts) : outcome osegy :=
  let* _ := check_tr_hdr_map bh ls in
  let* (ts, b, e, bps, f) := open_12 p rev1_default_text txts bh in
  if same_as p b (set_format_code bin_zero 5)
  then Ok (mkO f b ls ts [] e bps [] (fpos f) MAnyInt false true)
  else if negb (bh_fixed_tr_length b =? 0) then
    let* sb := resize_buf p (wrapu 16 (bh_samp_per_tr b) * bps) [] in
    Ok (mkO f b ls ts [] e bps sb (fpos f) MNone false false)
  else Ok (mkO f b ls ts [] e bps [] (fpos f) MNone false true).

(** OSEGYRev2.cpp:33-167.  The stanza check comes after the text check and
    before anything is written.  In the branch with an all-zero header the
    members fixed_tr_length and max_num_add_tr_headers are zero, so only the
    last lambda of lines 98-126 is reachable. *)
Definition rev2_open (p : platform) (txts : list (list Z)) (bh : bin_hdr)
           (stanzas : list (list Z)) (ls : layouts) : outcome osegy :=
  let* _ := check_tr_hdr_map bh ls in
  let* _ := (match txts with
             | [] => Ok tt
             | _ => if forallb is_3200 txts then Ok tt else Throw ESedaman
             end) in
  let* _ := (if forallb is_3200 stanzas then Ok tt else Throw ESedaman) in
  let* (ts, b, e, bps, f) := open_12 p rev2_default_text txts bh in
  let add := negb (bh_max_num_add_tr_headers b =? 0) in
  let fixed := negb (bh_fixed_tr_length b =? 0) in
  if same_as p b (set_format_code bin_zero 5)
  then Ok (mkO f b ls ts stanzas e bps [] (fpos f) MIntOnly add (negb fixed))
  else if fixed then
    let* sb := resize_buf p (wrapu 16 (bh_samp_per_tr b) * bps) [] in
    Ok (mkO f b ls ts stanzas e bps sb (fpos f) MNone add false)
  else Ok (mkO f b ls ts stanzas e bps [] (fpos f) MNone add true).

(** OSEGYRev2.cpp:169-174 with OSEGY.cpp:433-440: the destructor.  The
    revision 0 and 1 destructors write nothing. *)
Definition rev2_close (s : osegy) : outcome file :=
  let* f1 := fseek_end 0 (o_file s) in
  if bh_num_of_trailer_stanza (o_bh s) =? 0 then Ok f1
  else Ok (fold_left (fun f t => write_text t f) (o_stanzas s) f1).
