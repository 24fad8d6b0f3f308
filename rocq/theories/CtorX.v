(** The constructors of the writers once more, with what the file contains when
    they throw, and the directory in which they create their files.  OSegy.v and
    OSegd.v describe a construction by its outcome alone.  Models
    src/CommonSEGY.cpp:18-31, src/CommonSEGD.cpp:21-42, src/OSEGY.cpp:461-467,
    src/OSEGYRev0.cpp:31-111, src/OSEGYRev1.cpp:31-124, src/OSEGYRev2.cpp:33-167,
    src/OSEGD.cpp:1277-1296 and src/OSEGDRev2_1.cpp:24-69.  When a constructor
    throws, the members constructed so far are destroyed; the destructor of the
    stream hands what was written to the operating system, and the destructor of
    OSEGYRev2, which would write trailer stanzas, does not run. *)
From Coq Require Import String.
From Verif Require Import Base Platform Fp TraceHdr SegyTypes SegyCodec ISegy OSegy SegdTypes OSegd StepX Procs.

(** Steps on the open file. *)
Definition XF (A : Type) : Type := St file A.
Definition xf_write (d : list Z) : XF unit := fun f => (Ok tt, fwrite d f).
(** [file.write(s.c_str(), 3200)] *)
Definition xf_text (t : list Z) : XF unit := xf_write (firstn (Z.to_nat TEXT_HEADER_SIZE) t).
Fixpoint xf_texts (ts : list (list Z)) : XF unit :=
  match ts with
  | [] => xret tt
  | t :: ts' => let! _ := xf_text t in xf_texts ts'
  end.
(** OSEGY.cpp:236-287 *)
Definition xf_bin (e : endian) (b : bin_hdr) : XF unit :=
  let! blk := xlift (bin_header_bytes e b) in
  let! f := xget in
  let! f1 := xlift (fseek TEXT_HEADER_SIZE f) in
  let! _ := xput f1 in
  xf_write blk.

(** OSEGYRev0.cpp:31-111 after CommonSEGY.cpp:30 *)
Definition x_rev0 (p : platform) (txt : list Z) (bh : bin_hdr) (ls : layouts) : XF osegy :=
  let! _ := xlift (check_tr_hdr_map bh ls) in
  let! t := xlift (match txt with
                   | [] => Ok rev0_default_text
                   | _ => if is_3200 txt then Ok txt else Throw ESedaman
                   end) in
  let! _ := xf_text t in
  let b := if bh_format_code bh =? 0 then set_format_code bh 1 else bh in
  let! e := xlift (endian_of (bh_endianness b)) in
  let! _ := xf_bin e b in
  let! f := xget in
  let! _ := xlift (sample_writer p e (bh_format_code b)) in
  match o_bytes_per_sample (bh_format_code b) with
  | None => xlift UB
  | Some bps =>
    if same_as p b (set_format_code bin_zero 1)
    then xret (mkO f b ls [t] [] e bps [] (fpos f) MAnyInt false false)
    else
      let! sb := xlift (resize_buf p (wrapu 16 (bh_samp_per_tr b) * bps) []) in
      xret (mkO f b ls [t] [] e bps sb (fpos f) MNone false false)
  end.

(** The common part of OSEGYRev1.cpp:34-57 and OSEGYRev2.cpp:37-64. *)
Definition x_12 (p : platform) (dflt : list Z) (txts : list (list Z)) (bh : bin_hdr)
  : XF (list (list Z) * bin_hdr * endian * Z) :=
  let! ts := xlift (match txts with
                    | [] => Ok [dflt]
                    | _ => if forallb is_3200 txts then Ok txts else Throw ESedaman
                    end) in
  match ts with
  | [] => xlift UB
  | t0 :: more =>
    let! _ := xf_text t0 in
    let b := if bh_format_code bh =? 0 then set_format_code bh 5 else bh in
    let! e := xlift (endian_of (bh_endianness b)) in
    let! _ := xf_bin e b in
    let b' := set_ext_text_headers_num b (wraps 16 (wraps 32 (len ts - 1))) in
    let! _ := xf_texts more in
    let! _ := xlift (sample_writer p e (bh_format_code b')) in
    match o_bytes_per_sample (bh_format_code b') with
    | None => xlift UB
    | Some bps => xret (ts, b', e, bps)
    end
  end.

(** OSEGYRev1.cpp:31-124 *)
Definition x_rev1 (p : platform) (txts : list (list Z)) (bh : bin_hdr) (ls : layouts) : XF osegy :=
  let! _ := xlift (check_tr_hdr_map bh ls) in
  let! (ts, b, e, bps) := x_12 p rev1_default_text txts bh in
  let! f := xget in
  if same_as p b (set_format_code bin_zero 5)
  then xret (mkO f b ls ts [] e bps [] (fpos f) MAnyInt false true)
  else if negb (bh_fixed_tr_length b =? 0) then
    let! sb := xlift (resize_buf p (wrapu 16 (bh_samp_per_tr b) * bps) []) in
    xret (mkO f b ls ts [] e bps sb (fpos f) MNone false false)
  else xret (mkO f b ls ts [] e bps [] (fpos f) MNone false true).

(** OSEGYRev2.cpp:33-167 *)
Definition x_rev2 (p : platform) (txts : list (list Z)) (bh : bin_hdr) (stanzas : list (list Z)) (ls : layouts) : XF osegy :=
  let! _ := xlift (check_tr_hdr_map bh ls) in
  let! _ := xlift (match txts with
                   | [] => Ok tt
                   | _ => if forallb is_3200 txts then Ok tt else Throw ESedaman
                   end) in
  let! _ := xlift (if forallb is_3200 stanzas then Ok tt else Throw ESedaman) in
  let! (ts, b, e, bps) := x_12 p rev2_default_text txts bh in
  let! f := xget in
  let add := negb (bh_max_num_add_tr_headers b =? 0) in
  let fixed := negb (bh_fixed_tr_length b =? 0) in
  if same_as p b (set_format_code bin_zero 5)
  then xret (mkO f b ls ts stanzas e bps [] (fpos f) MIntOnly add (negb fixed))
  else if fixed then
    let! sb := xlift (resize_buf p (wrapu 16 (bh_samp_per_tr b) * bps) []) in
    xret (mkO f b ls ts stanzas e bps sb (fpos f) MNone add false)
  else xret (mkO f b ls ts stanzas e bps [] (fpos f) MNone add true).

(** A block of a SEG-D file: memset, the stores, file.write. *)
Definition xf_block (n : Z) (w : W) : XF unit :=
  let! blk := xlift (wrun w (zeros n)) in xf_write blk.
(** OSEGD.cpp:251-278 *)
Fixpoint xf_gNs (p : platform) (m : blkmap) : XF unit :=
  match m with
  | [] => xret tt
  | (_, AN h) :: m' => let! _ := xf_block GEN_HDR_SIZE (ghN_writer p h) in xf_gNs p m'
  | (_, A3 _ _ _) :: _ => xlift UB
  end.
(** OSEGD.cpp:818-882 *)
Fixpoint xf_ch_sets (p : platform) (g1 : gh1) (g2 : gh2) (cs : list chset) : XF unit :=
  match cs with
  | [] => xret tt
  | c :: cs' =>
    let! _ := (if negb (g1_add_blocks g1 =? 0) && negb (g2_major g2 <? 3) then xlift UB
               else xf_block CH_SET_HDR_SIZE (chset_writer p c)) in
    xf_ch_sets p g1 g2 cs'
  end.
(** OSEGDRev2_1.cpp:50-51 *)
Fixpoint xf_zeros (n : nat) : XF unit :=
  match n with
  | O => xret tt
  | S n' => let! _ := xf_write (zeros SKEW_BLOCK_SIZE) in xf_zeros n'
  end.
(** OSEGDRev2_1.cpp:34-53: the sizes are checked one scan type after the other. *)
Fixpoint xf_scan_types (p : platform) (g1 : gh1) (g2 : gh2) (sets : list (list chset)) : XF unit :=
  match sets with
  | [] => xret tt
  | cs :: sets' =>
    if negb (len cs =? o_nsets g1 g2) then xthrow ESedaman
    else
      let! _ := xf_ch_sets p g1 g2 cs in
      let! _ := xf_zeros (Z.to_nat (g1_skew_blocks g1)) in
      xf_scan_types p g1 g2 sets'
  end.
(** OSEGDRev2_1.cpp:62-68 *)
Fixpoint xf_blks (n : nat) (bs : list (list Z)) : XF unit :=
  match n with
  | O => xret tt
  | S n' =>
    match bs with
    | [] => xlift UB
    | b :: bs' => if len b <? 32 then xlift UB
                  else let! _ := xf_write (firstn 32 b) in xf_blks n' bs'
    end
  end.

(** OSEGD.cpp:1277-1296 and OSEGDRev2_1.cpp:24-69 *)
Definition x_segd (p : platform) (a : osegd_args) : XF osegd :=
  let g1 := oa_g1 a in
  let g2 := oa_g2 a in
  let! m := xlift (add_blocks [] (oa_adds a)) in
  if negb (len (oa_sets a) =? wrapu 64 (g1_scan_types g1)) then xthrow ESedaman
  else
    let chans := wrapu 64 (p_chans0 p + fold_right Z.add 0 (map c_channels (concat (oa_sets a)))) in
    let! _ := xlift (d_sample_writer p (g1_format_code g1)) in
    let! _ := xf_block GEN_HDR_SIZE (gh1_writer p g1 g2) in
    let! _ := xf_block GEN_HDR_SIZE (gh2_writer g2) in
    let! _ := xf_gNs p m in
    let! _ := xf_scan_types p g1 g2 (oa_sets a) in
    let nextd := wrapu 32 (if g1_extended_blocks g1 =? 165 then g2_extended_blocks g2 else g1_extended_blocks g1) in
    let nextl := wrapu 32 (if g1_external_blocks g1 =? 165 then g2_external_blocks g2 else g1_external_blocks g1) in
    let! _ := xf_blks (Z.to_nat nextd) (oa_extd a) in
    let! _ := xf_blks (Z.to_nat nextl) (oa_extl a) in
    let! f := xget in
    xret (mkOD f g1 g2 m (oa_sets a) (oa_extd a) (oa_extl a) (oa_layouts a) chans 0 [] []).

(** ** The directory *)

(** The files by name. *)
Definition disk : Type := string -> option (list Z).
Definition store (d : disk) (name : string) (c : list Z) : disk :=
  fun n => if String.eqb n name then Some c else d n.

(** [fl.open(name, out | binary)] creates the file or empties it, and throws if
    the operating system refuses ([can name = false]), which changes nothing.
    Then the rest of the constructor; afterwards the file has what was written.
    Simplification: nobody looks at the file while the constructor runs. *)
Definition new_file {A} (can : string -> bool) (name : string) (m : XF A) : St disk A := fun d =>
  if can name then let (o, f) := m empty_file in (o, store d name (fdata f)) else (Throw EIO, d).

(** The constructors of the four classes of writers. *)
Inductive ctor : Type :=
| NewRev0 (txt : list Z) (bh : bin_hdr) (ls : layouts)
| NewRev1 (txts : list (list Z)) (bh : bin_hdr) (ls : layouts)
| NewRev2 (txts : list (list Z)) (bh : bin_hdr) (stanzas : list (list Z)) (ls : layouts)
| NewSegd (a : osegd_args).
Definition construct (p : platform) (k : ctor) : XF (osegy + osegd) :=
  match k with
  | NewRev0 txt bh ls => let! s := x_rev0 p txt bh ls in xret (inl s)
  | NewRev1 txts bh ls => let! s := x_rev1 p txts bh ls in xret (inl s)
  | NewRev2 txts bh st ls => let! s := x_rev2 p txts bh st ls in xret (inl s)
  | NewSegd a => let! s := x_segd p a in xret (inr s)
  end.
