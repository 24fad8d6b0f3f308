(** The SEG-Y reader.  Models src/ISEGY.cpp. *)
From Verif Require Import Base Platform Fp TraceHdr SegyTypes SegyCodec.

(** ISEGY.cpp:50-53 and the members of CommonSEGY (CommonSEGY.hpp:197-206).
    The sample buffer is represented by its size: every use overwrites all of
    it first (ISEGY.cpp:526).  [hdr_buf] is overwritten before each use and is
    not part of the state. *)
Record isegy : Type := mkI {
  i_file : file;
  i_bh : bin_hdr;
  i_maps : layouts;
  i_text : list (list Z);
  i_stanzas : list (list Z);
  i_endian : endian;
  i_bps : Z;
  i_spt : Z;
  i_bufsz : Z;
  i_first : Z;
  i_cur : Z;
  i_eod : Z
}.

(** "((SEG: EndText))" *)
Definition end_text : list Z := bytes_of_string "((SEG: EndText))".
Fixpoint starts_with (pre l : list Z) : bool :=
  match pre, l with
  | [], _ => true
  | a :: pre', b :: l' => (a =? b) && starts_with pre' l'
  | _, _ => false
  end.

(** ISEGY.cpp:330-337, 361-368, 398-405: read blocks until one starts with the
    end stanza.  The fuel is the file size plus one; each step consumes 3200
    bytes or throws. *)
Fixpoint read_until_end (fuel : nat) (f : file) (acc : list (list Z))
  : outcome (list (list Z) * file) :=
  match fuel with
  | O => Throw ELoop
  | S k =>
    let* (b, f1) := fread TEXT_HEADER_SIZE f in
    if starts_with end_text b then Ok (acc ++ [b], f1)
    else read_until_end k f1 (acc ++ [b])
  end.

(** ISEGY.cpp:339-343, 412-416: [for (int i = n; i; --i)] around a block read.
    A negative [n] keeps decrementing. *)
Fixpoint read_blocks (fuel : nat) (i : Z) (f : file) (acc : list (list Z))
  : outcome (list (list Z) * file) :=
  if i =? 0 then Ok (acc, f)
  else match fuel with
       | O => Throw ELoop
       | S k =>
         let* (b, f1) := fread TEXT_HEADER_SIZE f in
         let* i' := sarith 32 (i - 1) in
         read_blocks k i' f1 (acc ++ [b])
       end.

Definition file_fuel (f : file) : nat := S (S (List.length (fdata f))).

(** ISEGY.cpp:322-345 *)
Definition read_ext_text_headers (num : Z) (f : file) (acc : list (list Z))
  : outcome (list (list Z) * file) :=
  if num =? 0 then Ok (acc, f)
  else if num =? -1 then read_until_end (file_fuel f) f acc
  else read_blocks (file_fuel f) num f acc.

(** ISEGY.cpp:372-395: walk over [n] traces of variable length. *)
Fixpoint skip_var_traces (fuel : nat) (e : endian) (max_add bps : Z)
         (n : Z) (f : file) : outcome file :=
  if n =? 0 then Ok f
  else match fuel with
       | O => Throw ELoop
       | S k =>
         let* (h, f1) := fread TR_HEADER_SIZE f in
         let* c := at_off h 114 in
         let* (s16, _) := rd_i e 2 c in
         let ns := wrapu 32 s16 in
         let* (ns, f2) :=
           (if max_add =? 0 then Ok (ns, f1)
            else
              let* (h2, f2) := fread TR_HEADER_SIZE f1 in
              let* c := at_off h2 136 in
              let* (ns2, _) := rd_u e 4 c in
              let* c := at_off h2 156 in
              let* (a0, _) := rd_u e 2 c in
              let a := if a0 =? 0 then wrapu 16 max_add else a0 in
              let* f3 := fseek_cur ((a - 1) * TR_HEADER_SIZE) f2 in
              Ok (ns2, f3)) in
         let* f3 := fseek_cur (wrapu 32 (ns * bps)) f2 in
         skip_var_traces k e max_add bps (n - 1) f3
       end.

(** ISEGY.cpp:347-418 [read_trailer_stanzas]: returns the end of the trace
    data and the stanzas. *)
Definition read_trailer_stanzas (e : endian) (b : bin_hdr) (bps spt : Z) (f : file)
  : outcome (Z * list (list Z) * file) :=
  let num := bh_num_of_trailer_stanza b in
  if num =? -1 then
    if bh_num_of_tr_in_file b =? 0 then Throw ESedaman
    else if negb (bh_fixed_tr_length b =? 0) then
      (* int * int32_t, then * uint64_t, then to streamoff *)
      let* prod := sarith 32 (bps * spt) in
      let* f1 := fseek_cur (wraps 64 (prod * bh_num_of_tr_in_file b)) f in
      let* (st, f2) := read_until_end (file_fuel f1) f1 [] in
      Ok (fpos f1, st, f2)
    else
      let* f1 := skip_var_traces (file_fuel f) e (bh_max_num_add_tr_headers b)
                                 bps (bh_num_of_tr_in_file b) f in
      let* (st, f2) := read_until_end (file_fuel f1) f1 [] in
      Ok (fpos f1, st, f2)
  else
    let* off := sarith 32 (num * TEXT_HEADER_SIZE) in
    let* f1 := fseek_end off f in
    let* (st, f2) := read_blocks (file_fuel f1) num f1 [] in
    Ok (fpos f1, st, f2).

(** [vector<char>::resize(static_cast<size_t>(n))] *)
Definition resize_to (p : platform) (n : Z) : outcome Z :=
  let u := wrapu 64 n in
  if u <=? p_max_alloc p then Ok u else Throw EAlloc.

(** ISEGY.cpp:89-130 [initialization], after the CommonSEGY constructor
    (CommonSEGY.cpp:18-31).  [b0] is the caller's binary header when
    [override] is true (ISEGY.cpp:41-48) and a zero header otherwise. *)
Definition i_open (p : platform) (content : list Z) (maps : layouts)
           (override : bool) (b0 : bin_hdr) : outcome isegy :=
  let* _ := check_tr_hdr_map b0 maps in
  let* (text, f1) := fread TEXT_HEADER_SIZE (open_in content) in
  let* (bin, f2) := fread BIN_HEADER_SIZE f1 in
  (* ISEGY.cpp:146-149 *)
  let b1 := set_endianness b0 (wraps 32 (le_dec (slice 96 4 bin))) in
  let* e := endian_of (bh_endianness b1) in
  let* b := (if override then Ok b1
             else let* (b, _) := fill_bin_header e b1 bin in Ok b) in
  let* _ := sample_reader p e (bh_format_code b) in
  match bytes_per_sample (bh_format_code b) with
  | None => UB
  | Some bps =>
    let* (texts, f3) := read_ext_text_headers (bh_ext_text_headers_num b) f2 [text] in
    let* (first, f4) :=
      (if bh_byte_off_of_first_tr b =? 0 then Ok (fpos f3, f3)
       else let pos := wraps 64 (bh_byte_off_of_first_tr b) in
            let* f4 := fseek pos f3 in Ok (pos, f4)) in
    let spt := if bh_ext_samp_per_tr b =? 0 then wrapu 16 (bh_samp_per_tr b)
               else bh_ext_samp_per_tr b in
    let* (eod_st, f5) := read_trailer_stanzas e b bps spt f4 in
    let (eod, st) := (eod_st : Z * list (list Z)) in
    let* f6 := fseek first f5 in
    let* n := sarith 32 (spt * bps) in
    let* sz := resize_to p n in
    Ok (mkI f6 b maps texts st e bps spt sz first first eod)
  end.

(** ISEGY(file, hdr_map) and ISEGY(file, bin_header, hdr_map),
    ISEGY.cpp:574-585 *)
Definition isegy_open p content maps := i_open p content maps false bin_zero.
Definition isegy_open_bh p content bh maps := i_open p content maps true bh.

(** ISEGY.cpp:458-501: all fields of one header block. *)
Fixpoint rd_fields (p : platform) (e : endian) (block : list Z) (l : layout)
         (h : hdr) : outcome hdr :=
  match l with
  | [] => Ok h
  | en :: l' =>
    let* c := at_off block (e_off en) in
    let* (v, _) := rd_field p e (e_type en) c in
    rd_fields p e block l' (hset h (e_name en) v)
  end.

(** ISEGY.cpp:453-505: the loop over header blocks; [n] blocks remain.  Blocks
    without a layout are skipped; the consecutive relative seeks are collapsed
    into one. *)
Fixpoint rd_headers (p : platform) (e : endian) (ls : layouts) (n : Z)
         (f : file) (h : hdr) : outcome (hdr * file) :=
  if n <=? 0 then Ok (h, f)
  else match ls with
       | [] => let* f1 := fseek_cur (n * TR_HEADER_SIZE) f in Ok (h, f1)
       | (_, l) :: ls' =>
         let* (block, f1) := fread TR_HEADER_SIZE f in
         let* h1 := rd_fields p e block l h in
         rd_headers p e ls' (n - 1) f1 h1
       end.

(** ISEGY.cpp:450-507 [read_trc_header] *)
Definition read_trc_header (p : platform) (s : isegy) : outcome (hdr * file) :=
  let* n := sarith 32 (bh_max_num_add_tr_headers (i_bh s) + 1) in
  rd_headers p (i_endian s) (i_maps s) n (i_file s) [].

(** ISEGY.cpp:119-120, 512-513 *)
Definition is_fixed (b : bin_hdr) : bool :=
  negb (bh_fixed_tr_length b =? 0) || (bh_SEGY_rev_major_ver b =? 0).

Definition i_set (s : isegy) (f : file) (bufsz : Z) : isegy :=
  mkI f (i_bh s) (i_maps s) (i_text s) (i_stanzas s) (i_endian s) (i_bps s)
      (i_spt s) bufsz (i_first s) (fpos f) (i_eod s).

(** ISEGY.cpp:524-532 [read_trc_smpls_fix] on a buffer of [sz] bytes *)
Definition read_smpls (p : platform) (s : isegy) (sz : Z) (f : file)
  : outcome (list Z * file) :=
  let* (buf, f1) := fread sz f in
  let* r := sample_reader p (i_endian s) (bh_format_code (i_bh s)) in
  let* (smp, _) := prep r (Z.to_nat (sz / i_bps s)) buf in
  Ok (smp, f1).

(** ISEGY.cpp:544-549 [read_trace] with 121-129 and 534-542 *)
Definition read_trace (p : platform) (s : isegy) : outcome (trace * isegy) :=
  let* (h, f1) := read_trc_header p s in
  if is_fixed (i_bh s) then
    let* (smp, f2) := read_smpls p s (i_bufsz s) f1 in
    Ok (mkTrace h smp, i_set s f2 (i_bufsz s))
  else
    let (v, h') := hidx h "SAMP_NUM" in
    let* n := get_int v in
    let want := wrapu 64 (wrapu 64 n * i_bps s) in
    let* sz := (if i_bufsz s =? want then Ok want else resize_to p want) in
    let* (smp, f2) := read_smpls p s sz f1 in
    Ok (mkTrace h' smp, i_set s f2 sz).

(** ISEGY.cpp:509-522 [read_header] *)
Definition read_header (p : platform) (s : isegy) : outcome (hdr * isegy) :=
  let* (h, f1) := read_trc_header p s in
  if is_fixed (i_bh s) then
    let* off := sarith 32 (i_spt s * i_bps s) in
    let* f2 := fseek_cur off f1 in
    Ok (h, i_set s f2 (i_bufsz s))
  else
    let (v, h') := hidx h "SAMP_NUM" in
    let* n := get_int v in
    let* f2 := fseek_cur (wraps 64 (wrapu 64 n * i_bps s)) f1 in
    Ok (h', i_set s f2 (i_bufsz s)).

(** ISEGY.cpp:551-557 [has_trace] *)
Definition has_trace (s : isegy) : bool := negb (i_cur s =? i_eod s).

(** The client loop [while (s.has_trace()) traces.push_back(s.read_trace())],
    as in README.md and the Python iterator; [fuel] bounds the number of
    iterations. *)
Fixpoint read_all (p : platform) (fuel : nat) (s : isegy)
  : outcome (list trace * isegy) :=
  if has_trace s then
    match fuel with
    | O => Throw ELoop
    | S k =>
      let* (t, s1) := read_trace p s in
      let* (ts, s2) := read_all p k s1 in
      Ok (t :: ts, s2)
    end
  else Ok ([], s).

(** ISEGY.cpp:587-591 [read_binary_header]; the default layout argument. *)
Definition read_binary_header (p : platform) (content : list Z) : outcome bin_hdr :=
  let* s := isegy_open p content default_trace_header in Ok (i_bh s).
