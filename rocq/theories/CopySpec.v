(** When a copy of a SEG-Y file must be the file itself: what the file contains
    has to be something the user sees.  Numbers in bytes, spans and places of
    traces are those of SegyDecSpec, kinds of writers those of FileSpec. *)
From Coq Require Import Reals.
From Verif Require Import Base Platform CodecSpec FpSpec TraceHdr SegyTypes ISegy OSegy LayoutSpec SegyDecSpec FileSpec SegyEncSpec.
Local Open Scope Z_scope.

(** The writer of the revision the header names, given the text headers the
    reader found. *)
Definition writer_for (b : bin_hdr) (texts : list (list Z)) : writer :=
  match bh_SEGY_rev_major_ver b with
  | 0 => W0 (hd [] texts)
  | 1 => W1 texts
  | _ => W2 texts []
  end.

(** A sample that survives: an IBM number is normalised and within reach of the
    platform's log(), a single is not a NaN, a 64-bit integer is a double, and a
    negative integer is written on a compiler that converts like gcc. *)
Definition keeps (p : platform) (o : order) (fmt : Z) (l : list Z) : Prop :=
  match fmt with
  | 1 => ibm_normal (uval o l) /\ forall d, holds d (ibm_val (uval o l)) -> exp_right p d (ibm_val (uval o l))
  | 5 => flt_nan (uval o l) = false
  | 6 | 10 | 11 | 15 | 16 => True
  | 9 => Z.abs (sval o l) <= 2 ^ 53 /\ (0 <= sval o l \/ p_d2u p = gcc_d2u)
  | 12 => uval o l <= 2 ^ 53
  | _ => 0 <= sval o l \/ p_d2u p = gcc_d2u
  end.

(** Bytes [a] to [b] hold nothing. *)
Definition unused (a b : Z) (c : list Z) : Prop := span a b c = zeros (b - a + 1).

(** Headers of a file without anything the writers do not write back: no bytes
    in the unassigned parts of the binary header; no trailer stanzas and no
    additional trace headers; the traces right behind the text headers; the
    extended number of samples, if there is one, fits into 16 bits.  A file of
    revision 0 has one text header and is not one the writer takes for blank. *)
Definition plain (c : list Z) (b : bin_hdr) (texts : list (list Z)) : Prop :=
  unused 3301 3500 c /\ unused 3533 3600 c /\
  (bh_SEGY_rev_major_ver b <= 1 -> unused 3507 3532 c) /\
  slice 3296 4 c <> [1; 2; 3; 4] /\
  bh_max_num_add_tr_headers b = 0 /\ bh_num_of_trailer_stanza b = 0 /\
  first_at b (len texts) = 400 + 3200 * len texts /\
  (same_length b = true -> declared b = as_unsigned 2 (bh_samp_per_tr b)) /\
  (bh_SEGY_rev_major_ver b = 0 -> bh_ext_text_headers_num b = 0 /\ ~ blank (writer_for b texts) b) /\
  len texts <= 65536.

(** The traces [ts] of a file that start at [pos]: bytes of a header outside of
    the fields are zero, and every sample survives. *)
Fixpoint tidy (p : platform) (o : order) (fmt : Z) (l : layout) (c : list Z) (pos : Z) (ts : list trace) : Prop :=
  match ts with
  | [] => True
  | t :: ts' =>
    (forall i, 0 <= i < 240 -> ~ covered l i -> nth_error c (Z.to_nat (pos + i)) = Some 0) /\
    (forall i, 0 <= i < len (t_smp t) -> keeps p o fmt (slice (pos + 240 + sample_width fmt * i) (sample_width fmt) c)) /\
    tidy p o fmt l c (pos + 240 + sample_width fmt * len (t_smp t)) ts'
  end.

(** A layout of integers. *)
Definition integers (l : layout) : Prop := forall en, In en l -> int_field (e_type en) <> None.

(** The client program: read everything, write everything, and destroy the
    writer; the content of the new file. *)
Definition copy (p : platform) (content : list Z) (ls : layouts) (fuel : nat) : outcome (list Z) :=
  let* s := isegy_open p content ls in
  let* (ts, _) := read_all p fuel s in
  let w := writer_for (i_bh s) (i_text s) in
  let* s2 := w_open p w (i_bh s) ls in
  let* s3 := write_traces p s2 ts in
  match w with
  | W2 _ _ => let* f := rev2_close s3 in Ok (fdata f)
  | _ => Ok (fdata (o_file s3))
  end.
