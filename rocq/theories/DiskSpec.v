(** Specification for C105: a file on a disk that can become full. *)
From Verif Require Import Base Platform TraceHdr SegyTypes ISegy OSegy OSegyX FileSpec DiskX.

(** The stream of a writer whose file would be [f] if the disk had no end: what
    is on the disk, with the bytes of the buffer stored over it, is [f]; nothing
    has failed, and the disk has room for what is on it. *)
Definition holds_file (cap : Z) (k : stream) (f : file) : Prop :=
  k_bad k = false /\ 0 <= k_at k <= len (k_disk k) /\ len (k_disk k) <= cap /\
  fdata f = over (k_disk k) (k_at k) (k_buf k) /\ fpos f = k_at k + len (k_buf k).

(** The first [cap] bytes. *)
Definition cut (cap : Z) (c : list Z) : list Z := firstn (Z.to_nat cap) c.

Definition is_rev2 (w : writer) : bool := match w with W2 _ _ => true | _ => false end.

(** The trailer stanzas at the end of a revision 2 file. *)
Definition stanza_bytes (w : writer) (s : osegy) : list Z :=
  if is_rev2 w && negb (bh_num_of_trailer_stanza (o_bh s) =? 0)
  then concat (map (firstn (Z.to_nat 3200)) (o_stanzas s)) else [].
