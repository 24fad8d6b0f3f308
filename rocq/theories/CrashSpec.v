(** Specification for C106: reading what is left of a SEG-Y file whose writing
    was cut off. *)
From Verif Require Import Base Platform TraceHdr SegyTypes SegyCodec LayoutSpec ISegy OSegy CodecSpec ReadSpec RoundSpec FileSpec DiskX.

(** The traces [ts] can be written so that they come back from the complete file
    (the conditions of C16, C17 and C18); [count] is the number of samples per
    trace that the binary header gives in the end. *)
Definition comes_back (w : writer) (bh : bin_hdr) (l : layout) (count : Z) (ts : list trace) : Prop :=
  bin_ok bh = true /\ marker_ok (bh_endianness bh) /\ bh_ext_text_headers_num bh = len (ext_texts w) /\
  (bh_ext_samp_per_tr bh = 0 \/ bh_ext_samp_per_tr bh = bh_samp_per_tr bh mod 2 ^ 16) /\
  match w with
  | W0 _ => bh_SEGY_rev_major_ver bh = 0
  | W1 _ => bh_SEGY_rev_major_ver bh <= 1
  | W2 _ _ => bh_max_num_add_tr_headers bh = 0 /\ bh_num_of_trailer_stanza bh = 0 /\
      (bh_byte_off_of_first_tr bh = 0 \/ bh_byte_off_of_first_tr bh = 3600 + 3200 * len (ext_texts w))
  end /\
  (own_count w bh = true -> forall t, In t ts -> counted l t) /\
  (own_count w bh = false \/ bh_SEGY_rev_major_ver bh = 0 -> forall t, In t ts -> len (t_smp t) = count).

(** The file [c] has the first [n] of the traces [ts] that the writer [s] was to
    write, and not the next one: with [n] traces the writer's file is not longer
    than [c], with more it is.  A reader gives these [n] traces; then it is at the
    end, if nothing else is in [c], or throws.  If [c] is too short even for the
    headers, the constructor throws. *)
Definition beginning_read (p : platform) (maps : layouts) (back : trace -> trace -> Prop) (s : osegy) (ts : list trace) (c : list Z) : Prop :=
  exists n sn, (n <= List.length ts)%nat /\ write_traces p s (firstn n ts) = Ok sn /\
    (n = O \/ len (fdata (o_file sn)) <= len c) /\
    (forall m sm, (n < m <= List.length ts)%nat -> write_traces p s (firstn m ts) = Ok sm -> len c < len (fdata (o_file sm))) /\
    ((n = O /\ isegy_open p c maps = Throw EIO) \/
     exists r ts' fuel o, isegy_open p c maps = Ok r /\ collect p fuel r = (ts', o) /\ Forall2 back (firstn n ts) ts' /\
       (((exists rk, o = Ok rk) /\ (n = O /\ o_min s <> MNone \/ len c = len (fdata (o_file sn)))) \/
        (o = Throw EIO /\ (n = O \/ len (fdata (o_file sn)) < len c)))).

(** The operations on the stream that the calls make, in their order. *)
Fixpoint all_ops (p : platform) (s : osegy) (ts : list trace) : list fop :=
  match ts with
  | [] => []
  | t :: ts' => let (_, sl) := l_write_trace p t (s, []) in snd sl ++ all_ops p (fst sl) ts'
  end.
