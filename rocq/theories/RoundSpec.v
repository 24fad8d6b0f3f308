(** What it means that a trace came back from a file.  The single-field and
    single-sample codecs are those of the library; what they do to a value is
    the subject of C04-C09, C13 and C14. *)
From Verif Require Import Base Platform TraceHdr SegyTypes SegyCodec CodecSpec LayoutSpec.

(** [d'] is what the sample format makes of [d]. *)
Definition sample_back (p : platform) (e : endian) (fmt d d' : Z) : Prop :=
  exists w r bs, sample_writer p e fmt = Ok w /\ sample_reader p e fmt = Ok r /\
    w d = Ok bs /\ forall rest, r (bs ++ rest) = Ok (d', rest).

(** [h'] shows exactly the fields of the layout; an integer field shows the
    integer the user gave, reduced to the width of the field. *)
Definition header_back (p : platform) (e : endian) (l : layout) (h h' : hdr) : Prop :=
  (forall en f z, In en l -> int_field (e_type en) = Some f -> given h (e_name en) = Some z ->
     hget h' (e_name en) = Some (VInt (f z))) /\
  (forall en, In en l -> exists bs v, wr_field p e (e_type en) (hget h (e_name en)) = Ok bs /\
     (forall rest, rd_field p e (e_type en) (bs ++ rest) = Ok (v, rest)) /\
     hget h' (e_name en) = Some v) /\
  (forall k, ~ In k (names l) -> hget h' k = None).

Definition trace_back (p : platform) (e : endian) (fmt : Z) (l : layout) (t t' : trace) : Prop :=
  header_back p e l (t_hdr t) (t_hdr t') /\ Forall2 (sample_back p e fmt) (t_smp t) (t_smp t').

(** The layout stores SAMP_NUM in an integer field wide enough for the number
    of samples of the trace, and the user set it to that number. *)
Definition counted (l : layout) (t : trace) : Prop :=
  given (t_hdr t) "SAMP_NUM" = Some (len (t_smp t)) /\
  exists en f, In en l /\ e_name en = "SAMP_NUM"%string /\ int_field (e_type en) = Some f /\
    f (len (t_smp t)) = len (t_smp t).

(** Half a megabyte can be allocated; no allocation exceeds half the address
    space. *)
Definition sane_alloc (p : platform) : Prop := 2 ^ 19 <= p_max_alloc p < 2 ^ 63.

(** The byte-order markers 0 and 0x01020304. *)
Definition marker_ok (m : Z) : Prop := m = 0 \/ m = 16909060.

(** The reader's binary header against the one that was written: equal, but
    without the five revision 2 members when the major revision is below 2. *)
Definition bin_back (b b' : bin_hdr) : Prop :=
  firstn 39 (bin_fields b') = firstn 39 (bin_fields b) /\
  skipn 39 (bin_fields b') =
    if bh_SEGY_rev_major_ver b <=? 1 then [0; 0; 0; 0; 0] else skipn 39 (bin_fields b).
