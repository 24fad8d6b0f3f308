(** What the writers must put into a SEG-Y file, from the tables of the standard
    and without the codecs of the library.  Numbers in bytes, spans and the table
    of the binary header are those of SegyDecSpec. *)
From Coq Require Import Reals.
From Flocq Require Import Core.
From Verif Require Import Base Platform Fp CodecSpec FpSpec TraceHdr SegyTypes LayoutSpec SegyDecSpec FileSpec.
Local Open Scope Z_scope.

(** The byte order a caller asks for with the endianness member. *)
Definition order_asked (m : Z) : option order :=
  match m with
  | 0 | 67305985 => Some Big
  | 16909060 => Some Little
  | _ => None
  end.

(** ** Binary header *)

(** The format the writers choose when the caller gives none. *)
Definition dflt_fmt (w : writer) : Z := match w with W0 _ => 1 | _ => 5 end.
Definition with_dflt (w : writer) (b : bin_hdr) : bin_hdr :=
  if bh_format_code b =? 0 then set_format_code b (dflt_fmt w) else b.

(** A header in which the caller gave nothing but, possibly, the default format
    (and a number of extended text headers, which the writer of revision 1 and
    2 ignores). *)
Definition blank (w : writer) (b : bin_hdr) : Prop :=
  set_ext_text_headers_num (with_dflt w b) 0 = set_format_code bin_zero (dflt_fmt w).

(** A header the first trace completes: blank, and no extended text headers
    beside it.  The writer of revision 0 writes the number of extended text
    headers as given. *)
Definition to_complete (w : writer) (b : bin_hdr) : Prop :=
  with_dflt w (match w with W0 _ => b | _ => set_ext_text_headers_num b 0 end) = set_format_code bin_zero (dflt_fmt w) /\
  ext_texts w = [].

(** The 16-bit sampling interval a header value stands for; a double counts
    toward zero. *)
Definition interval (v : value) (si : Z) : Prop :=
  match v with
  | VInt z => si = z
  | VDbl d => exists x, holds d x /\ si = Ztrunc x
  end.
(** Does the value fit into 16 bits? *)
Definition fits16 (v : value) : Prop :=
  match v with
  | VInt z => - 2 ^ 15 <= z < 2 ^ 15
  | VDbl d => exists x, holds d x /\ - 2 ^ 15 <= Ztrunc x < 2 ^ 15
  end.

(** The header in the file after the traces [ts]: the given one, or, if that
    was blank, completed from the first trace. *)
Definition final_header (w : writer) (bh : bin_hdr) (ts : list trace) (b : bin_hdr) : Prop :=
  b = with_dflt w bh \/
  blank w bh /\ exists t ts' n v si, ts = t :: ts' /\ hget (t_hdr t) "SAMP_NUM" = Some (VInt n) /\ n < 2 ^ 15 /\
    hget (t_hdr t) "SAMP_INT" = Some v /\ (fits16 v -> interval v si) /\ - 2 ^ 15 <= si < 2 ^ 15 /\ si <> 0 /\
    b = set_samp_int (set_samp_per_tr (set_format_code bin_zero (dflt_fmt w)) (as_signed 2 n)) si.

(** The completed header for [n] samples with interval [si]. *)
Definition completed_header (w : writer) (n si : Z) : bin_hdr :=
  set_samp_int (set_samp_per_tr (set_format_code bin_zero (dflt_fmt w)) n) si.

(** A sampling interval that must be refused: it counts as zero or is above the
    largest 16-bit number. *)
Definition bad_interval (v : value) : Prop :=
  match v with
  | VInt z => z = 0 \/ 2 ^ 15 <= z
  | VDbl d => exists x, holds d x /\ (Ztrunc x = 0 \/ (32767 < x)%R)
  end.

(** ** Numbers *)

(** The IBM word [w] is the number [x] cut to its first six hexadecimal
    digits. *)
Definition ibm_close (x : R) (w : Z) : Prop :=
  (Rabs (ibm_val w) <= Rabs x /\ 0 <= ibm_val w * x /\ Rabs (x - ibm_val w) <= Rabs x * / powerRZ 2 20)%R.
(** The platform's log() gives the exponent of the double [d] of value [x]. *)
Definition exp_right (p : platform) (d : Z) (x : R) : Prop :=
  exists E, p_ibm_exp p (d mod 2 ^ 63) = Some E /\ 0 <= E <= 127 /\
    (x = 0 \/ powerRZ 16 (E - 65) <= Rabs x < powerRZ 16 (E - 64))%R.

(** Double narrowed to single precision: nearest, ties to even; infinity when
    out of range; infinities and NaNs stay such. *)
Definition inf32 (neg : bool) : Z := 255 * 2 ^ 23 + if neg then 2 ^ 31 else 0.
Definition inf64 (neg : bool) : Z := 2047 * 2 ^ 52 + if neg then 2 ^ 63 else 0.
Definition narrowed (d w : Z) : Prop :=
  is_flt w /\
  (forall x, holds d x ->
     (Rabs (rne32 x) < powerRZ 2 128 -> flt_finite w = true /\ flt_val w = rne32 x /\
        ieee_neg 23 8 w = ieee_neg 52 11 d)%R /\
     (powerRZ 2 128 <= Rabs (rne32 x) -> w = inf32 (ieee_neg 52 11 d))%R) /\
  (forall s, d = inf64 s -> w = inf32 s) /\
  (dbl_nan d = true -> flt_nan w = true).

(** A field of type [t] filled with the integer [z]. *)
Definition stored_int (p : platform) (o : order) (t : vtype) (z : Z) (l : list Z) : Prop :=
  bytes l /\ len l = width t /\
  match t with
  | F64 => signed (z <? 0) (rne64 (IZR z)) (uval o l)
  | F32 => flt_finite (uval o l) = true /\ flt_val (uval o l) = rne32 (rne64 (IZR z)) /\
           ieee_neg 23 8 (uval o l) = (z <? 0)
  | Ibm => forall d, holds d (rne64 (IZR z)) -> d <> 2 ^ 63 -> exp_right p d (rne64 (IZR z)) ->
             ibm_close (rne64 (IZR z)) (uval o l)
  | _ => uval o l = as_unsigned (Z.to_nat (width t)) z
  end.

(** The sample [d] in format [fmt].  Integer formats count toward zero; numbers
    outside the format are not said anything about, nor negative numbers on a
    compiler that converts them to unsigned types differently from gcc. *)
Definition stored_sample (p : platform) (o : order) (fmt d : Z) (l : list Z) : Prop :=
  bytes l /\ code_width fmt = Some (len l) /\
  match fmt with
  | 1 => forall x, holds d x -> exp_right p d x -> ibm_close x (uval o l)
  | 5 => narrowed d (uval o l)
  | 6 => uval o l = d
  | _ => forall lo hi x, int_range fmt = Some (lo, hi) -> holds d x -> lo <= Ztrunc x <= hi ->
           (0 <= Ztrunc x \/ p_d2u p = gcc_d2u) ->
           (if lo <? 0 then sval o l else uval o l) = Ztrunc x
  end.

(** ** Traces *)

(** The integer a header gives for a name: absent names count as zero. *)
Definition number (h : hdr) (k : string) (z : Z) : Prop :=
  hget h k = Some (VInt z) \/ (hget h k = None /\ z = 0).

(** The header block of the layout [ol] that starts at [pos]. *)
Definition block_at (p : platform) (o : order) (c : list Z) (pos : Z) (ol : option layout) (h : hdr) : Prop :=
  match ol with
  | None => slice pos 240 c = zeros 240
  | Some l =>
    (forall en, In en l -> exists z, number h (e_name en) z /\
       stored_int p o (e_type en) z (slice (pos + e_off en) (width (e_type en)) c)) /\
    (forall i, 0 <= i < 240 -> ~ covered l i -> nth_error c (Z.to_nat (pos + i)) = Some 0)
  end.

(** The trace [t] written at [pos] with [n] header blocks and [area] bytes of
    samples. *)
Definition written_at (p : platform) (o : order) (c : list Z) (fmt : Z) (ls : layouts) (n area pos : Z) (t : trace) : Prop :=
  (forall i, 0 <= i < n -> block_at p o c (pos + 240 * i) (option_map snd (nth_error ls (Z.to_nat i))) (t_hdr t)) /\
  (forall i d, nth_error (t_smp t) i = Some d ->
     stored_sample p o fmt d (slice (pos + 240 * n + sample_width fmt * Z.of_nat i) (sample_width fmt) c)) /\
  len (t_smp t) * sample_width fmt <= area /\ pos + 240 * n + area <= len c.

(** Traces one after another from [pos] to the end of the file. *)
Fixpoint all_written (p : platform) (o : order) (c : list Z) (fmt : Z) (ls : layouts) (n : Z) (area : trace -> Z)
         (pos : Z) (ts : list trace) : Prop :=
  match ts with
  | [] => pos = len c
  | t :: ts' => written_at p o c fmt ls n (area t) pos t /\ all_written p o c fmt ls n area (pos + 240 * n + area t) ts'
  end.

(** What the types of the library guarantee of a trace: samples are doubles,
    integers of the header have 64 bits. *)
Definition typed (t : trace) : Prop :=
  Forall is_dbl (t_smp t) /\ forall k z, hget (t_hdr t) k = Some (VInt z) -> - 2 ^ 63 <= z < 2 ^ 63.
