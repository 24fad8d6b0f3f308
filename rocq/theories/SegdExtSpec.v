(** Specification vocabulary for SEG-D trace header extension blocks with
    layouts given by the user. *)
From Coq Require Import Reals.
From Verif Require Import Base CodecSpec FpSpec TraceHdr SegyTypes LayoutSpec SegdTypes SegdDecSpec.
Local Open Scope Z_scope.

(** The fields lie inside the 32 bytes of a block, any two are disjoint. *)
Definition block_layout (l : layout) : Prop :=
  (forall en, In en l -> 0 <= e_off en /\ e_off en + width (e_type en) <= 32) /\
  (forall i j a b, nth_error l i = Some a -> nth_error l j = Some b -> i <> j -> apart a b).

(** The value that the bytes [d] of a field stand for: big-endian, two's
    complement, IEEE or IBM. *)
Definition field_value (t : vtype) (d : list Z) (v : value) : Prop :=
  match t with
  | F64 => v = VDbl (big d 0 8)
  | F32 => exists x, v = VDbl x /\ (flt_finite (big d 0 4) = true -> holds x (flt_val (big d 0 4)))
  | Ibm => exists x, v = VDbl x /\ holds x (ibm_val (big d 0 4))
  | _ => forall f, int_field t = Some f -> v = VInt (f (big d 0 (Z.to_nat (width t))))
  end.

(** The value shown for a field in which [v] was stored: a single-precision
    field rounds. *)
Definition stored_double (t : vtype) (d : Z) (v' : value) : Prop :=
  (t = F64 -> is_dbl d -> v' = VDbl d) /\
  (t = F32 -> forall x, holds d x -> (Rabs (rne32 x) < powerRZ 2 128)%R ->
   exists d', v' = VDbl d' /\ holds d' (rne32 x)).
Definition stored_value (t : vtype) (v v' : value) : Prop :=
  match v with
  | VInt z => forall f, int_field t = Some f -> v' = VInt (f z)
  | VDbl d => stored_double t d v'
  end.

(** The header gives a value of the right kind for a field. *)
Definition gives (h : hdr) (en : entry) : Prop :=
  match e_type en with
  | F64 | F32 => exists d, hget h (e_name en) = Some (VDbl d)
  | Ibm => False
  | _ => exists z, hget h (e_name en) = Some (VInt z)
  end.

(** [h'] is [h] with the fields of the first [n] layouts, whose blocks begin at
    the position of [f], decoded (all but uint64_t fields). *)
Definition fields_decoded (ls : ext_layouts) (n : Z) (f : file) (h h' : hdr) : Prop :=
  (forall k, (forall l, In l ls -> ~ In k (names l)) -> hget h' k = hget h k) /\
  (forall j l en, Z.of_nat j < n -> nth_error ls j = Some l -> In en l -> e_type en <> U64 ->
     exists v, hget h' (e_name en) = Some v /\
       field_value (e_type en) (slice (fpos f + 32 * Z.of_nat j + e_off en) (width (e_type en)) (fdata f)) v).

(** [h'] is [h0] with the fields of the first [n] layouts showing the values
    that [h] has for them. *)
Definition fields_stored (ls : ext_layouts) (n : Z) (h h0 h' : hdr) : Prop :=
  (forall k, (forall l, In l ls -> ~ In k (names l)) -> hget h' k = hget h0 k) /\
  (forall j l en, Z.of_nat j < n -> nth_error ls j = Some l -> In en l ->
     exists v v', hget h (e_name en) = Some v /\ hget h' (e_name en) = Some v' /\ stored_value (e_type en) v v').
