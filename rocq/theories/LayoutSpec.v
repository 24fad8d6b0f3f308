(** Specification vocabulary for trace header layouts.  Only the types of
    SegyTypes are used, none of its functions. *)
From Verif Require Import Base TraceHdr SegyTypes CodecSpec.

(** Bytes a field occupies. *)
Definition width (t : vtype) : Z :=
  match t with
  | I8 | U8 => 1 | I16 | U16 => 2 | I24 | U24 => 3
  | I32 | U32 | Ibm | F32 => 4 | I64 | U64 | F64 => 8
  end.

Definition inside (en : entry) : Prop := 0 <= e_off en /\ e_off en + width (e_type en) <= 240.

Definition apart (a b : entry) : Prop :=
  e_off a + width (e_type a) <= e_off b \/ e_off b + width (e_type b) <= e_off a.

(** All fields inside the 240-byte header, any two of them disjoint. *)
Definition safe_layout (l : layout) : Prop :=
  (forall en, In en l -> inside en) /\
  (forall i j a b, nth_error l i = Some a -> nth_error l j = Some b -> i <> j -> apart a b).

Definition safe_layouts (ls : layouts) : Prop := forall n l, In (n, l) ls -> safe_layout l.

Definition names (l : layout) : list string := map e_name l.

(** Integer field types and the number such a field holds after [v] was
    stored in it: [v] reduced to the width; a 64-bit field is presented to the
    user as a signed number. *)
Definition int_field (t : vtype) : option (Z -> Z) :=
  match t with
  | I8 => Some (as_signed 1) | U8 => Some (as_unsigned 1)
  | I16 => Some (as_signed 2) | U16 => Some (as_unsigned 2)
  | I24 => Some (as_signed 3) | U24 => Some (as_unsigned 3)
  | I32 => Some (as_signed 4) | U32 => Some (as_unsigned 4)
  | I64 | U64 => Some (as_signed 8)
  | Ibm | F32 | F64 => None
  end.

(** The number the user gave for a name: 0 when they did not set it. *)
Definition given (h : hdr) (k : string) : option Z :=
  match hget h k with Some (VInt z) => Some z | Some (VDbl _) => None | None => Some 0 end.

(** Byte [i] of the header belongs to a field. *)
Definition covered (l : layout) (i : Z) : Prop :=
  exists en, In en l /\ e_off en <= i < e_off en + width (e_type en).
