(** What a client of the SEG-D writer that goes on after an exception relies on. *)
From Coq Require Import String.
From Verif Require Import Base Platform TraceHdr SegyTypes SegdTypes.
Local Open Scope string_scope.
Local Open Scope list_scope.
Local Open Scope Z_scope.

Definition real_field (t : vtype) : bool :=
  match t with Ibm | F32 | F64 => true | _ => false end.
Definition real_value (v : value) : bool :=
  match v with VDbl _ => true | VInt _ => false end.

(** The integers of the standard extension block. *)
Definition std_integers (major : Z) : list string :=
  ["R_POINT_IDX"] ++
   (if 1 <? major then ["SAMP_NUM"; "SENSOR_TYPE"] else ["RESHOOT_IDX"; "GROUP_IDX"; "DEPTH_IDX"]) ++
   (if 2 <? major then ["TRACE_NUMBER"; "SENSOR_MOVING"; "PHYSICAL_UNIT"] else []).

(** The header has what its extension blocks need: with layouts a value of the
    right kind for every field of the blocks it announces, without layouts no
    real number for an integer of the standard block. *)
Definition ext_complete (major : Z) (ls : ext_layouts) (h : hdr) : Prop :=
  forall z, hget h "TR_HDR_EXT"%string = Some (VInt z) -> z mod 256 <> 0 ->
  match ls with
  | [] => forall k d, In k (std_integers major) -> hget h k <> Some (VDbl d)
  | _ :: _ => forall i l en, Z.of_nat i < z mod 256 -> nth_error ls i = Some l -> In en l ->
      exists v, hget h (e_name en) = Some v /\ real_value v = real_field (e_type en)
  end.

(** Nothing about the trace comes to light after its header was written: its
    extension blocks can be filled and there is memory for its samples. *)
Definition d_early (p : platform) (major : Z) (ls : ext_layouts) (t : trace) : Prop :=
  ext_complete major ls (t_hdr t) /\ 8 * len (t_smp t) <= p_max_alloc p.
