(** Specification for C92 and C93: a header seen from Python is a dict of texts
    and numbers. *)
From Coq Require Import String Reals.
From Verif Require Import Base FpSpec TraceHdr PyBind PySpec PyTrace.
Local Open Scope list_scope.
Local Open Scope Z_scope.

(** The bytes of a key: [str] and [bytes] can be used. *)
Definition key_text (k : pyval) (b : list Z) : Prop :=
  match k with PStr u => utf8 u b | PBytes c => c = b /\ bytes b | _ => False end.

(** Numbers: [float], and [int] of at most 64 bits. *)
Definition number64 (v : pyval) : Prop :=
  match v with PInt z => - 2 ^ 63 <= z < 2 ^ 63 | PFloat _ => True | _ => False end.

(** [w] in a header is the Python number [v]. *)
Definition is_value (v : pyval) (w : value) : Prop :=
  match v with PInt z => w = VInt z | PFloat d => w = VDbl d | _ => False end.

(** A [dict] whose keys are distinct texts and whose values are numbers. *)
Definition item (kv : pyval * pyval) : Prop :=
  (exists u e, fst kv = PStr u /\ utf8 u e) /\ number64 (snd kv).
Definition dict (items : list (pyval * pyval)) : Prop := NoDup (map fst items) /\ Forall item items.

(** A sample given as [float], or as an [int] that a [float] can hold. *)
Definition sample (v : pyval) (d : Z) : Prop :=
  match v with PFloat x => d = x | PInt z => Z.abs z <= 2 ^ 53 /\ holds d (IZR z) | _ => False end.
Definition sample_list (l : list pyval) : Prop :=
  Forall (fun v => match v with PFloat _ => True | PInt z => Z.abs z <= 2 ^ 53 | _ => False end) l.
