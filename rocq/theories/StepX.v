(** Steps on an object that survives exceptions: the outcome and the object
    afterwards.  The object after undefined behaviour means nothing. *)
From Verif Require Import Base.

Definition St (S A : Type) : Type := S -> outcome A * S.
Definition xret {S A} (a : A) : St S A := fun s => (Ok a, s).
Definition xthrow {S A} (e : exn) : St S A := fun s => (Throw e, s).
Definition xbind {S A B} (m : St S A) (k : A -> St S B) : St S B := fun s =>
  match m s with
  | (Ok a, s1) => k a s1
  | (Throw e, s1) => (Throw e, s1)
  | (UB, s1) => (UB, s1)
  end.
Definition xlift {S A} (o : outcome A) : St S A := fun s => (o, s).
Definition xget {S} : St S S := fun s => (Ok s, s).
Definition xput {S} (s : S) : St S unit := fun _ => (Ok tt, s).
Notation "'let!' x := m 'in' k" := (xbind m (fun x => k)) (at level 200, x pattern, right associativity).
