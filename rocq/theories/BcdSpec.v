(** Specification vocabulary for packed decimal numbers.  Nothing here refers
    to the implementation. *)
From Verif Require Import Base.

(** The half bytes of a byte string, high half first. *)
Fixpoint nibs (l : list Z) : list Z :=
  match l with
  | [] => []
  | b :: l' => b / 16 :: b mod 16 :: nibs l'
  end.

(** Base-10 positional value, most significant first; digits may exceed 9. *)
Definition pos_value (ds : list Z) : Z := fold_left (fun a d => 10 * a + d) ds 0.

(** The [num] low-order decimal digits of [v], most significant first. *)
Fixpoint digits (num : nat) (v : Z) : list Z :=
  match num with
  | O => []
  | S n => (v / 10 ^ Z.of_nat n) mod 10 :: digits n v
  end.

(** Number of half bytes skipped before the number. *)
Definition lead (skip_first : bool) : nat := if skip_first then 1%nat else 0%nat.

(** A number that ends in the middle of a byte is followed by a zero half
    byte. *)
Definition oddpad (n : nat) : list Z := if Nat.even n then [] else [0].
