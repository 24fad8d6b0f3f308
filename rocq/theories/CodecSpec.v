(** Specification vocabulary for byte orders.  Nothing here refers to the
    implementation. *)
From Verif Require Import Base.

(** Byte [i] of the little-endian representation is [v / 256^i mod 256]. *)
Definition le_bytes (n : nat) (v : Z) : list Z :=
  map (fun i => (v / 256 ^ Z.of_nat i) mod 256) (seq 0 n).
Definition be_bytes (n : nat) (v : Z) : list Z := rev (le_bytes n v).

(** What each endianness marker stands for: 0x01020304 is little-endian, 0 and
    0x04030201 are big-endian. *)
Inductive order_of : Z -> (nat -> Z -> list Z) -> Prop :=
| ord_le : order_of 16909060 le_bytes
| ord_be0 : order_of 0 be_bytes
| ord_be : order_of 67305985 be_bytes.

(** The value an [n]-byte field holds after storing [v]. *)
Definition as_unsigned (n : nat) (v : Z) : Z := v mod 256 ^ Z.of_nat n.
Definition as_signed (n : nat) (v : Z) : Z :=
  let u := v mod 256 ^ Z.of_nat n in
  if 2 * u <? 256 ^ Z.of_nat n then u else u - 256 ^ Z.of_nat n.
