(** Binary coded decimal codecs.  Models include/util.hpp:82-190. *)
From Verif Require Import Base.

(** util.hpp:97-98: the two half bytes of a byte. *)
Definition hi (b : Z) : Z := Z.shiftr (Z.land b 240) 4.
Definition lo (b : Z) : Z := Z.land b 15.

(** ** from_bcd  (util.hpp:91-128)

    [from_bcd_loop i acc] is util.hpp:110-120, the loop
    [for (i = num - counter; i > 1; i -= 2)]: one byte, two digits.  It
    returns the accumulated value, the final [i] and the moved [ptr]. *)
Fixpoint from_bcd_loop (i : nat) (acc : Z) : P (Z * nat) :=
  match i with
  | S (S i') =>
    let+ b := pread 1 in
    from_bcd_loop i' ((acc * 10 + hi b) * 10 + lo b)
  | _ => pret (acc, i)
  end.

(** [num = 0] runs into [assert(num)] (util.hpp:94): modelled as [UB], the
    library never does it.  The result is kept as an unbounded integer:
    every instantiation in the library has at most 12 digits with a 64-bit
    type or at most 6 with a 32-bit one, and 15 * 111111111111 < 2^63,
    15 * 111111 < 2^31, so the C++ type does not overflow.
    The cursor after the call is computed from the original pointer
    (util.hpp:126), not from the scanning pointer. *)
Definition from_bcd (skip_first : bool) (num : nat) : P Z := fun c =>
  match num with
  | O => UB
  | S _ =>
    let* (b0, rest) := pread 1 c in
    let first := hi b0 in
    let second := lo b0 in
    let r0 := if skip_first then 0 else first in
    let counter0 := if skip_first then 0%nat else 1%nat in
    let more := negb (Nat.eqb num counter0) in
    let r1 := if more then r0 * 10 + second else r0 in
    let counter1 := if more then S counter0 else counter0 in
    let* (ri, rest') := from_bcd_loop (num - counter1) r1 rest in
    let (r2, i) := ri in
    (* util.hpp:121-125 *)
    let* r := (if Nat.eqb i 0 then Ok r2
               else let* (b, _) := pread 1 rest' in Ok (r2 * 10 + hi b)) in
    (* util.hpp:126 *)
    let* (_, c') := pskip (Nat.div (num + (if skip_first then 1 else 0)) 2) c in
    Ok (r, c')
  end.

(** ** to_bcd  (util.hpp:139-190)

    [vs] is [sizeof(val)] (4 or 8).  The bitset is an integer below
    [2^(bitset_size vs)]. *)

(** util.hpp:144: [ceil(val_size * 8 / 3.0) * 4 + val_size * 8]. *)
Definition bitset_size (vs : Z) : Z := (vs * 8 + 2) / 3 * 4 + vs * 8.

(** util.hpp:148 *)
Definition bcd_shift (vs : Z) (j : nat) : Z := vs * 8 + Z.of_nat j * 4.

(** util.hpp:157: [(storage & bcd_dig_mask[j]) >> shifts[j]]. *)
Definition bcd_digit (vs st : Z) (j : nat) : Z :=
  Z.shiftr (Z.land st (Z.shiftl 15 (bcd_shift vs j) mod 2 ^ bitset_size vs))
           (bcd_shift vs j).

(** util.hpp:157-162 *)
Definition dabble1 (vs : Z) (st : Z) (j : nat) : Z :=
  let d := bcd_digit vs st j in
  if 4 <? d then
    let mask := Z.shiftl 15 (bcd_shift vs j) mod 2 ^ bitset_size vs in
    Z.lor (Z.ldiff st mask)
          (Z.shiftl (d + 3) (bcd_shift vs j) mod 2 ^ bitset_size vs)
  else st.

(** util.hpp:156-164: all digits, then [storage <<= 1]. *)
Definition dabble (vs : Z) (num : nat) (st : Z) : Z :=
  Z.shiftl (fold_left (dabble1 vs) (seq 0 num) st) 1 mod 2 ^ bitset_size vs.

(** util.hpp:155-165 *)
Definition dabble_all (vs : Z) (num : nat) (st : Z) : Z :=
  Nat.iter (Z.to_nat (vs * 8)) (dabble vs num) st.

(** util.hpp:145: [bitset storage(val)]: the value converts to
    [unsigned long long] first. *)
Definition bcd_init (vs v : Z) : Z := (v mod 2 ^ 64) mod 2 ^ bitset_size vs.

(** util.hpp:173-189, digits [num-1 .. 0] remaining. *)
Fixpoint to_bcd_tail (vs st : Z) (num : nat) : W :=
  match num with
  | S ((S num'') as num') =>
    wput [Z.lor (Z.shiftl (bcd_digit vs st num') 4) (bcd_digit vs st num'')]
    ;; to_bcd_tail vs st num''
  | S O => wmod (fun _ => Z.shiftl (bcd_digit vs st 0) 4)
  | O => wnil
  end.

(** [num > 12] runs into [assert] (util.hpp:142) and [num = 0] indexes
    [bcd_dig_mask[-1]] (util.hpp:166): both [UB]. *)
Definition to_bcd (vs v : Z) (skip_first : bool) (num : nat) : W :=
  if Nat.leb num 12 && negb (Nat.eqb num 0) then
    let st := dabble_all vs num (bcd_init vs v) in
    if skip_first then
      wmod (fun b => Z.lor b (bcd_digit vs st (num - 1)))
      ;; wskip 1
      ;; to_bcd_tail vs st (num - 1)
    else to_bcd_tail vs st num
  else fun _ => UB.
