(** Real values of IEEE 754 bit patterns, straight from the standard's
    definition of the interchange formats.  Nothing here refers to the model's
    arithmetic. *)
From Coq Require Import Reals ZArith Bool.
From Flocq Require Import Core.
Open Scope Z_scope.

(** [mw] mantissa bits, [ew] exponent bits. *)
Definition ieee_exp (mw ew x : Z) : Z := (x / 2 ^ mw) mod 2 ^ ew.
Definition ieee_man (mw x : Z) : Z := x mod 2 ^ mw.
Definition ieee_neg (mw ew x : Z) : bool := 2 ^ (mw + ew) <=? x.
Definition ieee_finite (mw ew x : Z) : bool := negb (ieee_exp mw ew x =? 2 ^ ew - 1).
Definition ieee_nan (mw ew x : Z) : bool :=
  (ieee_exp mw ew x =? 2 ^ ew - 1) && negb (ieee_man mw x =? 0).

(** Exponent bias 2^(ew-1) - 1; a zero exponent field has no hidden bit. *)
Definition ieee_val (mw ew x : Z) : R :=
  let e := ieee_exp mw ew x in
  let m := ieee_man mw x in
  let bias := 2 ^ (ew - 1) - 1 in
  let a := if e =? 0 then (IZR m * powerRZ 2 (1 - bias - mw))%R
           else (IZR (2 ^ mw + m) * powerRZ 2 (e - bias - mw))%R in
  if ieee_neg mw ew x then (- a)%R else a.

Definition dbl_finite : Z -> bool := ieee_finite 52 11.
Definition dbl_nan : Z -> bool := ieee_nan 52 11.
Definition dbl_val : Z -> R := ieee_val 52 11.
Definition flt_finite : Z -> bool := ieee_finite 23 8.
Definition flt_nan : Z -> bool := ieee_nan 23 8.
Definition flt_val : Z -> R := ieee_val 23 8.

Definition is_dbl (x : Z) : Prop := 0 <= x < 2 ^ 64.
Definition is_flt (x : Z) : Prop := 0 <= x < 2 ^ 32.

(** IBM System/360 single precision: sign bit, 7-bit excess-64 base-16
    exponent, 24-bit fraction. *)
Definition ibm_neg (w : Z) : bool := 2 ^ 31 <=? w.
Definition ibm_exp (w : Z) : Z := (w / 2 ^ 24) mod 2 ^ 7.
Definition ibm_frac (w : Z) : Z := w mod 2 ^ 24.
Definition ibm_val (w : Z) : R :=
  ((if ibm_neg w then -1 else 1) *
   (IZR (ibm_frac w) / powerRZ 2 24) * powerRZ 16 (ibm_exp w - 64))%R.
(** Normalised: the leading hexadecimal digit is not zero. *)
Definition ibm_normal (w : Z) : Prop := 2 ^ 20 <= ibm_frac w.

(** The double with bits [x] is finite and its value is [r]. *)
Definition holds (x : Z) (r : R) : Prop :=
  is_dbl x /\ dbl_finite x = true /\ dbl_val x = r.

Definition sgn (x : R) : R := if Rlt_dec x 0 then (-1)%R else 1%R.

(** Round to binary32, nearest even (Flocq's rounding operator for precision
    24 and least exponent -149). *)
Definition rne32 (r : R) : R := round radix2 (FLT_exp (-149) 24) ZnearestE r.

(** Values of the integer sample formats, from the SEG-Y standard. *)
Definition int_range (fmt : Z) : option (Z * Z) :=
  match fmt with
  | 2 => Some (- 2 ^ 31, 2 ^ 31 - 1)
  | 3 => Some (- 2 ^ 15, 2 ^ 15 - 1)
  | 7 => Some (- 2 ^ 23, 2 ^ 23 - 1)
  | 8 => Some (- 2 ^ 7, 2 ^ 7 - 1)
  | 9 => Some (- 2 ^ 63, 2 ^ 63 - 1)
  | 10 => Some (0, 2 ^ 32 - 1)
  | 11 => Some (0, 2 ^ 16 - 1)
  | 12 => Some (0, 2 ^ 64 - 1)
  | 15 => Some (0, 2 ^ 24 - 1)
  | 16 => Some (0, 2 ^ 8 - 1)
  | _ => None
  end.
