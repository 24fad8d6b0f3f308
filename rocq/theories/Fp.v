(** IEEE 754 values as bit patterns.

    A C++ [double] is a [Z] in [0, 2^64), a [float] a [Z] in [0, 2^32).
    Arithmetic is that of the standard library's SpecFloat (correctly rounded,
    nearest even), which is what the host's SSE2 instructions do.
    Simplification: a NaN produced by [d_mul], [d_div], [d_add] is the
    canonical quiet NaN (payload propagation is not modelled). *)
From Coq Require Import Floats.SpecFloat.
From Verif Require Import Base Platform.

(** Field widths: mantissa [mw], exponent [ew]. *)
Definition fsign (mw ew x : Z) : bool := 2 ^ (mw + ew) <=? x.
Definition fexpo (mw ew x : Z) : Z := (x / 2 ^ mw) mod 2 ^ ew.
Definition fmant (mw x : Z) : Z := x mod 2 ^ mw.
Definition bsign (mw ew : Z) (s : bool) : Z := if s then 2 ^ (mw + ew) else 0.

(** Least exponent: 3 - emax - prec with emax = 2^(ew-1), prec = mw + 1. *)
Definition femin (mw ew : Z) : Z := 2 - 2 ^ (ew - 1) - mw.

Definition fdec (mw ew x : Z) : spec_float :=
  let s := fsign mw ew x in
  let e := fexpo mw ew x in
  let m := fmant mw x in
  if e =? 2 ^ ew - 1 then (if m =? 0 then S754_infinity s else S754_nan)
  else if e =? 0 then
    match m with
    | Zpos p => S754_finite s p (femin mw ew)
    | _ => S754_zero s
    end
  else match m + 2 ^ mw with
       | Zpos p => S754_finite s p (e - 1 + femin mw ew)
       | _ => S754_nan
       end.

Definition fenc (mw ew : Z) (f : spec_float) : Z :=
  match f with
  | S754_zero s => bsign mw ew s
  | S754_infinity s => bsign mw ew s + (2 ^ ew - 1) * 2 ^ mw
  | S754_nan => (2 ^ ew - 1) * 2 ^ mw + 2 ^ (mw - 1)
  | S754_finite s m e =>
    if Zpos m <? 2 ^ mw then bsign mw ew s + Zpos m
    else bsign mw ew s + (e + 1 - femin mw ew) * 2 ^ mw + (Zpos m - 2 ^ mw)
  end.

Definition d_dec : Z -> spec_float := fdec 52 11.
Definition d_enc : spec_float -> Z := fenc 52 11.
Definition f_dec : Z -> spec_float := fdec 23 8.
Definition f_enc : spec_float -> Z := fenc 23 8.

Definition d_is_nan (x : Z) : bool :=
  (fexpo 52 11 x =? 2 ^ 11 - 1) && negb (fmant 52 x =? 0).
Definition f_is_nan (x : Z) : bool :=
  (fexpo 23 8 x =? 2 ^ 8 - 1) && negb (fmant 23 x =? 0).

(** Integer to double (any C++ integer type to double). *)
Definition i2d (z : Z) : Z := d_enc (binary_normalize 53 1024 z 0 false).

Definition d_mul (a b : Z) : Z := d_enc (SFmul 53 1024 (d_dec a) (d_dec b)).
Definition d_div (a b : Z) : Z := d_enc (SFdiv 53 1024 (d_dec a) (d_dec b)).
Definition d_add (a b : Z) : Z := d_enc (SFadd 53 1024 (d_dec a) (d_dec b)).
Definition d_sub (a b : Z) : Z := d_enc (SFsub 53 1024 (d_dec a) (d_dec b)).

(** [a < b] on doubles (false when unordered). *)
Definition d_lt (a b : Z) : bool :=
  match SFcompare (d_dec a) (d_dec b) with Some Lt => true | _ => false end.

(** std::abs(double): clear the sign bit. *)
Definition d_abs (x : Z) : Z := x mod 2 ^ 63.

(** [pow(2, k)] for a normal result: assumed exact (it is in glibc). *)
Definition d_pow2 (k : Z) : Z := (k + 1023) * 2 ^ 52.

(** Integer part, [None] for infinities and NaN. *)
Definition sf_trunc (f : spec_float) : option Z :=
  match f with
  | S754_zero _ => Some 0
  | S754_finite s m e =>
    let a := if 0 <=? e then Zpos m * 2 ^ e else Zpos m / 2 ^ (- e) in
    Some (if s then - a else a)
  | _ => None
  end.
Definition d_trunc (x : Z) : option Z := sf_trunc (d_dec x).

(** double to an unsigned type of [w] bits. *)
Definition d2u (p : platform) (w x : Z) : outcome Z :=
  let oob t := match p_d2u p w t with Some v => Ok v | None => UB end in
  match d_trunc x with
  | Some t => if in_u w t then Ok t else oob (Some t)
  | None => oob None
  end.

(** double to a signed type of [w] bits. *)
Definition d2s (p : platform) (w x : Z) : outcome Z :=
  let oob t := match p_d2u p w t with Some v => Ok (wraps w v) | None => UB end in
  match d_trunc x with
  | Some t => if in_i w t then Ok t else oob (Some t)
  | None => oob None
  end.

(** float to double: exact; a NaN is made quiet and keeps sign and payload. *)
Definition f2d (w : Z) : Z :=
  if f_is_nan w then
    bsign 52 11 (fsign 23 8 w) + (2 ^ 11 - 1) * 2 ^ 52
    + Z.lor (fmant 23 w) (2 ^ 22) * 2 ^ 29
  else match f_dec w with
       | S754_finite s m e => d_enc (binary_round 53 1024 s m e)
       | f => d_enc f
       end.

(** double to float: nearest even; overflow gives an infinity. *)
Definition d2f (x : Z) : Z :=
  if d_is_nan x then
    bsign 23 8 (fsign 52 11 x) + (2 ^ 8 - 1) * 2 ^ 23
    + Z.lor (fmant 52 x / 2 ^ 29) (2 ^ 22)
  else match d_dec x with
       | S754_finite s m e => f_enc (binary_round 24 128 s m e)
       | f => f_enc f
       end.
