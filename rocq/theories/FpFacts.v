(** Bit patterns, SpecFloat values and real numbers. *)
From Coq Require Import Reals Floats.SpecFloat.
From Flocq Require Import Core IEEE754.BinarySingleNaN.
From Verif Require Import BaseFacts Platform Fp.
Open Scope Z_scope.

(** ** Packing and unpacking *)

Section Pack.
Variables mw ew : Z.
Hypothesis Hmw : 1 <= mw.
Hypothesis Hew : 2 <= ew.
Hypothesis Hpe : mw + 1 < 2 ^ (ew - 1).

Let prec := mw + 1.
Let emax := 2 ^ (ew - 1).

Lemma pk_pows : 0 < 2 ^ mw /\ 2 ^ ew = 2 * emax /\ 2 <= emax /\
  2 ^ (mw + ew) = 2 ^ mw * 2 ^ ew /\ 2 ^ (mw + ew + 1) = 2 * (2 ^ mw * 2 ^ ew).
Proof.
  unfold emax. repeat split.
  - apply pow2_pos; lia.
  - rewrite <- Z.pow_succ_r by lia. f_equal; lia.
  - change 2 with (2 ^ 1) at 1. apply Z.pow_le_mono_r; lia.
  - apply Z.pow_add_r; lia.
  - rewrite Z.pow_add_r, Z.pow_add_r by lia. change (2 ^ 1) with 2. lia.
Qed.

Lemma fields_bound x : 0 <= x < 2 ^ (mw + ew + 1) ->
  0 <= fexpo mw ew x < 2 ^ ew /\ 0 <= fmant mw x < 2 ^ mw /\
  x = bsign mw ew (fsign mw ew x) + fexpo mw ew x * 2 ^ mw + fmant mw x.
Proof.
  intros Hx. destruct pk_pows as (H1 & H2 & H3 & H4 & H5).
  unfold fexpo, fmant, bsign, fsign.
  set (A := 2 ^ mw) in *. set (E := 2 ^ ew) in *. rewrite H4, H5 in *.
  assert (HE : 0 < E) by lia.
  split; [apply Z.mod_pos_bound; lia|]. split; [apply Z.mod_pos_bound; lia|].
  pose proof (Z.div_mod x A ltac:(lia)) as D1.
  pose proof (Z.mod_pos_bound x A ltac:(lia)) as M1.
  set (q := x / A) in *. set (r := x mod A) in *. clearbody q r.
  destruct (Z.leb_spec (A * E) x) as [H|H].
  - assert (Hq : E <= q < 2 * E) by nia.
    assert (q mod E = q - E) as ->; [|lia].
    symmetry. apply Z.mod_unique with (q := 1); lia.
  - assert (Hq : 0 <= q < E) by nia. rewrite Z.mod_small by lia. lia.
Qed.

Lemma digits2_spec m :
  2 ^ (Zpos (digits2_pos m) - 1) <= Zpos m < 2 ^ Zpos (digits2_pos m).
Proof.
  rewrite Digits.Zpos_digits2_pos.
  pose proof (Digits.Zdigits_correct radix2 (Zpos m)) as H. cbn [Z.abs] in H. exact H.
Qed.

Lemma digits2_unique m d : 2 ^ (d - 1) <= Zpos m < 2 ^ d -> Zpos (digits2_pos m) = d.
Proof.
  intros H. rewrite Digits.Zpos_digits2_pos. apply Digits.Zdigits_unique. exact H.
Qed.

Lemma digits2_le m d : 0 <= d -> Zpos m < 2 ^ d -> Zpos (digits2_pos m) <= d.
Proof.
  intros Hd H. pose proof (digits2_spec m) as [H1 _].
  destruct (Z_lt_le_dec d (Zpos (digits2_pos m))); [|lia].
  assert (2 ^ d <= 2 ^ (Zpos (digits2_pos m) - 1)) by (apply Z.pow_le_mono_r; lia). lia.
Qed.

Lemma femin_emin : femin mw ew = emin prec emax.
Proof. unfold femin, emin, prec, emax. lia. Qed.

Lemma bounded_sub m : Zpos m < 2 ^ mw -> bounded prec emax m (femin mw ew) = true.
Proof.
  intros H. destruct pk_pows as (H1 & H2 & H3 & H4 & H5).
  unfold bounded, canonical_mantissa. rewrite femin_emin.
  unfold fexp. apply andb_true_intro. split.
  - apply Zeq_is_eq_bool. pose proof (digits2_le m mw ltac:(lia) H).
    unfold prec, emin in *. lia.
  - unfold emin, prec. fold emax in Hpe. lia.
Qed.

Lemma bounded_norm m e : 2 ^ mw <= Zpos m < 2 ^ (mw + 1) ->
  femin mw ew <= e <= emax - prec -> bounded prec emax m e = true.
Proof.
  intros H He. unfold bounded, canonical_mantissa.
  rewrite femin_emin in He. unfold fexp. apply andb_true_intro. split.
  - apply Zeq_is_eq_bool. rewrite (digits2_unique m (mw + 1)).
    + unfold prec in *. lia.
    + replace (mw + 1 - 1) with mw by lia. exact H.
  - lia.
Qed.

Lemma bounded_inv m e : bounded prec emax m e = true ->
  (e = femin mw ew /\ Zpos m < 2 ^ mw) \/
  (2 ^ mw <= Zpos m < 2 ^ (mw + 1) /\ femin mw ew <= e <= emax - prec).
Proof.
  intros H. unfold bounded, canonical_mantissa in H. apply andb_prop in H as [H1 H2].
  apply Zeq_is_eq_bool in H1. unfold fexp in H1. rewrite femin_emin.
  pose proof (digits2_spec m) as D. set (d := Zpos (digits2_pos m)) in *.
  destruct (Z_lt_le_dec d prec) as [Hd|Hd].
  - left. split; [lia|]. eapply Z.lt_le_trans; [apply D|]. apply Z.pow_le_mono_r; unfold prec in *; lia.
  - right. assert (Ed : d = prec) by (unfold emin in *; lia). rewrite Ed in D.
    unfold prec in *. replace (mw + 1 - 1) with mw in D by lia.
    split; [exact D|]. lia.
Qed.

Lemma fdec_valid x : 0 <= x < 2 ^ (mw + ew + 1) ->
  valid_binary prec emax (fdec mw ew x) = true.
Proof.
  intros Hx. destruct (fields_bound x Hx) as (He & Hm & _).
  destruct pk_pows as (H1 & H2 & H3 & H4 & H5).
  unfold fdec. set (e := fexpo mw ew x) in *. set (m := fmant mw x) in *.
  destruct (Z.eqb_spec e (2 ^ ew - 1)).
  - destruct (m =? 0); reflexivity.
  - destruct (Z.eqb_spec e 0).
    + destruct m as [|q|q] eqn:Em; try reflexivity. cbn [valid_binary].
      apply bounded_sub. lia.
    + destruct (m + 2 ^ mw) as [|q|q] eqn:Em; try reflexivity. cbn [valid_binary].
      apply bounded_norm.
      * rewrite Z.pow_add_r by lia. change (2 ^ 1) with 2. lia.
      * unfold femin, prec, emax in *. lia.
Qed.

Lemma bsign_val s : 0 <= bsign mw ew s <= 2 ^ mw * 2 ^ ew.
Proof.
  destruct pk_pows as (H1 & H2 & H3 & H4 & H5). unfold bsign. rewrite H4.
  destruct s; nia.
Qed.

(** Fields of an assembled pattern. *)
Lemma pack_fields s e m : 0 <= e < 2 ^ ew -> 0 <= m < 2 ^ mw ->
  let x := bsign mw ew s + e * 2 ^ mw + m in
  0 <= x < 2 ^ (mw + ew + 1) /\
  fsign mw ew x = s /\ fexpo mw ew x = e /\ fmant mw x = m.
Proof.
  intros He Hm. destruct pk_pows as (H1 & H2 & H3 & H4 & H5).
  unfold fsign, fexpo, fmant, bsign. rewrite H5, H4.
  set (A := 2 ^ mw) in *. set (E := 2 ^ ew) in *. cbv zeta.
  assert (HE : 0 < E) by lia.
  assert (Hem : 0 <= e * A + m < A * E) by nia.
  assert (Ex : (if s then A * E else 0) + e * A + m = m + (e + (if s then E else 0)) * A).
  { destruct s; lia. }
  split; [destruct s; lia|]. split; [destruct s; lia|]. rewrite Ex.
  split.
  - rewrite Z.div_add by lia. rewrite (Z.div_small m) by lia. rewrite Z.add_0_l.
    destruct s.
    + replace (e + E) with (e + 1 * E) by lia. rewrite Z.mod_add by lia. apply Z.mod_small; lia.
    + rewrite Z.add_0_r. apply Z.mod_small; lia.
  - rewrite Z.mod_add by lia. apply Z.mod_small; lia.
Qed.

Lemma fdec_pack s e m : 0 <= e < 2 ^ ew -> 0 <= m < 2 ^ mw ->
  fdec mw ew (bsign mw ew s + e * 2 ^ mw + m) =
  if e =? 2 ^ ew - 1 then (if m =? 0 then S754_infinity s else S754_nan)
  else if e =? 0 then
    match m with Zpos p => S754_finite s p (femin mw ew) | _ => S754_zero s end
  else match m + 2 ^ mw with
       | Zpos p => S754_finite s p (e - 1 + femin mw ew) | _ => S754_nan end.
Proof.
  intros He Hm. destruct (pack_fields s e m He Hm) as (_ & E1 & E2 & E3).
  unfold fdec. rewrite E1, E2, E3. reflexivity.
Qed.

(** Exponent and mantissa fields of an encoded value. *)
Lemma fenc_pack f : valid_binary prec emax f = true ->
  exists s e m, 0 <= e < 2 ^ ew /\ 0 <= m < 2 ^ mw /\
    fenc mw ew f = bsign mw ew s + e * 2 ^ mw + m /\
    fdec mw ew (fenc mw ew f) = f.
Proof.
  intros Hv. destruct pk_pows as (H1 & H2 & H3 & H4 & H5).
  assert (Hh : 2 ^ mw = 2 * 2 ^ (mw - 1)).
  { rewrite <- Z.pow_succ_r by lia. f_equal; lia. }
  pose proof (pow2_pos (mw - 1) ltac:(lia)) as Hh0.
  destruct f as [s|s| |s m e]; cbn [fenc].
  - exists s, 0, 0. split; [lia|]. split; [lia|].
    assert (E : bsign mw ew s = bsign mw ew s + 0 * 2 ^ mw + 0) by lia.
    split; [exact E|]. rewrite E. rewrite fdec_pack by lia.
    destruct (Z.eqb_spec 0 (2 ^ ew - 1)); [lia|]. reflexivity.
  - exists s, (2 ^ ew - 1), 0. split; [lia|]. split; [lia|].
    assert (E : bsign mw ew s + (2 ^ ew - 1) * 2 ^ mw
                = bsign mw ew s + (2 ^ ew - 1) * 2 ^ mw + 0) by lia.
    split; [exact E|]. rewrite E. rewrite fdec_pack by lia.
    rewrite Z.eqb_refl. reflexivity.
  - exists false, (2 ^ ew - 1), (2 ^ (mw - 1)). split; [lia|]. split; [lia|].
    assert (E : (2 ^ ew - 1) * 2 ^ mw + 2 ^ (mw - 1)
                = bsign mw ew false + (2 ^ ew - 1) * 2 ^ mw + 2 ^ (mw - 1)) by (cbn [bsign]; lia).
    split; [exact E|]. rewrite E. rewrite fdec_pack by lia.
    rewrite Z.eqb_refl. destruct (Z.eqb_spec (2 ^ (mw - 1)) 0); [lia|reflexivity].
  - cbn [valid_binary] in Hv. apply bounded_inv in Hv as [[He Hm]|[Hm He]].
    + exists s, 0, (Zpos m). split; [lia|]. split; [lia|].
      destruct (Z.ltb_spec (Zpos m) (2 ^ mw)); [|lia].
      assert (E : bsign mw ew s + Zpos m = bsign mw ew s + 0 * 2 ^ mw + Zpos m) by lia.
      split; [exact E|]. rewrite E. rewrite fdec_pack by lia.
      destruct (Z.eqb_spec 0 (2 ^ ew - 1)); [lia|]. cbn [Z.eqb]. rewrite He. reflexivity.
    + rewrite Z.pow_add_r in Hm by lia. change (2 ^ 1) with 2 in Hm.
      exists s, (e + 1 - femin mw ew), (Zpos m - 2 ^ mw).
      assert (Hee : 0 < e + 1 - femin mw ew < 2 ^ ew - 1).
      { unfold femin, prec, emax in *. lia. }
      split; [lia|]. split; [lia|].
      destruct (Z.ltb_spec (Zpos m) (2 ^ mw)); [lia|].
      split; [reflexivity|]. rewrite fdec_pack by lia.
      destruct (Z.eqb_spec (e + 1 - femin mw ew) (2 ^ ew - 1)); [lia|].
      destruct (Z.eqb_spec (e + 1 - femin mw ew) 0); [lia|].
      replace (Zpos m - 2 ^ mw + 2 ^ mw) with (Zpos m) by lia.
      f_equal. lia.
Qed.

Lemma fdec_fenc f : valid_binary prec emax f = true -> fdec mw ew (fenc mw ew f) = f.
Proof. intros H. destruct (fenc_pack f H) as (? & ? & ? & _ & _ & _ & E). exact E. Qed.

Lemma fenc_range f : valid_binary prec emax f = true ->
  0 <= fenc mw ew f < 2 ^ (mw + ew + 1).
Proof.
  intros H. destruct (fenc_pack f H) as (s & e & m & He & Hm & E & _). rewrite E.
  apply pack_fields; assumption.
Qed.

Lemma fenc_fdec x : 0 <= x < 2 ^ (mw + ew + 1) ->
  fdec mw ew x <> S754_nan -> fenc mw ew (fdec mw ew x) = x.
Proof.
  intros Hx Hn. destruct (fields_bound x Hx) as (He & Hm & Ex).
  destruct pk_pows as (H1 & H2 & H3 & H4 & H5).
  revert Hn. unfold fdec. set (s := fsign mw ew x) in *.
  set (e := fexpo mw ew x) in *. set (m := fmant mw x) in *.
  rewrite Ex. clearbody s e m.
  destruct (Z.eqb_spec e (2 ^ ew - 1)) as [E|E].
  - destruct (Z.eqb_spec m 0) as [Em|Em]; [|congruence]. intros _. cbn [fenc]. rewrite E, Em. lia.
  - destruct (Z.eqb_spec e 0) as [E0|E0].
    + rewrite E0. destruct m as [|q|q]; try lia; intros _; cbn [fenc]; [lia|].
      destruct (Z.ltb_spec (Zpos q) (2 ^ mw)); lia.
    + destruct (m + 2 ^ mw) as [|q|q] eqn:Eq; try lia. intros _. cbn [fenc].
      destruct (Z.ltb_spec (Zpos q) (2 ^ mw)); [lia|]. 
      replace (e - 1 + femin mw ew + 1 - femin mw ew) with e by lia. lia.
Qed.
End Pack.
