(** Exact addition and subtraction of doubles, and fixed-point numbers. *)
From Coq Require Import Reals Floats.SpecFloat Lra.
From Flocq Require Import Core BinarySingleNaN Calc.Bracket.
From Verif Require Import BaseFacts Platform Fp FpFacts FpSpec FpReal SampleReal SegdTypes SegdSpec.
Local Open Scope Z_scope.

Lemma bn_exact n ez m e : (IZR n * pw ez = IZR m * pw e)%R ->
  Z.abs m <= 2 ^ 53 -> -1074 <= e -> e <= 970 ->
  let z := SpecFloat.binary_normalize 53 1024 n ez false in
  valid_binary 53 1024 z = true /\ is_finite_SF z = true /\ sign_SF z = (n <? 0) /\
  SF2R radix2 z = (IZR n * pw ez)%R.
Proof.
  intros E Hm He He'. cbv zeta.
  destruct (rnd_small m e Hm He He') as [R1 R2].
  destruct n as [|q|q]; cbn [SpecFloat.binary_normalize].
  - repeat split; try reflexivity. cbn [SF2R]. rewrite Rmult_0_l. reflexivity.
  - destruct (br_correct 53 1024 _ _ false q ez) as (V & C & _). cbv zeta in C.
    unfold F2R in C. cbn [Fnum Fexp cond_Zopp] in C. change (bpow radix2 ez) with (pw ez) in C.
    rewrite E in C. destruct (C R2) as (C1 & C2 & C3). rewrite R1 in C1.
    rewrite E. auto.
  - destruct (br_correct 53 1024 _ _ true q ez) as (V & C & _). cbv zeta in C.
    unfold F2R in C. cbn [Fnum Fexp cond_Zopp] in C. change (bpow radix2 ez) with (pw ez) in C.
    change (- Zpos q) with (Zneg q) in C.
    rewrite E in C. destruct (C R2) as (C1 & C2 & C3). rewrite R1 in C1.
    rewrite E. auto.
Qed.

Lemma sfadd_exact x y m e :
  valid_binary 53 1024 x = true -> valid_binary 53 1024 y = true ->
  is_finite_SF x = true -> is_finite_SF y = true ->
  (SF2R radix2 x + SF2R radix2 y = IZR m * pw e)%R ->
  Z.abs m <= 2 ^ 53 -> -1074 <= e -> e <= 970 ->
  let z := SFadd 53 1024 x y in
  valid_binary 53 1024 z = true /\ is_finite_SF z = true /\
  SF2R radix2 z = (SF2R radix2 x + SF2R radix2 y)%R /\
  (sign_SF x = false \/ sign_SF y = false -> z <> S754_zero true).
Proof.
  intros Vx Vy Fx Fy E Hm He He'. cbv zeta.
  destruct x as [sx|sx| |sx mx ex]; try discriminate Fx;
    destruct y as [sy|sy| |sy my ey]; try discriminate Fy; cbn [SFadd] in *.
  - destruct (Bool.eqb sx sy) eqn:Es.
    + apply Bool.eqb_prop in Es. subst sy. repeat split; try reflexivity.
      * cbn [SF2R]. ring.
      * cbn [sign_SF]. intros [->| ->]; discriminate.
    + repeat split; try reflexivity; [cbn [SF2R]; ring|discriminate].
  - repeat split; auto; [cbn [SF2R]; ring|discriminate].
  - repeat split; auto; [cbn [SF2R]; ring|discriminate].
  - set (ez := Z.min ex ey) in *.
    pose proof (Fplus_naive_correct sx mx ex sy my ey ez ltac:(lia) ltac:(lia)) as K.
    cbv zeta in K. unfold Fplus_naive in K.
    set (n := cond_Zopp sx (Zpos (fst (shl_align mx ex ez)))
              + cond_Zopp sy (Zpos (fst (shl_align my ey ez)))) in *.
    cbn [SF2R] in E |- *.
    assert (K' : (IZR n * pw ez = IZR m * pw e)%R).
    { rewrite <- E. exact K. }
    destruct (bn_exact n ez m e K' Hm He He') as (V & F & S & W). cbv zeta in *.
    split; [exact V|]. split; [exact F|]. split; [rewrite W, K'; symmetry; exact E|].
    intros _ Z0. rewrite Z0 in W, S. cbn [SF2R sign_SF] in W, S.
    symmetry in S. apply Z.ltb_lt in S.
    assert (IZR n <> 0%R) by (apply not_0_IZR; lia).
    pose proof (pw_pos ez). symmetry in W. apply Rmult_integral in W. destruct W; [contradiction|lra].
Qed.

Lemma holds_add a b ra rb m e : holds a ra -> holds b rb ->
  (ra + rb = IZR m * pw e)%R -> Z.abs m <= 2 ^ 53 -> -1074 <= e -> e <= 970 ->
  holds (d_add a b) (ra + rb) /\
  (sign_SF (d_dec a) = false \/ sign_SF (d_dec b) = false -> d_add a b <> 2 ^ 63).
Proof.
  intros Ha Hb E Hm He He'.
  destruct (holds_dec _ _ Ha) as (Va & Fa & Ea). destruct (holds_dec _ _ Hb) as (Vb & Fb & Eb).
  assert (E2 : (SF2R radix2 (d_dec a) + SF2R radix2 (d_dec b) = IZR m * pw e)%R) by (rewrite Ea, Eb; exact E).
  destruct (sfadd_exact _ _ m e Va Vb Fa Fb E2 Hm He He') as (V & F & W & S). cbv zeta in *.
  rewrite Ea, Eb in W. unfold d_add. split; [apply holds_sf; auto|].
  intros H Q. apply (S H). rewrite <- (d_dec_enc _ V), Q. reflexivity.
Qed.

Lemma sfsub_add x y : SFsub 53 1024 x y = SFadd 53 1024 x (SFopp y).
Proof.
  destruct x as [sx|sx| |sx mx ex]; destruct y as [sy|sy| |sy my ey]; try reflexivity.
  cbn [SFsub SFadd SFopp]. f_equal. destruct sy; cbn [negb cond_Zopp]; lia.
Qed.

Lemma holds_sub a b ra rb m e : holds a ra -> holds b rb ->
  (ra - rb = IZR m * pw e)%R -> Z.abs m <= 2 ^ 53 -> -1074 <= e -> e <= 970 ->
  holds (d_sub a b) (ra - rb).
Proof.
  intros Ha Hb E Hm He He'.
  destruct (holds_dec _ _ Ha) as (Va & Fa & Ea). destruct (holds_dec _ _ Hb) as (Vb & Fb & Eb).
  assert (Vo : valid_binary 53 1024 (SFopp (d_dec b)) = true) by (destruct (d_dec b); exact Vb).
  assert (Fo : is_finite_SF (SFopp (d_dec b)) = true) by (destruct (d_dec b); exact Fb).
  assert (Eo : SF2R radix2 (SFopp (d_dec b)) = (- rb)%R).
  { rewrite <- Eb. destruct (d_dec b) as [s|s| |s mm ee]; try discriminate Fb; cbn [SFopp SF2R].
    - ring.
    - unfold F2R. cbn [Fnum Fexp]. rewrite !cond_opp_IZR. destruct s; cbn [negb]; ring. }
  assert (E2 : (SF2R radix2 (d_dec a) + SF2R radix2 (SFopp (d_dec b)) = IZR m * pw e)%R)
    by (rewrite Ea, Eo; rewrite <- E; ring).
  destruct (sfadd_exact _ _ m e Va Vo Fa Fo E2 Hm He He') as (V & F & W & S). cbv zeta in *.
  rewrite Ea, Eo in W. unfold d_sub. rewrite sfsub_add. apply holds_sf; auto.
Qed.

(** The sign of a double that is not the negative zero is that of its value. *)
Lemma sign_of_holds d r : holds d r -> d <> 2 ^ 63 ->
  sign_SF (d_dec d) = (if Rlt_dec r 0 then true else false).
Proof.
  intros H Nz. destruct (holds_dec _ _ H) as (V & F & E).
  destruct (d_dec d) as [s|s| |s m e] eqn:Ed; try discriminate F.
  - cbn [SF2R] in E. cbn [sign_SF].
    destruct (Rlt_dec r 0) as [L|L]; [exfalso; lra|].
    destruct s; [|reflexivity]. exfalso. apply Nz.
    destruct H as (D & Fi & _). rewrite <- (d_enc_dec d D).
    + rewrite Ed. reflexivity.
    + unfold dbl_nan, ieee_nan. unfold dbl_finite, ieee_finite in Fi.
      destruct (ieee_exp 52 11 d =? 2 ^ 11 - 1); [discriminate|reflexivity].
  - cbn [SF2R] in E. unfold F2R in E. cbn [Fnum Fexp] in E. rewrite cond_opp_IZR in E.
    cbn [sign_SF].
    assert (0 < IZR (Zpos m) * bpow radix2 e)%R as K.
    { apply Rmult_lt_0_compat; [apply IZR_lt; lia|apply bpow_gt_0]. }
    destruct s; destruct (Rlt_dec r 0) as [L|L]; try reflexivity; exfalso; lra.
Qed.

Lemma holds_uniq a b r : holds a r -> holds b r -> a <> 2 ^ 63 -> b <> 2 ^ 63 -> a = b.
Proof.
  intros Ha Hb Na Nb. apply (holds_inj a b r Ha Hb).
  rewrite (sign_of_holds a r Ha Na), (sign_of_holds b r Hb Nb). reflexivity.
Qed.

Lemma not_neg_zero d r : holds d r -> r <> 0%R -> d <> 2 ^ 63.
Proof.
  intros H Nz ->. apply Nz. destruct (holds_dec _ _ H) as (_ & _ & E).
  rewrite <- E. reflexivity.
Qed.

Lemma sign_false_nz d : sign_SF (d_dec d) = false -> d <> 2 ^ 63.
Proof. intros H ->. discriminate H. Qed.

(** ** Fixed point *)

Lemma fixp_pw d k n : fixp d k n <-> holds d (IZR k * pw (- n)) /\ d <> 2 ^ 63.
Proof. unfold fixp. rewrite pw_powerRZ. reflexivity. Qed.

Lemma fixp_uniq a b k n : fixp a k n -> fixp b k n -> a = b.
Proof. intros [Ha Na] [Hb Nb]. exact (holds_uniq a b _ Ha Hb Na Nb). Qed.

Lemma fixp_int k : Z.abs k <= 2 ^ 53 -> fixp (i2d k) k 0.
Proof.
  intros H. apply fixp_pw. destruct (i2d_holds k H) as [K S]. change (- 0) with 0. rewrite pw_0, Rmult_1_r.
  split; [exact K|]. destruct (Z.eq_dec k 0) as [->|N].
  - vm_compute. discriminate.
  - apply (not_neg_zero _ _ K). apply not_0_IZR. exact N.
Qed.

Lemma pow2_nz n : pw n <> 0%R.
Proof. pose proof (pw_pos n). lra. Qed.

Lemma fixp_div k n : Z.abs k <= 2 ^ 53 -> 0 <= n <= 1000 ->
  fixp (d_div (i2d k) (d_pow2 n)) k n.
Proof.
  intros Hk Hn. apply fixp_pw.
  destruct (i2d_holds k Hk) as [Hi Si]. destruct (d_pow2_holds n ltac:(lia)) as [Hp Sp].
  assert (E : (IZR k / pw n = IZR k * pw (- n))%R) by (rewrite pw_opp; reflexivity).
  destruct (d_div_holds _ _ _ _ k (- n) Hi Hp (pow2_nz n) E Hk ltac:(lia) ltac:(lia)) as [H S].
  rewrite E in H. split; [exact H|]. rewrite Si, Sp in S.
  destruct (Z.eq_dec k 0) as [->|N].
  - apply sign_false_nz. exact S.
  - apply (not_neg_zero _ _ H). apply Rmult_integral_contrapositive.
    split; [apply not_0_IZR; exact N|apply pow2_nz].
Qed.

Lemma fixp_mul d k n : fixp d k n -> Z.abs k <= 2 ^ 53 -> 0 <= n <= 1000 ->
  holds (d_mul d (d_pow2 n)) (IZR k).
Proof.
  intros H Hk Hn. apply fixp_pw in H. destruct H as [H _].
  destruct (d_pow2_holds n ltac:(lia)) as [Hp _].
  assert (E : (IZR k * pw (- n) * pw n = IZR k * pw 0)%R).
  { rewrite Rmult_assoc, <- pw_add. f_equal. f_equal. lia. }
  destruct (d_mul_holds _ _ _ _ k 0 H Hp E Hk ltac:(lia) ltac:(lia)) as [K _].
  rewrite E, pw_0, Rmult_1_r in K. exact K.
Qed.

Lemma d_trunc_int d k : holds d (IZR k) -> d_trunc d = Some k.
Proof. intros H. rewrite (d_trunc_holds _ _ H), Ztrunc_IZR. reflexivity. Qed.

Lemma d2u_fixp p w d k n : fixp d k n -> Z.abs k <= 2 ^ 53 -> 0 <= n <= 1000 ->
  0 <= k < 2 ^ w -> d2u p w (d_mul d (d_pow2 n)) = Ok k.
Proof.
  intros H Hk Hn Hw. unfold d2u. rewrite (d_trunc_int _ _ (fixp_mul d k n H Hk Hn)).
  unfold in_u. destruct (Z.leb_spec 0 k); [|lia]. destruct (Z.ltb_spec k (2 ^ w)); [|lia].
  reflexivity.
Qed.

Lemma d2s_fixp p w d k n : fixp d k n -> Z.abs k <= 2 ^ 53 -> 0 <= n <= 1000 ->
  - 2 ^ (w - 1) <= k < 2 ^ (w - 1) -> d2s p w (d_mul d (d_pow2 n)) = Ok k.
Proof.
  intros H Hk Hn Hw. unfold d2s. rewrite (d_trunc_int _ _ (fixp_mul d k n H Hk Hn)).
  unfold in_i. destruct (Z.leb_spec (- 2 ^ (w - 1)) k); [|lia].
  destruct (Z.ltb_spec k (2 ^ (w - 1))); [|lia]. reflexivity.
Qed.

(** [integer + fraction / 2^16] *)
Lemma fix16_fixp i f : Z.abs i < 2 ^ 32 -> 0 <= f < 2 ^ 16 -> fixp (fix16 i f) (i * 2 ^ 16 + f) 16.
Proof.
  intros Hi Hf. apply fixp_pw. unfold fix16.
  destruct (i2d_holds i ltac:(lia)) as [Ki Si].
  pose proof (fixp_div f 16 ltac:(lia) ltac:(lia)) as [Kf Nf].
  rewrite pw_powerRZ in Kf.
  assert (E : (IZR i + IZR f * pw (- (16)) = IZR (i * 2 ^ 16 + f) * pw (- (16)))%R).
  { rewrite plus_IZR, mult_IZR, Rmult_plus_distr_r. f_equal.
    rewrite Rmult_assoc. change (IZR (2 ^ 16)) with (IZR (radix2 ^ 16)).
    rewrite (IZR_Zpower radix2 16) by lia. change (bpow radix2 16) with (pw 16).
    rewrite <- pw_add. change (16 + - (16)) with 0. rewrite pw_0. ring. }
  destruct (holds_add _ _ _ _ _ _ Ki Kf E ltac:(lia) ltac:(lia) ltac:(lia)) as [H N].
  rewrite E in H. split; [exact H|]. apply N. right.
  rewrite (sign_of_holds _ _ (proj1 (conj Kf Nf)) Nf).
  destruct (Rlt_dec (IZR f * pw (- (16))) 0) as [L|L]; [|reflexivity].
  exfalso. apply (Rlt_irrefl 0). eapply Rle_lt_trans; [|exact L].
  apply Rmult_le_pos; [apply IZR_le; lia|apply Rlt_le, pw_pos].
Qed.

(** The integral part of a fixed-point number, and what is left. *)
Lemma fixp_trunc d k n : fixp d k n -> 0 <= k -> 0 <= n -> d_trunc d = Some (k / 2 ^ n).
Proof.
  intros H Hk Hn. apply fixp_pw in H. destruct H as [H _].
  rewrite (d_trunc_holds _ _ H). f_equal. rewrite Ztrunc_floor.
  - rewrite pw_opp. change (IZR k * / pw n)%R with (IZR k / pw n)%R.
    rewrite pw_IZR by lia. apply Zfloor_div. pose proof (pow2_pos n Hn). lia.
  - apply Rmult_le_pos; [apply IZR_le; lia|apply Rlt_le, pw_pos].
Qed.

Lemma fixp_frac d k n i : fixp d k n -> Z.abs k <= 2 ^ 52 -> 0 <= n <= 500 -> Z.abs (i * 2 ^ n) <= 2 ^ 52 ->
  holds (d_mul (d_sub d (i2d i)) (d_pow2 n)) (IZR (k - i * 2 ^ n)).
Proof.
  intros H Hk Hn Hi. apply fixp_pw in H. destruct H as [H _].
  pose proof (pow2_pos n ltac:(lia)) as P2.
  assert (Hi' : Z.abs i <= 2 ^ 52) by nia.
  destruct (i2d_holds i ltac:(lia)) as [Ki _].
  assert (E : (IZR k * pw (- n) - IZR i = IZR (k - i * 2 ^ n) * pw (- n))%R).
  { rewrite minus_IZR, mult_IZR. unfold Rminus. rewrite Rmult_plus_distr_r. f_equal.
    rewrite <- pw_IZR by lia. rewrite Ropp_mult_distr_l_reverse. f_equal.
    rewrite Rmult_assoc, <- pw_add. replace (n + - n) with 0 by lia. rewrite pw_0. ring. }
  pose proof (holds_sub _ _ _ _ _ _ H Ki E ltac:(lia) ltac:(lia) ltac:(lia)) as K.
  destruct (d_pow2_holds n ltac:(lia)) as [Hp _].
  assert (E2 : ((IZR k * pw (- n) - IZR i) * pw n = IZR (k - i * 2 ^ n) * pw 0)%R).
  { rewrite E, Rmult_assoc, <- pw_add. replace (- n + n) with 0 by lia. reflexivity. }
  destruct (d_mul_holds _ _ _ _ _ _ K Hp E2 ltac:(lia) ltac:(lia) ltac:(lia)) as [K2 _].
  rewrite E2, pw_0, Rmult_1_r in K2. exact K2.
Qed.
