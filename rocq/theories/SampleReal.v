(** Sample codecs and real values. *)
From Coq Require Import Reals Lra Floats.SpecFloat.
From Flocq Require Import Core IEEE754.BinarySingleNaN.
From Verif Require Import BaseFacts Platform Fp FpFacts FpSpec FpReal SegyTypes SegyCodec CodecFacts.
Open Scope Z_scope.

Lemma pw16_nat n : powerRZ 16 (Z.of_nat n) = pw (4 * Z.of_nat n).
Proof.
  rewrite <- pow_powerRZ. rewrite pw_IZR by lia.
  rewrite Z.pow_mul_r by lia. change (2 ^ 4) with 16. apply pow_IZR.
Qed.

Lemma pw16 k : powerRZ 16 k = pw (4 * k).
Proof.
  destruct (Z_le_gt_dec 0 k).
  - rewrite <- (Z2Nat.id k) by lia. apply pw16_nat.
  - rewrite <- (Z.opp_involutive k). rewrite powerRZ_neg' .
    rewrite <- (Z2Nat.id (- k)) by lia. rewrite pw16_nat.
    rewrite <- pw_opp. f_equal. lia.
Qed.

(** ** IBM decoding *)
Lemma ibm_fields w : 0 <= w < 2 ^ 32 ->
  Z.land (Z.shiftr w 24) 127 = ibm_exp w /\ Z.land w 16777215 = ibm_frac w.
Proof.
  intros H. change 127 with (Z.ones 7). change 16777215 with (Z.ones 24).
  rewrite !Z.land_ones, Z.shiftr_div_pow2 by lia. split; reflexivity.
Qed.

Lemma ibm2d_holds w : 0 <= w < 2 ^ 32 ->
  holds (ibm2d w) (ibm_val w) /\ sign_SF (d_dec (ibm2d w)) = ibm_neg w.
Proof.
  intros H. destruct (ibm_fields w H) as [E1 E2]. unfold ibm2d, ibm_val. rewrite E1, E2.
  clear E1 E2.
  assert (Hf : 0 <= ibm_frac w < 2 ^ 24) by (apply Z.mod_pos_bound; lia).
  assert (He : 0 <= ibm_exp w < 128) by (apply Z.mod_pos_bound; lia).
  change (2 ^ 31 <=? w) with (ibm_neg w).
  rewrite pw_powerRZ, pw16. clear H.
  generalize dependent (ibm_neg w). generalize dependent (ibm_frac w). generalize dependent (ibm_exp w).
  intros e He f Hf sg.
  destruct (i2d_holds f ltac:(lia)) as [H1 S1].
  destruct (d_pow2_holds 24 ltac:(lia)) as [H2 S2].
  destruct (d_pow2_holds (4 * (e - 64)) ltac:(lia)) as [H3 S3].
  assert (Q1 : (IZR f / pw 24 = IZR f * pw (-24))%R) by (change (-24) with (- (24)); rewrite (pw_opp 24); reflexivity).
  destruct (d_div_holds _ _ _ _ f (-24) H1 H2) as [H4 S4]; auto; try lia.
  { apply Rgt_not_eq, pw_pos. }
  assert (Q2 : (IZR f / pw 24 * pw (4 * (e - 64)) = IZR f * pw (-24 + 4 * (e - 64)))%R).
  { rewrite Q1, pw_add. ring. }
  destruct (d_mul_holds _ _ _ _ f (-24 + 4 * (e - 64)) H4 H3) as [H5 S5]; auto; try lia.
  destruct sg.
  - destruct (i2d_holds (-1) ltac:(lia)) as [H6 S6].
    destruct (d_mul_holds _ _ _ _ (- f) (-24 + 4 * (e - 64)) H5 H6) as [H7 S7]; try lia.
    { rewrite Q2, opp_IZR. ring. }
    split.
    + replace (-1 * (IZR f / pw 24) * pw (4 * (e - 64)))%R
        with (IZR f / pw 24 * pw (4 * (e - 64)) * -1)%R by ring. exact H7.
    + rewrite S7, S5, S4, S1, S2, S3, S6. destruct (Z.ltb_spec f 0); [lia|reflexivity].
  - destruct (i2d_holds 1 ltac:(lia)) as [H6 S6].
    destruct (d_mul_holds _ _ _ _ f (-24 + 4 * (e - 64)) H5 H6) as [H7 S7]; try lia.
    { rewrite Q2. ring. }
    split.
    + replace (1 * (IZR f / pw 24) * pw (4 * (e - 64)))%R
        with (IZR f / pw 24 * pw (4 * (e - 64)) * 1)%R by ring. exact H7.
    + rewrite S7, S5, S4, S1, S2, S3, S6. destruct (Z.ltb_spec f 0); [lia|reflexivity].
Qed.

(** ** IBM encoding *)

(** A double is [m * 2^k] with a short significand. *)
Lemma holds_form v x : holds v x ->
  exists m k, x = (IZR m * pw k)%R /\ Z.abs m < 2 ^ 53 /\ -1074 <= k <= 971.
Proof.
  intros H. destruct (holds_dec _ _ H) as (V & F & E).
  destruct (d_dec v) as [s|s| |s m e]; try discriminate F; cbn [SF2R] in E.
  - exists 0, 0. split; [subst x; ring|lia].
  - exists (cond_Zopp s (Zpos m)), e. split; [subst x; reflexivity|].
    cbn [valid_binary] in V.
    apply (bounded_inv 52 11 ltac:(lia) ltac:(lia)) in V.
    change (femin 52 11) with (-1074) in V.
    change (2 ^ (52 + 1)) with (2 ^ 53) in V.
    destruct s; cbn [cond_Zopp]; lia.
Qed.

Lemma Ztrunc_nonneg r : (0 <= r)%R -> Ztrunc r = Zfloor r.
Proof. apply Ztrunc_floor. Qed.

Lemma pw_le_inv a b : (pw a < pw b)%R -> a < b.
Proof. apply lt_bpow. Qed.

Lemma d2ibm_ok p v x E :
  holds v x -> p_ibm_exp p (d_abs v) = Some E -> 0 <= E <= 127 ->
  (Rabs x < pw (4 * (E - 64)))%R -> (x = 0 \/ pw (-260) <= Rabs x)%R ->
  exists F, F = Zfloor (Rabs x * pw (24 - 4 * (E - 64))) /\ 0 <= F < 2 ^ 24 /\
    d2ibm p v = Ok ((if d_lt v 0 then 2 ^ 31 else 0) + E * 2 ^ 24 + F).
Proof.
  intros Hv HE HEr Hlt Hlo. unfold d2ibm. rewrite HE.
  assert (HEa : Z.land E 127 = E).
  { change 127 with (Z.ones 7). rewrite Z.land_ones by lia. apply Z.mod_small. lia. }
  rewrite HEa. set (g := 4 * (E - 64)) in *.
  assert (Hg : -256 <= g <= 252) by lia.
  pose proof (d_abs_holds _ _ Hv) as Ha.
  assert (exists m k, Rabs x = (IZR m * pw k)%R /\ Z.abs m < 2 ^ 53 /\ -600 <= k - g /\ k - g <= 0) as (m & k & Em & Hm & Hk1 & Hk2).
  { destruct (Req_dec (Rabs x) 0) as [Z|NZ].
    - exists 0, g. split; [rewrite Z; ring|lia].
    - destruct (holds_form _ _ Ha) as (m & k & Em & Hm & Hk).
      assert (Px : (0 < Rabs x)%R) by (pose proof (Rabs_pos x); lra).
      assert (Hm1 : 1 <= m).
      { assert (0 < IZR m)%R.
        { rewrite Em in Px. apply (Rmult_lt_reg_r (pw k)); [apply pw_pos|]. rewrite Rmult_0_l. exact Px. }
        apply (lt_IZR 0) in H. lia. }
      exists m, k. split; [exact Em|]. split; [exact Hm|]. split.
      + destruct Hlo as [->|Hlo]; [rewrite Rabs_R0 in NZ; lra|].
        assert (pw (-260) < pw (53 + k))%R as K.
        { eapply Rle_lt_trans; [exact Hlo|]. rewrite Em, pw_add.
          apply Rmult_lt_compat_r; [apply pw_pos|]. rewrite pw_IZR by lia. apply IZR_lt. lia. }
        apply pw_le_inv in K. lia.
      + assert (pw k < pw g)%R as K.
        { eapply Rle_lt_trans; [|exact Hlt]. rewrite Em. rewrite <- (Rmult_1_l (pw k)) at 1.
          apply Rmult_le_compat_r; [apply Rlt_le, pw_pos|]. apply IZR_le. exact Hm1. }
        apply pw_le_inv in K. lia. }
  destruct (d_pow2_holds g ltac:(lia)) as [Hg2 _].
  destruct (d_pow2_holds 24 ltac:(lia)) as [H24 _].
  assert (Q1 : (Rabs x / pw g = IZR m * pw (k - g))%R).
  { unfold Rdiv. rewrite <- pw_opp, Em, Rmult_assoc, <- pw_add. reflexivity. }
  destruct (d_div_holds _ _ _ _ m (k - g) Ha Hg2) as [H4 _]; auto; try lia.
  { apply Rgt_not_eq, pw_pos. }
  destruct (d_mul_holds _ _ _ _ m (k - g + 24) H4 H24) as [H5 _]; try lia.
  { rewrite Q1, Rmult_assoc, <- pw_add. reflexivity. }
  assert (Q2 : (Rabs x / pw g * pw 24 = Rabs x * pw (24 - g))%R).
  { unfold Rdiv. rewrite <- pw_opp, Rmult_assoc, <- pw_add. f_equal. f_equal. lia. }
  rewrite Q2 in H5. apply d_trunc_holds in H5.
  assert (Hpos : (0 <= Rabs x * pw (24 - g))%R).
  { apply Rmult_le_pos; [apply Rabs_pos|apply Rlt_le, pw_pos]. }
  rewrite Ztrunc_floor in H5 by exact Hpos.
  set (F := Zfloor (Rabs x * pw (24 - g))) in *.
  assert (HF : 0 <= F < 2 ^ 24).
  { split; [apply Zfloor_lub; exact Hpos|].
    apply lt_IZR. eapply Rle_lt_trans; [apply Zfloor_lb|].
    rewrite <- pw_IZR by lia. replace 24 with (g + (24 - g)) at 2 by lia.
    rewrite pw_add. apply Rmult_lt_compat_r; [apply pw_pos|exact Hlt]. }
  exists F. split; [reflexivity|]. split; [exact HF|].
  unfold d2u. rewrite H5.
  assert (in_u 32 F = true) as -> by (unfold in_u; change (2 ^ 32) with (256 * 2 ^ 24); lia).
  cbn [bind]. f_equal.
  change 16777215 with (Z.ones 24). rewrite Z.land_ones, Z.mod_small by lia.
  rewrite <- Z.lor_assoc. rewrite (lor_shift E F 24) by lia.
  rewrite lor_shift by (change (2 ^ 31) with (128 * 2 ^ 24); lia).
  destruct (d_lt v 0); lia.
Qed.

(** Fields of an assembled word. *)
Lemma ibm_word s E F : 0 <= E <= 127 -> 0 <= F < 2 ^ 24 ->
  let w := (if s : bool then 2 ^ 31 else 0) + E * 2 ^ 24 + F in
  0 <= w < 2 ^ 32 /\ ibm_neg w = s /\ ibm_exp w = E /\ ibm_frac w = F.
Proof.
  intros HE HF. cbv zeta. unfold ibm_neg, ibm_exp, ibm_frac.
  change (2 ^ 32) with (256 * 2 ^ 24). change (2 ^ 31) with (128 * 2 ^ 24).
  change (2 ^ 7) with 128.
  assert (forall b, (b * 2 ^ 24 + E * 2 ^ 24 + F) mod 2 ^ 24 = F /\
                    (b * 2 ^ 24 + E * 2 ^ 24 + F) / 2 ^ 24 = b + E) as K.
  { intros b. rewrite <- Z.mul_add_distr_r, Z.add_comm. split.
    - rewrite Z.mod_add by lia. apply Z.mod_small; lia.
    - rewrite Z.div_add by lia. rewrite Z.div_small by lia. reflexivity. }
  destruct s.
  - destruct (K 128) as [-> ->]. split; [lia|]. split; [apply Z.leb_le; lia|].
    split; [|reflexivity]. symmetry. apply Z.mod_unique with 1; lia.
  - destruct (K 0) as [K1 K2]. change (0 * 2 ^ 24) with 0 in *. rewrite K1, K2.
    split; [lia|]. split; [apply Z.leb_gt; lia|]. split; [|reflexivity]. apply Z.mod_small; lia.
Qed.


Lemma sgn_abs x : (sgn x * Rabs x = x)%R.
Proof.
  unfold sgn. destruct (Rlt_dec x 0) as [H|H].
  - rewrite Rabs_left by exact H. ring.
  - rewrite Rabs_right by lra. ring.
Qed.

Lemma d_lt_sgn v x : holds v x -> (if d_lt v 0 then (-1)%R else 1%R) = sgn x.
Proof.
  intros H. pose proof (d_lt_0 v x H) as D. unfold sgn.
  destruct (Rlt_dec x 0) as [L|L]; destruct (d_lt v 0); try reflexivity.
  - apply D in L; discriminate.
  - exfalso. apply L, D. reflexivity.
Qed.

(** Value of the written word. *)
Lemma d2ibm_val p v x E :
  holds v x -> p_ibm_exp p (d_abs v) = Some E -> 0 <= E <= 127 ->
  (Rabs x < pw (4 * (E - 64)))%R -> (x = 0 \/ pw (-260) <= Rabs x)%R ->
  exists w, d2ibm p v = Ok w /\ 0 <= w < 2 ^ 32 /\ ibm_exp w = E /\
    ibm_neg w = d_lt v 0 /\
    ibm_frac w = Zfloor (Rabs x * pw (24 - 4 * (E - 64))) /\
    ibm_val w = (sgn x * IZR (ibm_frac w) * pw (4 * (E - 64) - 24))%R.
Proof.
  intros Hv HE HEr Hlt Hlo.
  destruct (d2ibm_ok p v x E Hv HE HEr Hlt Hlo) as (F & EF & HF & Ew).
  destruct (ibm_word (d_lt v 0) E F HEr HF) as (Hw & Hn & He & Hf).
  eexists. split; [exact Ew|]. split; [exact Hw|]. split; [exact He|]. split; [exact Hn|].
  split; [rewrite Hf; exact EF|].
  unfold ibm_val. rewrite Hn, He, Hf, pw_powerRZ, pw16, (d_lt_sgn v x Hv).
  unfold Rdiv. rewrite <- pw_opp. rewrite !Rmult_assoc. rewrite <- pw_add. do 3 f_equal. lia.
Qed.

(** Truncation toward zero at weight [pw g]. *)
Lemma floor_err a g : (0 <= a)%R ->
  let y := (IZR (Zfloor (a * pw (- g))) * pw g)%R in (0 <= y <= a /\ a - y < pw g)%R.
Proof.
  intros Ha. cbv zeta. pose proof (pw_pos g) as Hg. pose proof (pw_pos (- g)) as Hg'.
  assert (E : (a = a * pw (- g) * pw g)%R).
  { rewrite Rmult_assoc, <- pw_add. replace (- g + g) with 0 by lia. rewrite pw_0. ring. }
  set (t := (a * pw (- g))%R) in *.
  assert (Ht : (0 <= t)%R) by (apply Rmult_le_pos; lra).
  pose proof (Zfloor_lb t) as L. pose proof (Zfloor_ub t) as U.
  assert (0 <= IZR (Zfloor t))%R by (apply IZR_le, Zfloor_lub; exact Ht).
  rewrite E. split.
  - split; [apply Rmult_le_pos; lra|]. apply Rmult_le_compat_r; lra.
  - rewrite <- Rmult_minus_distr_r. rewrite <- (Rmult_1_l (pw g)) at 2.
    apply Rmult_lt_compat_r; lra.
Qed.

(** Normalised words. *)
Lemma ibm_normal_range w : 0 <= w < 2 ^ 32 -> ibm_normal w ->
  (pw (4 * (ibm_exp w - 65)) <= Rabs (ibm_val w) < pw (4 * (ibm_exp w - 64)))%R.
Proof.
  intros Hw Hn. unfold ibm_normal in Hn.
  assert (Hf : 0 <= ibm_frac w < 2 ^ 24) by (apply Z.mod_pos_bound; lia).
  assert (E : Rabs (ibm_val w) = (IZR (ibm_frac w) * pw (-24 + 4 * (ibm_exp w - 64)))%R).
  { unfold ibm_val. rewrite pw_powerRZ, pw16, pw_add. unfold Rdiv. rewrite <- pw_opp.
    rewrite !Rabs_mult.
    rewrite !(Rabs_pos_eq (pw _)) by (apply Rlt_le, pw_pos).
    rewrite (Rabs_pos_eq (IZR _)) by (apply IZR_le; lia).
    assert (Rabs (if ibm_neg w then -1 else 1) = 1)%R as ->.
    { destruct (ibm_neg w); [rewrite Rabs_left by lra; ring|apply Rabs_R1]. }
    change (- (24)) with (-24). ring. }
  rewrite E. clear E. pose proof (pw_pos (-24 + 4 * (ibm_exp w - 64))) as P. split.
  - replace (4 * (ibm_exp w - 65)) with (20 + (-24 + 4 * (ibm_exp w - 64))) by lia.
    rewrite pw_add. apply Rmult_le_compat_r; [lra|]. rewrite pw_IZR by lia. apply IZR_le; lia.
  - replace (4 * (ibm_exp w - 64)) with (24 + (-24 + 4 * (ibm_exp w - 64))) at 2 by lia.
    rewrite (pw_add 24). apply Rmult_lt_compat_r; [lra|]. rewrite pw_IZR by lia. apply IZR_lt; lia.
Qed.

Lemma ibm_decomp w : 0 <= w < 2 ^ 32 ->
  w = (if ibm_neg w then 2 ^ 31 else 0) + ibm_exp w * 2 ^ 24 + ibm_frac w.
Proof.
  intros H. unfold ibm_neg, ibm_exp, ibm_frac.
  change (2 ^ 32) with (256 * 2 ^ 24) in H. change (2 ^ 31) with (128 * 2 ^ 24). change (2 ^ 7) with 128.
  pose proof (Z.div_mod w (2 ^ 24) ltac:(lia)) as D.
  pose proof (Z.mod_pos_bound w (2 ^ 24) ltac:(lia)) as M.
  set (q := w / 2 ^ 24) in *. set (r := w mod 2 ^ 24) in *. clearbody q r.
  destruct (Z.leb_spec (128 * 2 ^ 24) w).
  - replace (q mod 128) with (q - 128); [lia|]. apply Z.mod_unique with 1; lia.
  - rewrite (Z.mod_small q) by lia. lia.
Qed.

(** A normalised word survives decode and encode when the exponent the
    writer computes is the right one. *)
Lemma ibm_bits p w E : 0 <= w < 2 ^ 32 -> ibm_normal w ->
  p_ibm_exp p (d_abs (ibm2d w)) = Some E ->
  (pw (4 * (E - 65)) <= Rabs (ibm_val w) < pw (4 * (E - 64)))%R ->
  d2ibm p (ibm2d w) = Ok w.
Proof.
  intros Hw Hn HE [B1 B2]. pose proof (ibm_normal_range w Hw Hn) as [N1 N2].
  assert (He : 0 <= ibm_exp w < 128) by (apply Z.mod_pos_bound; lia).
  assert (EE : E = ibm_exp w).
  { assert (pw (4 * (E - 65)) < pw (4 * (ibm_exp w - 64)))%R as K1 by lra. apply pw_le_inv in K1.
    assert (pw (4 * (ibm_exp w - 65)) < pw (4 * (E - 64)))%R as K2 by lra. apply pw_le_inv in K2. lia. }
  destruct (ibm2d_holds w Hw) as [H S].
  assert (Hlo : (pw (-260) <= Rabs (ibm_val w))%R).
  { eapply Rle_trans; [|exact N1]. apply bpow_le. lia. }
  destruct (d2ibm_ok p (ibm2d w) (ibm_val w) E H HE ltac:(lia) B2 (or_intror Hlo)) as (F & EF & HF & ->).
  f_equal. transitivity ((if ibm_neg w then 2 ^ 31 else 0) + ibm_exp w * 2 ^ 24 + ibm_frac w); [|symmetry; exact (ibm_decomp w Hw)].
  rewrite EE. f_equal; [f_equal|].
  - assert (d_lt (ibm2d w) 0 = ibm_neg w) as ->; [|reflexivity].
    pose proof (d_lt_0 _ _ H) as D.
    assert (Hf : 0 < ibm_frac w) by (unfold ibm_normal in Hn; lia).
    assert (Hp : (0 < IZR (ibm_frac w) / powerRZ 2 24 * powerRZ 16 (ibm_exp w - 64))%R).
    { rewrite pw_powerRZ, pw16. unfold Rdiv. rewrite <- pw_opp.
      repeat apply Rmult_lt_0_compat; try apply pw_pos. apply IZR_lt; exact Hf. }
    unfold ibm_val in D. rewrite Rmult_assoc in D.
    destruct (ibm_neg w); destruct (d_lt (ibm2d w) 0); try reflexivity.
    + assert (false = true) as C by (apply D; lra). exact C.
    + exfalso. assert (1 * (IZR (ibm_frac w) / powerRZ 2 24 * powerRZ 16 (ibm_exp w - 64)) < 0)%R by (apply D; reflexivity). lra.
  - rewrite EF, EE. assert (Hf : 0 <= ibm_frac w) by (unfold ibm_normal in Hn; lia).
    assert (Rabs (ibm_val w) * pw (24 - 4 * (ibm_exp w - 64)) = IZR (ibm_frac w))%R as ->; [|apply Zfloor_IZR].
    unfold ibm_val. rewrite pw_powerRZ, pw16. unfold Rdiv. rewrite <- pw_opp.
    rewrite !Rabs_mult. rewrite !(Rabs_pos_eq (pw _)) by (apply Rlt_le, pw_pos).
    rewrite (Rabs_pos_eq (IZR _)) by (apply IZR_le; lia).
    assert (Rabs (if ibm_neg w then -1 else 1) = 1)%R as ->.
    { destruct (ibm_neg w); [rewrite Rabs_left by lra; ring|apply Rabs_R1]. }
    rewrite Rmult_1_l, !Rmult_assoc, <- !pw_add.
    replace (-(24) + (4 * (ibm_exp w - 64) + (24 - 4 * (ibm_exp w - 64)))) with 0 by lia.
    rewrite pw_0. ring.
Qed.

(** ** Integers *)
Lemma i2d_holds_fmt z : generic_format radix2 (SpecFloat.fexp 53 1024) (IZR z) ->
  Z.abs z < 2 ^ 1024 -> holds (i2d z) (IZR z) /\ sign_SF (d_dec (i2d z)) = (z <? 0).
Proof.
  intros G B.
  assert (R : rnd 53 1024 (IZR z) = IZR z) by (apply rnd_exact; exact G).
  assert (L : (Rabs (IZR z) < pw 1024)%R).
  { rewrite <- abs_IZR, pw_IZR by lia. apply IZR_lt, B. }
  unfold i2d. destruct z as [|q|q]; cbn [SpecFloat.binary_normalize].
  - split; [apply holds_sf; reflexivity|]. rewrite d_dec_enc; reflexivity.
  - destruct (br_correct 53 1024 _ _ false q 0) as (V & C & _). cbv zeta in C.
    assert (E0 : F2R (Float radix2 (cond_Zopp false (Zpos q)) 0) = IZR (Zpos q)).
    { unfold F2R. cbn [Fnum Fexp cond_Zopp]. change (bpow radix2 0) with 1%R. ring. }
    rewrite E0, R in C. destruct (C L) as (C1 & C2 & C3). split.
    + apply holds_sf; auto.
    + rewrite d_dec_enc by exact V. exact C3.
  - destruct (br_correct 53 1024 _ _ true q 0) as (V & C & _). cbv zeta in C.
    assert (E0 : F2R (Float radix2 (cond_Zopp true (Zpos q)) 0) = IZR (Zneg q)).
    { unfold F2R. cbn [Fnum Fexp cond_Zopp]. change (bpow radix2 0) with 1%R. change (- Zpos q) with (Zneg q). ring. }
    rewrite E0, R in C. destruct (C L) as (C1 & C2 & C3). split.
    + apply holds_sf; auto.
    + rewrite d_dec_enc by exact V. exact C3.
Qed.

(** A double holding an integer is what the conversion from that integer
    gives, except that the sign of zero is lost. *)
Lemma i2d_of_holds d z : holds d (IZR z) -> Z.abs z < 2 ^ 1024 ->
  holds (i2d z) (IZR z) /\ (d <> 2 ^ 63 -> i2d z = d).
Proof.
  intros H B. destruct (holds_dec _ _ H) as (V & F & E).
  assert (G : generic_format radix2 (SpecFloat.fexp 53 1024) (IZR z)).
  { rewrite <- E. apply sf_generic. exact V. }
  destruct (i2d_holds_fmt z G B) as [Hi Si]. split; [exact Hi|].
  intros Nz. apply (holds_inj _ _ (IZR z)); auto. rewrite Si.
  destruct (d_dec d) as [s|s| |s m e] eqn:Ed; try discriminate F.
  - cbn [SF2R] in E. apply (eq_IZR 0) in E. subst z. cbn [sign_SF].
    destruct s; [|reflexivity]. exfalso. apply Nz.
    destruct H as (D & Fi & _). rewrite <- (d_enc_dec d D).
    + rewrite Ed. reflexivity.
    + unfold dbl_nan, ieee_nan. unfold dbl_finite, ieee_finite in Fi.
      destruct (ieee_exp 52 11 d =? 2 ^ 11 - 1); [discriminate|reflexivity].
  - cbn [SF2R] in E. unfold F2R in E. cbn [Fnum Fexp] in E. rewrite cond_opp_IZR in E.
    cbn [sign_SF].
    assert (0 < IZR (Zpos m) * bpow radix2 e)%R as K.
    { apply Rmult_lt_0_compat; [apply IZR_lt; lia|apply bpow_gt_0]. }
    destruct s; destruct (Z.ltb_spec z 0) as [L|L]; try reflexivity.
    + exfalso. apply IZR_le in L. lra.
    + exfalso. apply IZR_lt in L. lra.
Qed.

(** Conversion to an unsigned type by the writer. *)
Definition conv_ok (p : platform) (z : Z) : Prop := 0 <= z \/ p_d2u p = gcc_d2u.

Lemma d2u_int p w d z : holds d (IZR z) -> conv_ok p z ->
  (w = 8 \/ w = 16 \/ w = 32 \/ w = 64) -> - 2 ^ (w - 1) <= z < 2 ^ w ->
  exists u, d2u p w d = Ok u /\ wrapu w u = wrapu w z /\ 0 <= u < 2 ^ w.
Proof.
  intros H C Hw Hz. unfold d2u. rewrite (d_trunc_holds _ _ H), Ztrunc_IZR.
  assert (0 < w) by lia.
  destruct (in_u w z) eqn:I.
  - exists z. unfold in_u in I. split; [reflexivity|]. split; [reflexivity|lia].
  - destruct C as [C|C]; [unfold in_u in I; lia|]. rewrite C.
    assert (z < 0) as Hneg by (unfold in_u in I; lia).
    assert (J : in_i (if w <=? 16 then 32 else 64) z = true).
    { unfold in_i. clear I C. decompose [or] Hw; subst w; cbn -[Z.pow] in *; lia. }
    unfold gcc_d2u. rewrite J. exists (wrapu w z). split; [reflexivity|].
    split; [apply wrapu_idem|apply wrapu_bound]; lia.
Qed.

(** ** IEEE single precision *)
Lemma f_is_nan_spec w : f_is_nan w = flt_nan w. Proof. reflexivity. Qed.
Lemma d_is_nan_spec w : d_is_nan w = dbl_nan w. Proof. reflexivity. Qed.

Lemma f2d_finite w : is_flt w -> flt_finite w = true ->
  holds (f2d w) (flt_val w) /\ sign_SF (d_dec (f2d w)) = sign_SF (f_dec w).
Proof.
  intros D F. pose proof (f_dec_val w D F) as E. pose proof (f_dec_valid w D) as V.
  pose proof (f_dec_finite w D) as Fi. rewrite F in Fi.
  unfold f2d. assert (N : f_is_nan w = false).
  { unfold f_is_nan. unfold flt_finite, ieee_finite in F. change (ieee_exp 23 8 w) with (fexpo 23 8 w) in F.
    destruct (fexpo 23 8 w =? 2 ^ 8 - 1); [discriminate|reflexivity]. }
  rewrite N. destruct (f_dec w) as [s|s| |s m e] eqn:Ed; try discriminate Fi.
  - cbn [SF2R] in E. split; [apply holds_sf; auto|]. rewrite d_dec_enc; reflexivity.
  - cbn [valid_binary] in V. apply (bounded_inv 23 8 ltac:(lia) ltac:(lia)) in V.
    change (femin 23 8) with (-149) in V. change (2 ^ (8 - 1)) with 128 in V.
    destruct (br_exact s m e) as (V' & F' & S' & E').
    { change (2 ^ 53) with (2 ^ 29 * 2 ^ 24). lia. } { lia. } { lia. }
    split; [|rewrite d_dec_enc by exact V'; exact S'].
    apply holds_sf; auto. rewrite E', <- E. reflexivity.
Qed.

Lemma d2f_not_nan x : dbl_nan x = false ->
  d2f x = match d_dec x with
          | S754_finite s m e => f_enc (SpecFloat.binary_round 24 128 s m e)
          | f => f_enc f
          end.
Proof. intros N. unfold d2f. rewrite d_is_nan_spec, N. reflexivity. Qed.

Lemma holds_not_nan x r : holds x r -> dbl_nan x = false.
Proof.
  intros (_ & F & _). unfold dbl_nan, ieee_nan. unfold dbl_finite, ieee_finite in F.
  destruct (ieee_exp 52 11 x =? 2 ^ 11 - 1); [discriminate|reflexivity].
Qed.


Lemma d2f_finite x r : holds x r -> (Rabs (rne32 r) < pw 128)%R ->
  is_flt (d2f x) /\ flt_finite (d2f x) = true /\ flt_val (d2f x) = rne32 r /\
  sign_SF (f_dec (d2f x)) = sign_SF (d_dec x).
Proof.
  intros H L. rewrite d2f_not_nan by (eapply holds_not_nan; exact H).
  destruct (holds_dec _ _ H) as (V & F & E).
  assert (K : forall f, valid_binary 24 128 f = true -> is_finite_SF f = true ->
     SF2R radix2 f = rne32 r -> is_flt (f_enc f) /\ flt_finite (f_enc f) = true /\
       flt_val (f_enc f) = rne32 r /\ f_dec (f_enc f) = f).
  { intros f Vf Ff Ef. pose proof (f_enc_flt f Vf) as D. pose proof (f_dec_enc f Vf) as De.
    assert (flt_finite (f_enc f) = true) as Fi by (rewrite <- f_dec_finite by exact D; rewrite De; exact Ff).
    repeat split; auto; try apply D. rewrite <- f_dec_val by assumption. rewrite De. exact Ef. }
  destruct (d_dec x) as [s|s| |s m e] eqn:Ed; try discriminate F; cbn [SF2R] in E.
  - assert (r = 0%R) by (symmetry; exact E). subst r.
    destruct (K (S754_zero s)) as (K1 & K2 & K3 & K4); try reflexivity.
    { unfold rne32. rewrite round_0; [reflexivity|apply valid_rnd_N]. }
    rewrite K4. auto.
  - destruct (br_correct 24 128 _ _ s m e) as (V' & C & _). cbv zeta in C. rewrite E in C.
    destruct (C L) as (C1 & C2 & C3).
    destruct (K _ V' C2 C1) as (K1 & K2 & K3 & K4). rewrite K4. auto.
Qed.

Lemma d2f_overflow x r : holds x r -> (pw 128 <= Rabs (rne32 r))%R ->
  d2f x = f_enc (S754_infinity (sign_SF (d_dec x))).
Proof.
  intros H L. rewrite d2f_not_nan by (eapply holds_not_nan; exact H).
  destruct (holds_dec _ _ H) as (V & F & E).
  destruct (d_dec x) as [s|s| |s m e] eqn:Ed; try discriminate F; cbn [SF2R] in E.
  - exfalso. subst r. unfold rne32 in L. rewrite round_0 in L by apply valid_rnd_N.
    rewrite Rabs_R0 in L. pose proof (pw_pos 128). lra.
  - destruct (br_correct 24 128 _ _ s m e) as (_ & _ & C). cbv zeta in C. rewrite E in C.
    rewrite (C L). reflexivity.
Qed.

Lemma d2f_f2d w : is_flt w -> flt_nan w = false -> d2f (f2d w) = w.
Proof.
  intros D N. destruct (flt_finite w) eqn:F.
  - destruct (f2d_finite w D F) as [H S].
    pose proof (f_dec_valid w D) as V. pose proof (f_dec_val w D F) as Ev.
    assert (G : rne32 (flt_val w) = flt_val w).
    { rewrite <- Ev. unfold rne32. apply round_generic; [apply valid_rnd_N|].
      apply (sf_generic 24 128 _ V). }
    assert (L : (Rabs (rne32 (flt_val w)) < pw 128)%R).
    { rewrite G, <- Ev. apply (sf_lt_emax 24 128 _ V). }
    destruct (d2f_finite _ _ H L) as (D' & F' & E' & S').
    assert (N' : flt_nan (d2f (f2d w)) = false).
    { unfold flt_nan, ieee_nan. unfold flt_finite, ieee_finite in F'.
      destruct (ieee_exp 23 8 (d2f (f2d w)) =? 2 ^ 8 - 1); [discriminate|reflexivity]. }
    transitivity (f_enc (f_dec w)); [|apply f_enc_dec; assumption].
    rewrite <- (f_enc_dec _ D' N'). f_equal. apply (sf_inj 24 128); auto.
    + apply f_dec_valid; exact D'.
    + rewrite f_dec_finite by exact D'. exact F'.
    + rewrite f_dec_finite by exact D. exact F.
    + rewrite f_dec_val by assumption. rewrite E', G. symmetry. exact Ev.
    + congruence.
  - (* infinity *)
    assert (E : f_dec w = S754_infinity (fsign 23 8 w)).
    { unfold f_dec, fdec. unfold flt_finite, ieee_finite in F. unfold flt_nan, ieee_nan in N.
      change (ieee_exp 23 8 w) with (fexpo 23 8 w) in *. change (ieee_man 23 w) with (fmant 23 w) in *.
      destruct (fexpo 23 8 w =? 2 ^ 8 - 1); [|discriminate].
      destruct (fmant 23 w =? 0); [reflexivity|discriminate]. }
    rewrite <- (f_enc_dec w D N) at 2. rewrite E.
    unfold f2d. rewrite f_is_nan_spec, N, E.
    destruct (fsign 23 8 w); vm_compute; reflexivity.
Qed.

(** NaNs stay NaNs. *)
Lemma lor_bound a b k : 0 <= k -> 0 <= a < 2 ^ k -> 0 <= b < 2 ^ k -> 0 <= Z.lor a b < 2 ^ k.
Proof.
  intros Hk Ha Hb. split; [apply Z.lor_nonneg; lia|].
  destruct (Z.eq_dec (Z.lor a b) 0) as [->|N]; [apply pow2_pos; lia|].
  assert (P : 0 <= Z.lor a b) by (apply Z.lor_nonneg; lia).
  apply Z.log2_lt_pow2; [lia|]. rewrite Z.log2_lor by lia.
  destruct (Z.eq_dec k 0) as [->|].
  { change (2 ^ 0) with 1 in *. assert (a = 0) by lia. assert (b = 0) by lia. subst. cbn in N. lia. }
  apply Z.max_lub_lt.
  - destruct (Z.eq_dec a 0) as [->|]; [change (Z.log2 0) with 0; lia|apply Z.log2_lt_pow2; lia].
  - destruct (Z.eq_dec b 0) as [->|]; [change (Z.log2 0) with 0; lia|apply Z.log2_lt_pow2; lia].
Qed.

Lemma quiet_bound m : 0 <= m < 2 ^ 23 -> 0 < Z.lor m (2 ^ 22) < 2 ^ 23.
Proof.
  intros H. pose proof (lor_bound m (2 ^ 22) 23 ltac:(lia) H ltac:(lia)) as B.
  assert (Z.lor m (2 ^ 22) <> 0); [|lia].
  intros E. apply Z.lor_eq_0_iff in E. destruct E as [_ E]. discriminate E.
Qed.

Lemma f2d_nan w : is_flt w -> flt_nan w = true ->
  is_dbl (f2d w) /\ dbl_nan (f2d w) = true /\ fsign 52 11 (f2d w) = fsign 23 8 w /\
  fmant 52 (f2d w) = Z.lor (fmant 23 w) (2 ^ 22) * 2 ^ 29.
Proof.
  intros D N. unfold f2d. rewrite f_is_nan_spec, N.
  destruct (fields_bound 23 8 ltac:(lia) ltac:(lia) ltac:(reflexivity) w D) as (_ & Hm & _).
  pose proof (quiet_bound _ Hm) as Q. set (m := Z.lor (fmant 23 w) (2 ^ 22)) in *. clearbody m.
  destruct (pack_fields 52 11 ltac:(lia) ltac:(lia) ltac:(reflexivity) (fsign 23 8 w) (2 ^ 11 - 1) (m * 2 ^ 29))
    as (A & B & C & E); [lia| |].
  { change (2 ^ 52) with (2 ^ 23 * 2 ^ 29). lia. }
  split; [exact A|]. split; [|split; [exact B|exact E]].
  unfold dbl_nan, ieee_nan, ieee_exp, ieee_man. unfold fexpo in C. unfold fmant in E.
  rewrite C, E, Z.eqb_refl. cbn [andb]. destruct (Z.eqb_spec (m * 2 ^ 29) 0); [lia|reflexivity].
Qed.

Lemma d2f_nan x : is_dbl x -> dbl_nan x = true ->
  is_flt (d2f x) /\ flt_nan (d2f x) = true /\ fsign 23 8 (d2f x) = fsign 52 11 x /\
  fmant 23 (d2f x) = Z.lor (fmant 52 x / 2 ^ 29) (2 ^ 22).
Proof.
  intros D N. unfold d2f. rewrite d_is_nan_spec, N.
  destruct (fields_bound 52 11 ltac:(lia) ltac:(lia) ltac:(reflexivity) x D) as (_ & Hm & _).
  assert (Hm' : 0 <= fmant 52 x / 2 ^ 29 < 2 ^ 23).
  { split; [apply Z.div_pos; lia|]. apply Z.div_lt_upper_bound; [lia|].
    change (2 ^ 29 * 2 ^ 23) with (2 ^ 52). lia. }
  pose proof (quiet_bound _ Hm') as Q. set (m := Z.lor (fmant 52 x / 2 ^ 29) (2 ^ 22)) in *. clearbody m.
  destruct (pack_fields 23 8 ltac:(lia) ltac:(lia) ltac:(reflexivity) (fsign 52 11 x) (2 ^ 8 - 1) m)
    as (A & B & C & E); [lia|lia|].
  split; [exact A|]. split; [|split; [exact B|exact E]].
  unfold flt_nan, ieee_nan, ieee_exp, ieee_man. unfold fexpo in C. unfold fmant in E.
  rewrite C, E, Z.eqb_refl. cbn [andb]. destruct (Z.eqb_spec m 0); [lia|reflexivity].
Qed.

(** What a single-precision word turns into is stable. *)
Lemma f2d_d2f_f2d w : is_flt w -> f2d (d2f (f2d w)) = f2d w.
Proof.
  intros D. destruct (flt_nan w) eqn:N; [|rewrite d2f_f2d by assumption; reflexivity].
  destruct (f2d_nan w D N) as (D1 & N1 & S1 & M1).
  destruct (d2f_nan _ D1 N1) as (D2 & N2 & S2 & M2).
  unfold f2d at 1. rewrite f_is_nan_spec, N2, S2, S1, M2, M1.
  rewrite Z.div_mul by lia. rewrite <- !Z.lor_assoc, !Z.lor_diag.
  unfold f2d. rewrite f_is_nan_spec, N. reflexivity.
Qed.

Lemma rne32_nearest x w : is_flt w -> flt_finite w = true ->
  (Rabs (rne32 x - x) <= Rabs (flt_val w - x))%R.
Proof.
  intros D F. rewrite <- (f_dec_val w D F).
  assert (Prec_gt_0 24) as HP by exact prec24.
  destruct (round_N_pt radix2 (FLT_exp (-149) 24) (fun n => negb (Z.even n)) x) as [_ H].
  apply H. apply (sf_generic 24 128). apply f_dec_valid, D.
Qed.

(** ** Integer samples *)
Lemma int_sample_gen p e n d z : (n = 1 \/ n = 2 \/ n = 4 \/ n = 8)%nat ->
  holds d (IZR z) -> conv_ok p z ->
  - 2 ^ (8 * Z.of_nat n - 1) <= z < 2 ^ (8 * Z.of_nat n) ->
  exists bs, (let* u := d2u p (8 * Z.of_nat n) d in Ok (wr e n u)) = Ok bs /\
    (forall rest, rd_u e n (bs ++ rest) = Ok (wrapu (8 * Z.of_nat n) z, rest)) /\
    (forall rest, rd_i e n (bs ++ rest) = Ok (wraps (8 * Z.of_nat n) z, rest)).
Proof.
  intros Hn Hd C Hz.
  destruct (d2u_int p (8 * Z.of_nat n) d z Hd C) as (u & E & Eu & _); [lia|exact Hz|].
  exists (wr e n u). rewrite E. split; [reflexivity|]. split; intros rest.
  - rewrite rd_u_wr, Eu. reflexivity.
  - rewrite rd_i_wr. rewrite <- wraps_wrapu, Eu, wraps_wrapu. reflexivity.
Qed.

Lemma int_sample_24 p e d z : holds d (IZR z) -> conv_ok p z -> p_left_first p = true ->
  - 2 ^ 31 <= z < 2 ^ 32 ->
  exists bs, (let* u := d2u p 32 d in Ok (wr24 e u)) = Ok bs /\
    (forall rest, rd_u24 p e (bs ++ rest) = Ok (wrapu 24 z, rest)) /\
    (forall rest, rd_i24 p e (bs ++ rest) = Ok (wraps 24 z, rest)).
Proof.
  intros Hd C L Hz.
  destruct (d2u_int p 32 d z Hd C) as (u & E & Eu & _); [lia|exact Hz|].
  exists (wr24 e u). rewrite E. split; [reflexivity|].
  assert (E24 : wrapu 24 u = wrapu 24 z).
  { assert (K : forall v, wrapu 24 (wrapu 32 v) = wrapu 24 v).
    { intros v. unfold wrapu. change (2 ^ 32) with (2 ^ 24 * 256).
      rewrite Z.rem_mul_r by lia. rewrite Z.mul_comm, Z.mod_add by lia. apply Z.mod_mod. lia. }
    rewrite <- (K u), Eu, K. reflexivity. }
  split; intros rest.
  - rewrite rd_u24_wr24 by exact L. rewrite E24. reflexivity.
  - rewrite rd_i24_wr24 by exact L. rewrite <- wraps_wrapu, E24, wraps_wrapu. reflexivity.
Qed.

Lemma int_sample_ok p e fmt lo hi r w d z rest :
  int_range fmt = Some (lo, hi) ->
  sample_reader p e fmt = Ok r -> sample_writer p e fmt = Ok w ->
  holds d (IZR z) -> lo <= z <= hi ->
  (0 <= z \/ p_d2u p = gcc_d2u) -> p_left_first p = true ->
  exists bs d', w d = Ok bs /\ r (bs ++ rest) = Ok (d', rest) /\
    holds d' (IZR z) /\ (d <> 2 ^ 63 -> d' = d).
Proof.
  intros Hf Hr Hw Hd Hz C L.
  assert (Main : forall bs, w d = Ok bs -> r (bs ++ rest) = Ok (i2d z, rest) -> - 2 ^ 63 <= z < 2 ^ 64 ->
     exists bs d', w d = Ok bs /\ r (bs ++ rest) = Ok (d', rest) /\ holds d' (IZR z) /\ (d <> 2 ^ 63 -> d' = d)).
  { intros bs E1 E2 B. exists bs, (i2d z). split; [exact E1|]. split; [exact E2|].
    apply i2d_of_holds; [exact Hd|].
    assert (2 ^ 64 < 2 ^ 1024) by reflexivity. change (2 ^ 63) with (2 ^ 62 * 2) in B.
    change (2 ^ 64) with (2 ^ 62 * 4) in *. lia. }
  assert (Main1 : forall n, (n = 1 \/ n = 2 \/ n = 4 \/ n = 8)%nat ->
     w = (fun d => let* u := d2u p (8 * Z.of_nat n) d in Ok (wr e n u)) ->
     (r = pmap i2d (rd_i e n) /\ - 2 ^ (8 * Z.of_nat n - 1) <= z < 2 ^ (8 * Z.of_nat n - 1) \/
      r = pmap i2d (rd_u e n) /\ 0 <= z < 2 ^ (8 * Z.of_nat n)) ->
     exists bs d', w d = Ok bs /\ r (bs ++ rest) = Ok (d', rest) /\ holds d' (IZR z) /\ (d <> 2 ^ 63 -> d' = d)).
  { intros n Hn -> Hrz.
    assert (B1 : - 2 ^ (8 * Z.of_nat n - 1) <= z < 2 ^ (8 * Z.of_nat n)).
    { assert (2 ^ (8 * Z.of_nat n) = 2 * 2 ^ (8 * Z.of_nat n - 1)) as K.
      { rewrite <- Z.pow_succ_r by lia. f_equal. lia. }
      assert (0 < 2 ^ (8 * Z.of_nat n - 1)) by (apply pow2_pos; lia). lia. }
    destruct (int_sample_gen p e n d z Hn Hd C B1) as (bs & E1 & E2 & E3).
    apply (Main bs E1).
    - destruct Hrz as [[-> B]|[-> B]].
      + erewrite pmap_ok by apply E3. rewrite wraps_id; [reflexivity|lia|unfold in_i; lia].
      + erewrite pmap_ok by apply E2. rewrite wrapu_small by exact B. reflexivity.
    - clear - B1 Hn. decompose [or] Hn; subst n; cbn -[Z.pow] in B1; lia. }
  assert (Main24 : w = (fun d => let* u := d2u p 32 d in Ok (wr24 e u)) ->
     (r = pmap i2d (rd_i24 p e) /\ - 2 ^ 23 <= z < 2 ^ 23 \/ r = pmap i2d (rd_u24 p e) /\ 0 <= z < 2 ^ 24) ->
     exists bs d', w d = Ok bs /\ r (bs ++ rest) = Ok (d', rest) /\ holds d' (IZR z) /\ (d <> 2 ^ 63 -> d' = d)).
  { intros -> Hrz.
    destruct (int_sample_24 p e d z Hd C L ltac:(lia)) as (bs & E1 & E2 & E3).
    apply (Main bs E1); [|lia]. destruct Hrz as [[-> B]|[-> B]].
    + erewrite pmap_ok by apply E3. rewrite wraps_id; [reflexivity|lia|unfold in_i; change (24 - 1) with 23; lia].
    + erewrite pmap_ok by apply E2. rewrite wrapu_small by exact B. reflexivity. }
  clear Main. unfold int_range in Hf.
  assert (Hin : In fmt [2; 3; 7; 8; 9; 10; 11; 12; 15; 16]).
  { destruct fmt as [|q|q]; try discriminate.
    do 5 (destruct q as [q|q|]; try discriminate; try (cbn; tauto)). }
  cbn [In] in Hin.
  repeat (destruct Hin as [<-|Hin]); try contradiction; injection Hf as <- <-; injection Hr as <-; injection Hw as <-;
    first [ apply Main24; [reflexivity|first [left; split; [reflexivity|lia] | right; split; [reflexivity|lia]]]
          | apply (Main1 1%nat); [lia|reflexivity|first [left; split; [reflexivity|lia] | right; split; [reflexivity|lia]]]
          | apply (Main1 2%nat); [lia|reflexivity|first [left; split; [reflexivity|lia] | right; split; [reflexivity|lia]]]
          | apply (Main1 4%nat); [lia|reflexivity|first [left; split; [reflexivity|lia] | right; split; [reflexivity|lia]]]
          | apply (Main1 8%nat); [lia|reflexivity|first [left; split; [reflexivity|lia] | right; split; [reflexivity|lia]]] ].
Qed.

(** Integers up to 2^24 are exact in single precision. *)
Lemma int_single z : Z.abs z <= 2 ^ 24 ->
  is_flt (d2f (i2d z)) /\ holds (f2d (d2f (i2d z))) (IZR z).
Proof.
  intros Hz. assert (Hd : holds (i2d z) (IZR z)) by (apply i2d_holds; lia).
  assert (E : rne32 (IZR z) = IZR z).
  { unfold rne32. apply round_generic; [apply valid_rnd_N|].
    replace (IZR z) with (F2R (Float radix2 z 0)) by (unfold F2R; cbn; ring).
    destruct (Z.eq_dec (Z.abs z) (2 ^ 24)) as [Q|Q].
    - replace (F2R (Float radix2 z 0)) with (F2R (Float radix2 (Z.sgn z) 24)).
      + apply generic_format_F2R. intros _. unfold cexp, FLT_exp.
        rewrite mag_F2R by (destruct z; cbn in *; lia).
        assert (mag radix2 (IZR (Z.sgn z)) <= 1)%Z.
        { apply mag_le_bpow; [destruct z; cbn in *; try (apply IZR_neq; lia); lia|].
          rewrite <- abs_IZR. change (bpow radix2 1) with 2%R. apply IZR_lt. lia. }
        lia.
      + unfold F2R; cbn [Fnum Fexp]. change (bpow radix2 24) with (IZR (2 ^ 24)). change (bpow radix2 0) with 1%R.
        rewrite <- mult_IZR, Rmult_1_r. f_equal. lia.
    - apply generic_format_F2R. intros N. unfold cexp, FLT_exp. rewrite mag_F2R by exact N.
      assert (mag radix2 (IZR z) <= 24)%Z.
      { apply mag_le_bpow; [apply IZR_neq, N|]. rewrite <- abs_IZR. change (bpow radix2 24) with (IZR (2 ^ 24)).
        apply IZR_lt. lia. }
      lia. }
  destruct (d2f_finite _ _ Hd) as (D & F & V & _).
  - rewrite E, <- abs_IZR. eapply Rle_lt_trans; [apply IZR_le, Hz|].
    rewrite pw_IZR by lia. apply IZR_lt. reflexivity.
  - split; [exact D|]. destruct (f2d_finite _ D F) as [K _]. rewrite V, E in K. exact K.
Qed.
