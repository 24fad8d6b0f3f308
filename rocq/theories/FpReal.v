(** Real values of model floats. *)
From Coq Require Import Reals Lra Floats.SpecFloat.
From Flocq Require Import Core IEEE754.BinarySingleNaN.
From Verif Require Import BaseFacts Platform Fp FpFacts FpSpec.
Open Scope Z_scope.

Definition R2 := radix2.
Definition pw (k : Z) : R := bpow radix2 k.

Lemma pw_powerRZ k : powerRZ 2 k = pw k.
Proof. unfold pw. rewrite bpow_powerRZ. reflexivity. Qed.

Lemma pw_add a b : pw (a + b) = (pw a * pw b)%R.
Proof. apply bpow_plus. Qed.
Lemma pw_pos a : (0 < pw a)%R.
Proof. apply bpow_gt_0. Qed.
Lemma pw_IZR k : 0 <= k -> pw k = IZR (2 ^ k).
Proof. intros H. exact (eq_sym (IZR_Zpower radix2 k H)). Qed.
Lemma pw_opp k : pw (- k) = (/ pw k)%R.
Proof. apply bpow_opp. Qed.
Lemma pw_0 : pw 0 = 1%R.
Proof. reflexivity. Qed.

(** ** The decoded value is the standard's value *)
Section Val.
Variables mw ew : Z.
Hypothesis Hmw : 1 <= mw.
Hypothesis Hew : 2 <= ew.
Hypothesis Hpe : mw + 1 < 2 ^ (ew - 1).

Lemma femin_bias : femin mw ew = 1 - (2 ^ (ew - 1) - 1) - mw.
Proof. unfold femin. lia. Qed.

Lemma fdec_finite x : 0 <= x < 2 ^ (mw + ew + 1) ->
  is_finite_SF (fdec mw ew x) = ieee_finite mw ew x.
Proof.
  intros Hx. destruct (fields_bound mw ew Hmw Hew Hpe x Hx) as (He & Hm & _).
  destruct (pk_pows mw ew Hmw Hew) as (H1 & H2 & H3 & H4 & H5).
  unfold fdec, ieee_finite. change (ieee_exp mw ew x) with (fexpo mw ew x).
  destruct (Z.eqb_spec (fexpo mw ew x) (2 ^ ew - 1)).
  - destruct (_ =? 0); reflexivity.
  - cbn [negb]. destruct (Z.eqb_spec (fexpo mw ew x) 0).
    + destruct (fmant mw x); reflexivity.
    + destruct (fmant mw x + 2 ^ mw) eqn:E; try reflexivity; lia.
Qed.

Lemma fdec_nan x : 0 <= x < 2 ^ (mw + ew + 1) ->
  ieee_nan mw ew x = true <-> fdec mw ew x = S754_nan.
Proof.
  intros Hx. destruct (fields_bound mw ew Hmw Hew Hpe x Hx) as (He & Hm & _).
  destruct (pk_pows mw ew Hmw Hew) as (H1 & H2 & H3 & H4 & H5).
  unfold fdec, ieee_nan. change (ieee_exp mw ew x) with (fexpo mw ew x).
  change (ieee_man mw x) with (fmant mw x).
  destruct (Z.eqb_spec (fexpo mw ew x) (2 ^ ew - 1)).
  - destruct (_ =? 0); cbn; split; congruence.
  - cbn [andb]. destruct (Z.eqb_spec (fexpo mw ew x) 0).
    + destruct (fmant mw x); split; congruence.
    + destruct (fmant mw x + 2 ^ mw) eqn:E; split; try congruence; lia.
Qed.

Lemma fdec_val x : 0 <= x < 2 ^ (mw + ew + 1) -> ieee_finite mw ew x = true ->
  SF2R radix2 (fdec mw ew x) = ieee_val mw ew x.
Proof.
  intros Hx Hf. destruct (fields_bound mw ew Hmw Hew Hpe x Hx) as (He & Hm & _).
  destruct (pk_pows mw ew Hmw Hew) as (H1 & H2 & H3 & H4 & H5).
  unfold fdec, ieee_val. unfold ieee_finite in Hf.
  change (ieee_exp mw ew x) with (fexpo mw ew x) in *.
  change (ieee_man mw x) with (fmant mw x).
  change (ieee_neg mw ew x) with (fsign mw ew x).
  destruct (Z.eqb_spec (fexpo mw ew x) (2 ^ ew - 1)); [discriminate|].
  rewrite !pw_powerRZ.
  assert (Hs : forall s q e, F2R (Float radix2 (cond_Zopp s (Zpos q)) e) =
     (if s then - (IZR (Zpos q) * pw e) else IZR (Zpos q) * pw e)%R).
  { intros s q e. unfold F2R. cbn [Fnum Fexp]. destruct s; cbn [cond_Zopp].
    - rewrite opp_IZR. unfold pw. ring.
    - reflexivity. }
  destruct (Z.eqb_spec (fexpo mw ew x) 0) as [E|E].
  - rewrite <- femin_bias. destruct (fmant mw x) as [|q|q] eqn:Em; try lia; cbn [SF2R].
    + destruct (fsign mw ew x); ring.
    + apply Hs.
  - destruct (fmant mw x + 2 ^ mw) as [|q|q] eqn:Em; try lia.
    unfold SF2R. rewrite Hs.
    replace (2 ^ mw + fmant mw x) with (Zpos q) by lia.
    replace (fexpo mw ew x - 1 + femin mw ew)
      with (fexpo mw ew x - (2 ^ (ew - 1) - 1) - mw) by (rewrite femin_bias; lia).
    reflexivity.
Qed.
End Val.

(** ** Rounded operations of SpecFloat *)
Section Ops.
Variables prec emax : Z.
Context (Hp : Prec_gt_0 prec).
Context (Hm : Prec_lt_emax prec emax).

Notation fx := (SpecFloat.fexp prec emax).
Definition rnd (x : R) : R := round radix2 fx ZnearestE x.

Lemma bra_equiv sx mx ex lx :
  SpecFloat.binary_round_aux prec emax sx mx ex lx
  = BinarySingleNaN.binary_round_aux prec emax mode_NE sx mx ex lx.
Proof.
  unfold SpecFloat.binary_round_aux, BinarySingleNaN.binary_round_aux.
  set (mrse' := shr_fexp _ _ _). case mrse'; intros mrs' e'. cbn.
  assert (E : forall m l, round_nearest_even m l = choice_mode mode_NE sx m l).
  { intros m l. case l; [reflexivity|intro c]. case c; [|reflexivity..].
    cbn. unfold Round.cond_incr. case Z.even; reflexivity. }
  rewrite E. reflexivity.
Qed.

Lemma br_equiv s m e :
  SpecFloat.binary_round prec emax s m e = BinarySingleNaN.binary_round prec emax mode_NE s m e.
Proof.
  unfold SpecFloat.binary_round, BinarySingleNaN.binary_round, shl_align_fexp.
  set (mez := shl_align _ _ _). case mez as [mz ez]. apply bra_equiv.
Qed.

Lemma br_correct s m e :
  let z := SpecFloat.binary_round prec emax s m e in
  let x := F2R (Float radix2 (cond_Zopp s (Zpos m)) e) in
  valid_binary prec emax z = true /\
  ((Rabs (rnd x) < pw emax)%R ->
   SF2R radix2 z = rnd x /\ is_finite_SF z = true /\ sign_SF z = s) /\
  ((pw emax <= Rabs (rnd x))%R -> z = S754_infinity s).
Proof.
  cbv zeta. rewrite br_equiv.
  pose proof (binary_round_correct prec emax Hp Hm mode_NE s m e) as [H1 H2].
  split; [exact H1|]. unfold rnd, pw. cbn [round_mode] in H2.
  split; intros H; revert H2.
  - rewrite Rlt_bool_true by exact H. auto.
  - rewrite Rlt_bool_false by exact H. auto.
Qed.

Lemma sfmul_correct x y :
  valid_binary prec emax x = true -> valid_binary prec emax y = true ->
  is_finite_SF x = true -> is_finite_SF y = true ->
  (Rabs (rnd (SF2R radix2 x * SF2R radix2 y)) < pw emax)%R ->
  let z := SFmul prec emax x y in
  valid_binary prec emax z = true /\
  SF2R radix2 z = rnd (SF2R radix2 x * SF2R radix2 y) /\ is_finite_SF z = true /\
  sign_SF z = xorb (sign_SF x) (sign_SF y).
Proof.
  intros Vx Vy Fx Fy Hlt.
  assert (R0 : rnd 0 = 0%R) by (unfold rnd; apply round_0, valid_rnd_N).
  destruct x as [sx|sx| |sx mx ex]; try discriminate Fx;
    destruct y as [sy|sy| |sy my ey]; try discriminate Fy;
    cbn [SFmul SF2R] in *; try (rewrite ?Rmult_0_l, ?Rmult_0_r, R0; repeat split; reflexivity).
  cbv zeta. rewrite bra_equiv.
  pose proof (Bmult_correct_aux prec emax Hp Hm mode_NE sx mx ex Vx sy my ey Vy) as [H1 H2].
  cbn [round_mode] in H2. unfold rnd, pw in *. rewrite Rlt_bool_true in H2 by exact Hlt.
  destruct H2 as (E1 & E2 & E3). auto.
Qed.

Lemma sfdiv_correct x y :
  valid_binary prec emax x = true -> valid_binary prec emax y = true ->
  is_finite_SF x = true -> is_finite_SF y = true -> (SF2R radix2 y <> 0)%R ->
  (Rabs (rnd (SF2R radix2 x / SF2R radix2 y)) < pw emax)%R ->
  let z := SFdiv prec emax x y in
  valid_binary prec emax z = true /\
  SF2R radix2 z = rnd (SF2R radix2 x / SF2R radix2 y) /\ is_finite_SF z = true /\
  sign_SF z = xorb (sign_SF x) (sign_SF y).
Proof.
  intros Vx Vy Fx Fy Hy Hlt.
  assert (R0 : rnd 0 = 0%R) by (unfold rnd; apply round_0, valid_rnd_N).
  destruct x as [sx|sx| |sx mx ex]; try discriminate Fx;
    destruct y as [sy|sy| |sy my ey]; try discriminate Fy;
    cbn [SFdiv SF2R] in *; try contradiction.
  - unfold Rdiv. rewrite Rmult_0_l, R0. repeat split; reflexivity.
  - cbv zeta.
    pose proof (Bdiv_correct_aux prec emax Hp Hm mode_NE sx mx ex sy my ey) as [H1 H2].
    revert H1 H2. destruct (SFdiv_core_binary prec emax (Zpos mx) ex (Zpos my) ey) as [[mz ez] lz].
    rewrite bra_equiv. intros H1 H2.
    cbn [round_mode] in H2. unfold rnd, pw in *. rewrite Rlt_bool_true in H2 by exact Hlt.
    destruct H2 as (E1 & E2 & E3). auto.
Qed.

(** Numbers with a short enough significand are representable. *)
Lemma fmt_F2R m e : Z.abs m < 2 ^ prec -> emin prec emax <= e ->
  generic_format radix2 fx (IZR m * pw e)%R.
Proof.
  intros H1 H2. apply generic_format_FLT. exists (Float radix2 m e); cbn [Fnum Fexp]; auto.
Qed.

Lemma rnd_exact x : generic_format radix2 fx x -> rnd x = x.
Proof. intros H. unfold rnd. apply round_generic; [apply valid_rnd_N|exact H]. Qed.

Lemma sf_generic f : valid_binary prec emax f = true -> generic_format radix2 fx (SF2R radix2 f).
Proof.
  intros H. rewrite <- (B2R_SF2B prec emax f H). apply generic_format_B2R.
Qed.

Lemma sf_lt_emax f : valid_binary prec emax f = true ->
  (Rabs (SF2R radix2 f) < pw emax)%R.
Proof.
  intros H. rewrite <- (B2R_SF2B prec emax f H). apply abs_B2R_lt_emax.
Qed.

(** Same real value and sign: same float. *)
Lemma sf_inj f g : valid_binary prec emax f = true -> valid_binary prec emax g = true ->
  is_finite_SF f = true -> is_finite_SF g = true ->
  SF2R radix2 f = SF2R radix2 g -> sign_SF f = sign_SF g -> f = g.
Proof.
  intros Vf Vg Ff Fg E S.
  rewrite <- (B2SF_SF2B prec emax f Vf), <- (B2SF_SF2B prec emax g Vg). f_equal.
  apply B2R_Bsign_inj.
  - rewrite is_finite_SF2B. exact Ff.
  - rewrite is_finite_SF2B. exact Fg.
  - rewrite !B2R_SF2B. exact E.
  - rewrite !Bsign_SF2B. exact S.
Qed.
End Ops.

(** ** Doubles and floats *)
Global Instance prec53 : Prec_gt_0 53. Proof. reflexivity. Qed.
Global Instance prec53e : Prec_lt_emax 53 1024. Proof. reflexivity. Qed.
Global Instance prec24 : Prec_gt_0 24. Proof. reflexivity. Qed.
Global Instance prec24e : Prec_lt_emax 24 128. Proof. reflexivity. Qed.

Lemma d_dec_valid x : is_dbl x -> valid_binary 53 1024 (d_dec x) = true.
Proof. intros H. apply (fdec_valid 52 11); [lia|lia|reflexivity|exact H]. Qed.
Lemma d_dec_finite x : is_dbl x -> is_finite_SF (d_dec x) = dbl_finite x.
Proof. intros H. apply (fdec_finite 52 11); [lia|lia|reflexivity|exact H]. Qed.
Lemma d_dec_val x : is_dbl x -> dbl_finite x = true -> SF2R radix2 (d_dec x) = dbl_val x.
Proof. intros H F. apply (fdec_val 52 11); [lia|lia|reflexivity|exact H|exact F]. Qed.
Lemma d_dec_enc f : valid_binary 53 1024 f = true -> d_dec (d_enc f) = f.
Proof. intros H. apply (fdec_fenc 52 11); [lia|lia|reflexivity|exact H]. Qed.
Lemma d_enc_dbl f : valid_binary 53 1024 f = true -> is_dbl (d_enc f).
Proof. intros H. apply (fenc_range 52 11); [lia|lia|reflexivity|exact H]. Qed.
Lemma d_enc_dec x : is_dbl x -> dbl_nan x = false -> d_enc (d_dec x) = x.
Proof.
  intros H N. apply (fenc_fdec 52 11); [lia|lia|reflexivity|exact H|].
  intros E. apply (fdec_nan 52 11) in E; [|lia|lia|reflexivity|exact H].
  unfold dbl_nan in N. congruence.
Qed.

Lemma f_dec_valid x : is_flt x -> valid_binary 24 128 (f_dec x) = true.
Proof. intros H. apply (fdec_valid 23 8); [lia|lia|reflexivity|exact H]. Qed.
Lemma f_dec_finite x : is_flt x -> is_finite_SF (f_dec x) = flt_finite x.
Proof. intros H. apply (fdec_finite 23 8); [lia|lia|reflexivity|exact H]. Qed.
Lemma f_dec_val x : is_flt x -> flt_finite x = true -> SF2R radix2 (f_dec x) = flt_val x.
Proof. intros H F. apply (fdec_val 23 8); [lia|lia|reflexivity|exact H|exact F]. Qed.
Lemma f_dec_enc f : valid_binary 24 128 f = true -> f_dec (f_enc f) = f.
Proof. intros H. apply (fdec_fenc 23 8); [lia|lia|reflexivity|exact H]. Qed.
Lemma f_enc_flt f : valid_binary 24 128 f = true -> is_flt (f_enc f).
Proof. intros H. apply (fenc_range 23 8); [lia|lia|reflexivity|exact H]. Qed.
Lemma f_enc_dec x : is_flt x -> flt_nan x = false -> f_enc (f_dec x) = x.
Proof.
  intros H N. apply (fenc_fdec 23 8); [lia|lia|reflexivity|exact H|].
  intros E. apply (fdec_nan 23 8) in E; [|lia|lia|reflexivity|exact H].
  unfold flt_nan in N. congruence.
Qed.

Lemma holds_sf f r : valid_binary 53 1024 f = true -> is_finite_SF f = true ->
  SF2R radix2 f = r -> holds (d_enc f) r.
Proof.
  intros V F E. pose proof (d_enc_dbl f V) as D. split; [exact D|].
  assert (dbl_finite (d_enc f) = true) as Fi.
  { rewrite <- d_dec_finite by exact D. rewrite d_dec_enc by exact V. exact F. }
  split; [exact Fi|]. rewrite <- d_dec_val by assumption. rewrite d_dec_enc by exact V. exact E.
Qed.

Lemma holds_dec x r : holds x r ->
  valid_binary 53 1024 (d_dec x) = true /\ is_finite_SF (d_dec x) = true /\
  SF2R radix2 (d_dec x) = r.
Proof.
  intros (D & F & E). repeat split.
  - apply d_dec_valid, D.
  - rewrite d_dec_finite by exact D. exact F.
  - rewrite d_dec_val by assumption. exact E.
Qed.

(** Reals a double can hold: [m * 2^e] in range. *)
Lemma dbl_fmt m e : Z.abs m <= 2 ^ 53 -> -1074 <= e ->
  generic_format radix2 (SpecFloat.fexp 53 1024) (IZR m * pw e)%R.
Proof.
  intros H1 H2. destruct (Z.eq_dec (Z.abs m) (2 ^ 53)) as [E|E].
  - assert (exists k, m = 2 * k /\ Z.abs k < 2 ^ 53) as (k & -> & Hk).
    { exists (m / 2). assert (2 ^ 53 = 2 * 2 ^ 52) by reflexivity. split; dlia. }
    rewrite mult_IZR. replace (IZR 2 * IZR k * pw e)%R with (IZR k * pw (e + 1))%R.
    + apply (fmt_F2R 53 1024 _ _); [exact Hk|change (emin 53 1024) with (-1074); lia].
    + rewrite pw_add. change (pw 1) with (IZR 2). ring.
  - apply (fmt_F2R 53 1024 _ _); [lia|exact H2].
Qed.

Lemma rnd_small m e : Z.abs m <= 2 ^ 53 -> -1074 <= e -> e <= 970 ->
  rnd 53 1024 (IZR m * pw e) = (IZR m * pw e)%R /\
  (Rabs (rnd 53 1024 (IZR m * pw e)) < pw 1024)%R.
Proof.
  intros H1 H2 H3. assert (E : rnd 53 1024 (IZR m * pw e) = (IZR m * pw e)%R).
  { apply rnd_exact, dbl_fmt; assumption. }
  split; [exact E|]. rewrite E, Rabs_mult, (Rabs_pos_eq (pw e)) by (apply Rlt_le, pw_pos).
  rewrite <- abs_IZR. apply Rle_lt_trans with (pw 53 * pw e)%R.
  - apply Rmult_le_compat_r; [apply Rlt_le, pw_pos|]. rewrite pw_IZR by lia. apply IZR_le, H1.
  - rewrite <- pw_add. apply bpow_lt. lia.
Qed.

Lemma d_mul_holds a b ra rb m e : holds a ra -> holds b rb ->
  (ra * rb = IZR m * pw e)%R -> Z.abs m <= 2 ^ 53 -> -1074 <= e -> e <= 970 ->
  holds (d_mul a b) (ra * rb) /\
  sign_SF (d_dec (d_mul a b)) = xorb (sign_SF (d_dec a)) (sign_SF (d_dec b)).
Proof.
  intros Ha Hb E Hm He He'.
  destruct (holds_dec _ _ Ha) as (Va & Fa & Ea). destruct (holds_dec _ _ Hb) as (Vb & Fb & Eb).
  destruct (rnd_small m e Hm He He') as [R1 R2].
  pose proof (sfmul_correct 53 1024 _ _ (d_dec a) (d_dec b) Va Vb Fa Fb) as H.
  rewrite Ea, Eb, E in H. specialize (H R2). cbv zeta in H. destruct H as (V & E' & F & S).
  rewrite R1 in E'. unfold d_mul. split.
  - apply holds_sf; [exact V|exact F|rewrite E; exact E'].
  - rewrite d_dec_enc by exact V. exact S.
Qed.

Lemma d_div_holds a b ra rb m e : holds a ra -> holds b rb -> rb <> 0%R ->
  (ra / rb = IZR m * pw e)%R -> Z.abs m <= 2 ^ 53 -> -1074 <= e -> e <= 970 ->
  holds (d_div a b) (ra / rb) /\
  sign_SF (d_dec (d_div a b)) = xorb (sign_SF (d_dec a)) (sign_SF (d_dec b)).
Proof.
  intros Ha Hb Nz E Hm He He'.
  destruct (holds_dec _ _ Ha) as (Va & Fa & Ea). destruct (holds_dec _ _ Hb) as (Vb & Fb & Eb).
  destruct (rnd_small m e Hm He He') as [R1 R2].
  pose proof (sfdiv_correct 53 1024 _ _ (d_dec a) (d_dec b) Va Vb Fa Fb) as H.
  rewrite Ea, Eb, E in H. specialize (H Nz R2). cbv zeta in H. destruct H as (V & E' & F & S).
  rewrite R1 in E'. unfold d_div. split.
  - apply holds_sf; [exact V|exact F|rewrite E; exact E'].
  - rewrite d_dec_enc by exact V. exact S.
Qed.

Lemma cond_opp_IZR s m : IZR (cond_Zopp s (Zpos m)) = (if s then - IZR (Zpos m) else IZR (Zpos m))%R.
Proof. destruct s; cbn [cond_Zopp]; [rewrite opp_IZR|]; reflexivity. Qed.

Lemma br_exact s m e : Zpos m <= 2 ^ 53 -> -1074 <= e -> e <= 970 ->
  let z := SpecFloat.binary_round 53 1024 s m e in
  valid_binary 53 1024 z = true /\ is_finite_SF z = true /\ sign_SF z = s /\
  SF2R radix2 z = (IZR (cond_Zopp s (Zpos m)) * pw e)%R.
Proof.
  intros H1 H2 H3. cbv zeta.
  destruct (br_correct 53 1024 _ _ s m e) as (V & C & _). cbv zeta in C.
  unfold F2R in C. cbn [Fnum Fexp] in C.
  assert (Z.abs (cond_Zopp s (Zpos m)) <= 2 ^ 53) as H1' by (destruct s; exact H1).
  destruct (rnd_small _ e H1' H2 H3) as [R1 R2].
  change (bpow radix2 e) with (pw e) in C. specialize (C R2). rewrite R1 in C.
  destruct C as (A & B & D). auto.
Qed.

Lemma i2d_holds z : Z.abs z <= 2 ^ 53 ->
  holds (i2d z) (IZR z) /\ sign_SF (d_dec (i2d z)) = (z <? 0).
Proof.
  intros H. unfold i2d. destruct z as [|q|q]; cbn [SpecFloat.binary_normalize].
  - split; [apply holds_sf; reflexivity|]. rewrite d_dec_enc; reflexivity.
  - destruct (br_exact false q 0) as (V & F & S & E); try lia. split.
    + apply holds_sf; auto. rewrite E. cbn [cond_Zopp]. rewrite pw_0. ring.
    + rewrite d_dec_enc by exact V. exact S.
  - destruct (br_exact true q 0) as (V & F & S & E); try lia. split.
    + apply holds_sf; auto. rewrite E. cbn [cond_Zopp]. rewrite pw_0. change (- Zpos q) with (Zneg q). ring.
    + rewrite d_dec_enc by exact V. exact S.
Qed.

(** Doubles are determined by value and sign. *)
Lemma holds_inj a b r : holds a r -> holds b r ->
  sign_SF (d_dec a) = sign_SF (d_dec b) -> a = b.
Proof.
  intros Ha Hb S.
  destruct (holds_dec _ _ Ha) as (Va & Fa & Ea). destruct (holds_dec _ _ Hb) as (Vb & Fb & Eb).
  assert (forall x r, holds x r -> d_enc (d_dec x) = x) as K.
  { intros x r' (D & F & _). apply d_enc_dec; [exact D|].
    unfold dbl_nan, ieee_nan. unfold dbl_finite, ieee_finite in F.
    destruct (ieee_exp 52 11 x =? 2 ^ 11 - 1); [discriminate|reflexivity]. }
  rewrite <- (K a r Ha), <- (K b r Hb). f_equal.
  apply (sf_inj 53 1024); auto. congruence.
Qed.

(** The integer part. *)
Lemma sf_trunc_spec f : is_finite_SF f = true -> sf_trunc f = Some (Ztrunc (SF2R radix2 f)).
Proof.
  destruct f as [s|s| |s m e]; try discriminate; intros _; cbn [sf_trunc].
  - cbn [SF2R]. rewrite Ztrunc_IZR. reflexivity.
  - f_equal. unfold SF2R, F2R. cbn [Fnum Fexp]. rewrite cond_opp_IZR.
    set (a := if 0 <=? e then Zpos m * 2 ^ e else Zpos m / 2 ^ (- e)).
    assert (Ha : a = Zfloor (IZR (Zpos m) * bpow radix2 e)).
    { subst a. destruct (Z.leb_spec 0 e).
      - change (bpow radix2 e) with (pw e). rewrite pw_IZR by lia.
        rewrite <- mult_IZR, Zfloor_IZR. reflexivity.
      - rewrite <- (Z.opp_involutive e) at 2. rewrite bpow_opp.
        change (bpow radix2 (- e)) with (pw (- e)). rewrite pw_IZR by lia.
        change (IZR (Zpos m) * / IZR (2 ^ (- e)))%R with (IZR (Zpos m) / IZR (2 ^ (- e)))%R.
        rewrite Zfloor_div; [reflexivity|]. assert (0 < 2 ^ (- e)) by (apply pow2_pos; lia). lia. }
    assert (0 <= IZR (Zpos m) * bpow radix2 e)%R as Hp.
    { apply Rmult_le_pos; [apply IZR_le; lia|apply bpow_ge_0]. }
    destruct s.
    + rewrite Ropp_mult_distr_l_reverse, Ztrunc_opp, Ztrunc_floor by exact Hp. congruence.
    + rewrite Ztrunc_floor by exact Hp. exact Ha.
Qed.

Lemma d_trunc_holds x r : holds x r -> d_trunc x = Some (Ztrunc r).
Proof.
  intros H. destruct (holds_dec _ _ H) as (_ & F & E). unfold d_trunc.
  rewrite sf_trunc_spec by exact F. rewrite E. reflexivity.
Qed.

(** Sign of the pattern. *)
Lemma d_dec_sign x : is_dbl x -> dbl_finite x = true -> sign_SF (d_dec x) = fsign 52 11 x.
Proof.
  intros H F.
  destruct (fields_bound 52 11 ltac:(lia) ltac:(lia) ltac:(reflexivity) x H) as (He & Hm & _).
  unfold d_dec, fdec. unfold dbl_finite, ieee_finite in F.
  change (ieee_exp 52 11 x) with (fexpo 52 11 x) in F.
  destruct (fexpo 52 11 x =? 2 ^ 11 - 1); [discriminate|].
  destruct (fexpo 52 11 x =? 0).
  - destruct (fmant 52 x); reflexivity.
  - destruct (fmant 52 x + 2 ^ 52) eqn:E; try reflexivity; lia.
Qed.

Lemma d_abs_dec x : is_dbl x -> dbl_nan x = false -> d_dec (d_abs x) = SFabs (d_dec x).
Proof.
  intros H N.
  pose proof (fields_bound 52 11 ltac:(lia) ltac:(lia) ltac:(reflexivity) x H) as (He & Hm & Hx).
  set (e := fexpo 52 11 x) in *. set (m := fmant 52 x) in *.
  assert (Ha : d_abs x = bsign 52 11 false + e * 2 ^ 52 + m).
  { unfold d_abs. rewrite Hx at 1. unfold bsign. change (2 ^ (52 + 11)) with (2 ^ 63).
    clearbody e m. clear Hx H N.
    assert (0 <= e * 2 ^ 52 + m < 2 ^ 63) by (change (2 ^ 63) with (2 ^ 11 * 2 ^ 52); nia).
    destruct (fsign 52 11 x).
    - rewrite <- Z.add_assoc, Z.add_comm. replace (2 ^ 63) with (1 * 2 ^ 63) at 1 by lia.
      rewrite Z.mod_add by lia. rewrite Z.mod_small by lia. lia.
    - rewrite !Z.add_0_l. rewrite Z.mod_small by lia. reflexivity. }
  rewrite Ha. unfold d_dec.
  rewrite (fdec_pack 52 11) by (try lia; try reflexivity; assumption).
  rewrite Hx at 1. rewrite (fdec_pack 52 11) by (try lia; try reflexivity; assumption).
  destruct (e =? 2 ^ 11 - 1); [destruct (m =? 0); reflexivity|].
  destruct (e =? 0); [destruct m; reflexivity|]. destruct (m + 2 ^ 52); reflexivity.
Qed.

Lemma d_abs_holds x r : holds x r -> holds (d_abs x) (Rabs r).
Proof.
  intros H. destruct (holds_dec _ _ H) as (V & F & E). destruct H as (D & Fi & _).
  assert (N : dbl_nan x = false).
  { unfold dbl_nan, ieee_nan. unfold dbl_finite, ieee_finite in Fi.
    destruct (ieee_exp 52 11 x =? 2 ^ 11 - 1); [discriminate|reflexivity]. }
  assert (Da : is_dbl (d_abs x)).
  { unfold d_abs, is_dbl. pose proof (Z.mod_pos_bound x (2 ^ 63) ltac:(lia)).
    change (2 ^ 64) with (2 * 2 ^ 63). lia. }
  pose proof (d_abs_dec x D N) as A.
  split; [exact Da|].
  assert (dbl_finite (d_abs x) = true) as Fa.
  { rewrite <- d_dec_finite by exact Da. rewrite A. destruct (d_dec x); try discriminate F; reflexivity. }
  split; [exact Fa|]. rewrite <- d_dec_val by assumption. rewrite A, <- E.
  destruct (d_dec x) as [s|s| |s m e]; try discriminate F; cbn [SFabs SF2R].
  - rewrite Rabs_R0. reflexivity.
  - unfold F2R. cbn [Fnum Fexp]. rewrite Rabs_mult, (Rabs_pos_eq (bpow _ _)) by apply bpow_ge_0.
    f_equal. rewrite <- abs_IZR. destruct s; reflexivity.
Qed.

Lemma d_lt_0 x r : holds x r -> d_lt x 0 = true <-> (r < 0)%R.
Proof.
  intros H. destruct (holds_dec _ _ H) as (V & F & E). unfold d_lt.
  change (d_dec 0) with (S754_zero false).
  destruct (d_dec x) as [s|s| |s m e]; try discriminate F; cbn [SFcompare]; cbn [SF2R] in E.
  - subst r. split; [discriminate|intros K; exfalso; lra].
  - unfold F2R in E. cbn [Fnum Fexp] in E. rewrite cond_opp_IZR in E.
    assert (0 < IZR (Zpos m) * bpow radix2 e)%R.
    { apply Rmult_lt_0_compat; [apply IZR_lt; lia|apply bpow_gt_0]. }
    destruct s; subst r; split; auto; try discriminate; lra.
Qed.

Lemma d_pow2_holds k : -1022 <= k <= 1023 ->
  holds (d_pow2 k) (pw k) /\ sign_SF (d_dec (d_pow2 k)) = false.
Proof.
  intros H. unfold d_pow2.
  assert (E : (k + 1023) * 2 ^ 52 = bsign 52 11 false + (k + 1023) * 2 ^ 52 + 0) by (unfold bsign; lia).
  assert (D : is_dbl ((k + 1023) * 2 ^ 52)).
  { unfold is_dbl. change (2 ^ 64) with (4096 * 2 ^ 52). nia. }
  assert (Dd : d_dec ((k + 1023) * 2 ^ 52) = S754_finite false (Z.to_pos (2 ^ 52)) (k - 52)).
  { rewrite E. unfold d_dec. rewrite (fdec_pack 52 11) by lia.
    destruct (Z.eqb_spec (k + 1023) (2 ^ 11 - 1)); [lia|].
    destruct (Z.eqb_spec (k + 1023) 0); [lia|].
    change (0 + 2 ^ 52) with (Zpos (Z.to_pos (2 ^ 52))). cbv beta iota.
    f_equal. unfold femin. change (2 ^ (11 - 1)) with 1024. lia. }
  rewrite Dd. split; [|reflexivity]. split; [exact D|].
  assert (F : dbl_finite ((k + 1023) * 2 ^ 52) = true).
  { rewrite <- d_dec_finite by exact D. rewrite Dd. reflexivity. }
  split; [exact F|]. rewrite <- d_dec_val by assumption. rewrite Dd.
  unfold SF2R, F2R. cbn [Fnum Fexp cond_Zopp].
  change (IZR (Zpos (Z.to_pos (2 ^ 52)))) with (IZR (2 ^ 52)). rewrite <- pw_IZR by lia.
  change (bpow radix2 (k - 52)) with (pw (k - 52)). rewrite <- pw_add. f_equal. lia.
Qed.
