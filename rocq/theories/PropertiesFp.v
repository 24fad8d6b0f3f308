(** C06-C09: sample values. *)
From Coq Require Import Reals Lra.
From Verif Require Import BaseFacts Platform Fp FpSpec FpReal SegyTypes SegyCodec CodecFacts
     SampleFacts SampleReal.
Open Scope Z_scope.

(** C06.  Every 32-bit word in sample format 1 reads as a finite double with
    exactly the value of the IBM number. *)
Theorem C06_ibm_decode_exact : forall e w rest, 0 <= w < 2 ^ 32 ->
  exists d, rd_ibm e (wr e 4 w ++ rest) = Ok (d, rest) /\ holds d (ibm_val w).
Proof.
  intros e w rest H. exists (ibm2d w). split.
  - unfold rd_ibm. erewrite pmap_ok by apply rd_u_wr.
    change (8 * Z.of_nat 4) with 32. rewrite wrapu_small by exact H. reflexivity.
  - apply ibm2d_holds, H.
Qed.

(** -118.625 is C276A000 (hex). *)
Example C06_case : holds (ibm2d 3262554112) (-118.625).
Proof.
  destruct (ibm2d_holds 3262554112 ltac:(lia)) as [H _].
  assert (E : ibm_val 3262554112 = (-118.625)%R); [|rewrite <- E; exact H].
  unfold ibm_val. change (ibm_neg 3262554112) with true.
  change (ibm_exp 3262554112) with 66. change (ibm_frac 3262554112) with 7774208.
  change (66 - 64) with 2. rewrite pw_powerRZ, pw_IZR by lia. rewrite pw16, pw_IZR by lia.
  change (2 ^ 24) with 16777216. change (2 ^ (4 * 2)) with 256. lra.
Qed.

(** C07.  [E] is the base-16 exponent the writer computes with log().  When it
    is large enough for the value, the value read back is the written one
    truncated toward zero at weight 16^(E-64) / 2^24: same sign, no larger
    magnitude, absolute error below that weight. *)
Theorem C07_ibm_encode_truncates : forall p e v x E rest,
  holds v x -> p_ibm_exp p (d_abs v) = Some E -> 0 <= E <= 127 ->
  (Rabs x < powerRZ 16 (E - 64))%R -> (x = 0 \/ powerRZ 16 (-65) <= Rabs x)%R ->
  exists bs d y, wr_ibm p e v = Ok bs /\ List.length bs = 4%nat /\
    rd_ibm e (bs ++ rest) = Ok (d, rest) /\ holds d (sgn x * y) /\
    (0 <= y <= Rabs x)%R /\
    (Rabs x - y < powerRZ 16 (E - 64) / powerRZ 2 24)%R /\
    exists k, (y = IZR k * (powerRZ 16 (E - 64) / powerRZ 2 24))%R.
Proof.
  intros p e v x E rest Hv HE Hr Hlt Hlo.
  rewrite pw16 in Hlt. rewrite (pw16 (-65)) in Hlo. rewrite pw16, pw_powerRZ.
  destruct (d2ibm_val p v x E Hv HE Hr Hlt Hlo) as (w & Ew & Hw & _ & _ & Ef & Eval).
  destruct (ibm2d_holds w Hw) as [Hd _].
  assert (P : (pw (4 * (E - 64)) / pw 24 = pw (4 * (E - 64) - 24))%R).
  { unfold Rdiv. rewrite <- pw_opp, <- pw_add. reflexivity. }
  pose proof (floor_err (Rabs x) (4 * (E - 64) - 24) (Rabs_pos x)) as [F1 F2]. cbv zeta in F1, F2.
  replace (- (4 * (E - 64) - 24)) with (24 - 4 * (E - 64)) in F1, F2 by lia.
  rewrite <- Ef in F1, F2.
  exists (wr e 4 w), (ibm2d w), (IZR (ibm_frac w) * pw (4 * (E - 64) - 24))%R.
  unfold wr_ibm. rewrite Ew. cbn [bind]. rewrite P. repeat split; try apply F1; try apply Hd; try apply wr_length; auto.
  - unfold rd_ibm. erewrite pmap_ok by apply rd_u_wr.
    change (8 * Z.of_nat 4) with 32. rewrite wrapu_small by exact Hw. reflexivity.
  - destruct Hd as (_ & _ & ->). rewrite Eval. ring.
  - exists (ibm_frac w). reflexivity.
Qed.

(** With the exact exponent the relative error is below 2^-20. *)
Theorem C07_ibm_relative_error : forall p e v x E rest,
  holds v x -> p_ibm_exp p (d_abs v) = Some E -> 0 <= E <= 127 ->
  (powerRZ 16 (E - 65) <= Rabs x < powerRZ 16 (E - 64))%R ->
  exists bs d r, wr_ibm p e v = Ok bs /\ rd_ibm e (bs ++ rest) = Ok (d, rest) /\
    holds d r /\ (Rabs r <= Rabs x)%R /\ (0 <= r * x)%R /\
    (Rabs (x - r) < Rabs x * / powerRZ 2 20)%R.
Proof.
  intros p e v x E rest Hv HE Hr [Hge Hlt].
  assert (Hlo : (x = 0 \/ powerRZ 16 (-65) <= Rabs x)%R).
  { right. eapply Rle_trans; [|exact Hge]. rewrite !pw16. apply Flocq.Core.Raux.bpow_le. lia. }
  destruct (C07_ibm_encode_truncates p e v x E rest Hv HE Hr Hlt Hlo)
    as (bs & d & y & E1 & _ & E2 & Hd & [Y1 Y2] & Y3 & _).
  exists bs, d, (sgn x * y)%R. repeat split; auto; try apply Hd.
  - rewrite Rabs_mult. unfold sgn. destruct (Rlt_dec x 0).
    + rewrite (Rabs_left (-1)) by lra. rewrite (Rabs_pos_eq y) by exact Y1. lra.
    + rewrite Rabs_R1, (Rabs_pos_eq y) by exact Y1. lra.
  - rewrite <- (sgn_abs x) at 2. pose proof (Rabs_pos x).
    replace (sgn x * y * (sgn x * Rabs x))%R with ((sgn x * sgn x) * (y * Rabs x))%R by ring.
    apply Rmult_le_pos; [|apply Rmult_le_pos; lra].
    unfold sgn. destruct (Rlt_dec x 0); lra.
  - replace (x - sgn x * y)%R with (sgn x * (Rabs x - y))%R
      by (rewrite Rmult_minus_distr_l, sgn_abs; reflexivity).
    assert (Rabs (sgn x) = 1)%R as Hs.
    { unfold sgn. destruct (Rlt_dec x 0); [rewrite Rabs_left by lra; ring|apply Rabs_R1]. }
    rewrite Rabs_mult, Hs, Rmult_1_l, (Rabs_pos_eq (Rabs x - y)) by lra.
    eapply Rlt_le_trans; [exact Y3|].
    rewrite pw16 in Hge. rewrite pw16, !pw_powerRZ. unfold Rdiv. rewrite <- !pw_opp, <- pw_add.
    replace (4 * (E - 64) + - (24)) with (4 * (E - 65) + - (20)) by lia.
    rewrite pw_add. apply Rmult_le_compat_r; [apply Rlt_le, pw_pos|exact Hge].
Qed.

(** Normalised IBM words survive read and write bit for bit. *)
Theorem C07_ibm_normalised_words_survive : forall p e w E,
  0 <= w < 2 ^ 32 -> ibm_normal w ->
  p_ibm_exp p (d_abs (ibm2d w)) = Some E ->
  (powerRZ 16 (E - 65) <= Rabs (ibm_val w) < powerRZ 16 (E - 64))%R ->
  wr_ibm p e (ibm2d w) = Ok (wr e 4 w).
Proof.
  intros p e w E Hw Hn HE HB. rewrite !pw16 in HB. unfold wr_ibm.
  rewrite (ibm_bits p w E Hw Hn HE HB). reflexivity.
Qed.

(** A platform whose exponent for the values of the examples is the right
    one. *)
Definition fp_plat (E : option Z) : platform :=
  mkPlatform true gcc_d2u (fun _ => E) (2 ^ 40) true true 0 Z.log2 (fun _ => 0) no_exp.

(** 118.625 (bits 405DA80000000000) has base-16 exponent 66. *)
Lemma dbl_118 : holds 4638047909214945280 118.625.
Proof.
  split; [unfold is_dbl; lia|]. split; [reflexivity|].
  unfold dbl_val, ieee_val.
  change (ieee_exp 52 11 4638047909214945280) with 1029.
  change (ieee_man 52 4638047909214945280) with 3843892650704896.
  change (ieee_neg 52 11 4638047909214945280) with false.
  cbv beta iota zeta. change (1029 =? 0) with false. cbv iota.
  change (1029 - (2 ^ (11 - 1) - 1) - 52) with (- (46)).
  rewrite pw_powerRZ, pw_opp, pw_IZR by lia.
  change (2 ^ 52 + 3843892650704896) with 8347492278075392.
  change (2 ^ 46) with 70368744177664. lra.
Qed.

Example C07_case :
  (powerRZ 16 (66 - 65) <= Rabs 118.625 < powerRZ 16 (66 - 64))%R /\
  wr_ibm (fp_plat (Some 66)) Swapped 4638047909214945280 = Ok [66; 118; 160; 0].
Proof.
  split; [|vm_compute; reflexivity].
  change (66 - 65) with 1. change (66 - 64) with 2. cbn [powerRZ Pos.to_nat].
  rewrite Rabs_pos_eq by lra. change (Pos.to_nat 1) with 1%nat. change (Pos.to_nat 2) with 2%nat.
  cbn [pow]. lra.
Qed.

(** Zero.  log(0) is minus infinity and its conversion to uint32_t has no
    defined result; if the platform yields some value the word is a zero. *)
Theorem C07_ibm_zero_if_defined : forall p e v E rest,
  holds v 0 -> p_ibm_exp p (d_abs v) = Some E -> 0 <= E <= 127 ->
  exists bs d, wr_ibm p e v = Ok bs /\ rd_ibm e (bs ++ rest) = Ok (d, rest) /\ holds d 0.
Proof.
  intros p e v E rest Hv HE Hr.
  destruct (C07_ibm_encode_truncates p e v 0 E rest Hv HE Hr)
    as (bs & d & y & E1 & _ & E2 & Hd & Y & _).
  - rewrite Rabs_R0, pw16. apply pw_pos.
  - left; reflexivity.
  - rewrite Rabs_R0 in Y. assert (y = 0%R) by lra. subst y. rewrite Rmult_0_r in Hd. eauto.
Qed.

Theorem C07_ibm_zero_refuted : exists p v e,
  holds v 0 /\ p_ibm_exp p (d_abs v) = None /\ wr_ibm p e v = UB.
Proof.
  exists (fp_plat None), 0, Swapped. split; [|split; reflexivity].
  split; [unfold is_dbl; lia|]. split; [reflexivity|].
  unfold dbl_val, ieee_val. change (ieee_exp 52 11 0) with 0. change (ieee_man 52 0) with 0.
  change (ieee_neg 52 11 0) with false. cbv beta iota zeta. change (0 =? 0) with true. cbv iota. ring.
Qed.

(** If the computed exponent is one too small (log rounding just below a power
    of 16, as for 16^-62 with the usual libm) the written word is a zero. *)
Theorem C07_ibm_exponent_too_small_refuted :
  exists p v d, holds v 16 /\ p_ibm_exp p (d_abs v) = Some 65 /\
    rd_ibm Swapped match wr_ibm p Swapped v with Ok b => b | _ => [] end = Ok (d, []) /\
    holds d 0.
Proof.
  exists (fp_plat (Some 65)), (i2d 16), 0. split; [apply i2d_holds; lia|].
  split; [reflexivity|]. split; [vm_compute; reflexivity|].
  apply (i2d_holds 0). lia.
Qed.

(** C08.  Format 6 is the identity on bits. *)
Theorem C08_ieee_double_identity : forall p e r w d rest,
  sample_reader p e 6 = Ok r -> sample_writer p e 6 = Ok w -> is_dbl d ->
  exists bs, w d = Ok bs /\ List.length bs = 8%nat /\ r (bs ++ rest) = Ok (d, rest).
Proof.
  intros p e r w d rest Hr Hw Hd. injection Hr as <-. injection Hw as <-.
  exists (wr_f64 e d). split; [reflexivity|]. split; [apply wr_length|].
  unfold rd_f64, wr_f64. rewrite rd_u_wr. change (8 * Z.of_nat 8) with 64.
  rewrite wrapu_small by exact Hd. reflexivity.
Qed.

(** Format 5: rounded to the nearest binary32, ties to even. *)
Theorem C08_ieee_single_rounds : forall p e r w d x rest,
  sample_reader p e 5 = Ok r -> sample_writer p e 5 = Ok w -> holds d x ->
  exists bs d', w d = Ok bs /\ List.length bs = 4%nat /\ r (bs ++ rest) = Ok (d', rest) /\
    ((Rabs (rne32 x) < powerRZ 2 128)%R -> holds d' (rne32 x)) /\
    ((powerRZ 2 128 <= Rabs (rne32 x))%R -> d' = f2d (if ieee_neg 52 11 d then 4286578688 else 2139095040)).
Proof.
  intros p e r w d x rest Hr Hw Hd. injection Hr as <-. injection Hw as <-.
  exists (wr_f32 e d), (f2d (d2f d)). split; [reflexivity|]. split; [apply wr_length|].
  rewrite !pw_powerRZ.
  assert (Hf : is_flt (d2f d)).
  { destruct (Rlt_le_dec (Rabs (rne32 x)) (pw 128)) as [L|L].
    - apply (d2f_finite _ _ Hd L).
    - rewrite (d2f_overflow _ _ Hd L). apply f_enc_flt. reflexivity. }
  split.
  { unfold rd_f32, wr_f32. erewrite pmap_ok by apply rd_u_wr. change (8 * Z.of_nat 4) with 32.
    rewrite wrapu_small by exact Hf. reflexivity. }
  split.
  - intros L. destruct (d2f_finite _ _ Hd L) as (D & F & V & _).
    destruct (f2d_finite _ D F) as [K _]. rewrite V in K. exact K.
  - intros L. rewrite (d2f_overflow _ _ Hd L).
    rewrite d_dec_sign by apply Hd. change (fsign 52 11 d) with (ieee_neg 52 11 d).
    destruct (ieee_neg 52 11 d); reflexivity.
Qed.

(** [rne32 x] is a closest binary32 number. *)
Theorem C08_rne32_is_nearest : forall x w, is_flt w -> flt_finite w = true ->
  (Rabs (rne32 x - x) <= Rabs (flt_val w - x))%R.
Proof. exact rne32_nearest. Qed.

(** Values that are binary32 numbers (and infinities) come back with the same
    bits; NaNs come back as NaNs. *)
Theorem C08_ieee_single_representable : forall p e r w f rest,
  sample_reader p e 5 = Ok r -> sample_writer p e 5 = Ok w -> is_flt f ->
  (flt_finite f = true -> holds (f2d f) (flt_val f)) /\
  exists bs, w (f2d f) = Ok bs /\ r (bs ++ rest) = Ok (f2d f, rest) /\
    (flt_nan f = false -> bs = wr e 4 f).
Proof.
  intros p e r w f rest Hr Hw Hf. injection Hr as <-. injection Hw as <-.
  split; [intros F; apply (f2d_finite f Hf F)|].
  exists (wr_f32 e (f2d f)). split; [reflexivity|]. unfold rd_f32, wr_f32.
  assert (D : is_flt (d2f (f2d f))).
  { destruct (flt_nan f) eqn:N.
    - destruct (f2d_nan f Hf N) as (D1 & N1 & _). apply (d2f_nan _ D1 N1).
    - rewrite d2f_f2d by assumption. exact Hf. }
  split.
  - erewrite pmap_ok by apply rd_u_wr. change (8 * Z.of_nat 4) with 32.
    rewrite wrapu_small by exact D. rewrite f2d_d2f_f2d by exact Hf. reflexivity.
  - intros N. rewrite d2f_f2d by assumption. reflexivity.
Qed.

(** Any NaN double comes back as a NaN. *)
Theorem C08_ieee_single_nan : forall p e r w d rest,
  sample_reader p e 5 = Ok r -> sample_writer p e 5 = Ok w -> is_dbl d -> dbl_nan d = true ->
  exists bs d', w d = Ok bs /\ r (bs ++ rest) = Ok (d', rest) /\ is_dbl d' /\ dbl_nan d' = true.
Proof.
  intros p e r w d rest Hr Hw Hd Hn. injection Hr as <-. injection Hw as <-.
  destruct (d2f_nan d Hd Hn) as (D & N & _). destruct (f2d_nan _ D N) as (D2 & N2 & _).
  exists (wr_f32 e d), (f2d (d2f d)). split; [reflexivity|]. split; [|split; assumption].
  unfold rd_f32, wr_f32. erewrite pmap_ok by apply rd_u_wr. change (8 * Z.of_nat 4) with 32.
  rewrite wrapu_small by exact D. reflexivity.
Qed.

(** 0.1 is rounded; 1.5 is kept. *)
Example C08_case :
  wr_f32 Swapped 4591870180066957722 = [61; 204; 204; 205] /\
  f2d 1036831949 = 4591870180174331904 /\ d2f (f2d 1069547520) = 1069547520 /\
  dbl_nan 9221120237041090561 = true /\ f2d 2139095040 = 9218868437227405312 /\
  is_dbl 9218868437227405312.
Proof. vm_compute. repeat split; discriminate. Qed.

(** C09.  An integer in the range of an integer sample format comes back as
    the same double (a negative zero as plus zero).  Negative numbers go
    through a double-to-unsigned conversion: gcc's result for it is assumed. *)
Theorem C09_integer_samples_survive_partial : forall p e fmt lo hi r w d z rest,
  int_range fmt = Some (lo, hi) ->
  sample_reader p e fmt = Ok r -> sample_writer p e fmt = Ok w ->
  holds d (IZR z) -> lo <= z <= hi ->
  (0 <= z \/ p_d2u p = gcc_d2u) -> p_left_first p = true ->
  exists bs d', w d = Ok bs /\ r (bs ++ rest) = Ok (d', rest) /\
    holds d' (IZR z) /\ (d <> 2 ^ 63 -> d' = d).
Proof. exact int_sample_ok. Qed.

Example C09_case :
  int_range 7 = Some (-8388608, 8388607) /\ holds (i2d (-70000)) (-70000) /\
  match sample_writer (fp_plat None) Swapped 7 with
  | Ok w => w (i2d (-70000)) | _ => UB end = Ok [254; 238; 144].
Proof. split; [reflexivity|]. split; [apply i2d_holds; lia|]. vm_compute. reflexivity. Qed.

(** By the letter of the standard the conversion of a negative sample is
    undefined, in every signed format. *)
Theorem C09_negative_samples_refuted : forall fmt w,
  In fmt [2; 3; 7; 8; 9] ->
  let p := mkPlatform true strict_d2u (fun _ => None) (2 ^ 40) true true 0 Z.log2 (fun _ => 0) no_exp in
  sample_writer p Swapped fmt = Ok w ->
  holds (i2d (-1)) (-1) /\ w (i2d (-1)) = UB.
Proof.
  intros fmt w Hin p Hw. split; [apply i2d_holds; lia|]. cbn [In] in Hin.
  repeat (destruct Hin as [<-|Hin]); try contradiction; injection Hw as <-; vm_compute; reflexivity.
Qed.

Print Assumptions C06_ibm_decode_exact.
Print Assumptions C07_ibm_encode_truncates.
Print Assumptions C07_ibm_relative_error.
Print Assumptions C07_ibm_normalised_words_survive.
Print Assumptions C07_ibm_zero_if_defined.
Print Assumptions C07_ibm_zero_refuted.
Print Assumptions C07_ibm_exponent_too_small_refuted.
Print Assumptions C08_ieee_double_identity.
Print Assumptions C08_ieee_single_rounds.
Print Assumptions C08_rne32_is_nearest.
Print Assumptions C08_ieee_single_representable.
Print Assumptions C08_ieee_single_nan.
Print Assumptions C09_integer_samples_survive_partial.
Print Assumptions C09_negative_samples_refuted.
