(** SEG-D samples: the formats whose writer and reader agree. *)
From Coq Require Import Reals Floats.SpecFloat Lra.
From Flocq Require Import Core BinarySingleNaN.
From Verif Require Import BaseFacts Platform CodecSpec Fp FpFacts FpSpec FpReal SampleReal TraceHdr SegyTypes
  SegyCodec CodecFacts ISegy OSegy SegdTypes SegdSpec ISegd OSegd FixFacts SegdTrcFacts SampleFacts ReaderFacts.
Local Open Scope Z_scope.

(** A product or quotient whose exact value is a double is exact. *)
Lemma holds_rnd z r : holds z r -> rnd 53 1024 r = r /\ (Rabs (rnd 53 1024 r) < pw 1024)%R.
Proof.
  intros H. destruct (holds_dec _ _ H) as (V & F & E).
  assert (R : rnd 53 1024 r = r).
  { apply rnd_exact. rewrite <- E. apply (sf_generic 53 1024 _ V). }
  split; [exact R|]. rewrite R, <- E. apply (sf_lt_emax 53 1024 _ V).
Qed.

Lemma d_mul_dbl a b z ra rb : holds a ra -> holds b rb -> holds z (ra * rb) ->
  holds (d_mul a b) (ra * rb) /\
  sign_SF (d_dec (d_mul a b)) = xorb (sign_SF (d_dec a)) (sign_SF (d_dec b)).
Proof.
  intros Ha Hb Hz. destruct (holds_rnd _ _ Hz) as [R1 R2].
  destruct (holds_dec _ _ Ha) as (Va & Fa & Ea). destruct (holds_dec _ _ Hb) as (Vb & Fb & Eb).
  pose proof (sfmul_correct 53 1024 _ _ (d_dec a) (d_dec b) Va Vb Fa Fb) as H.
  rewrite Ea, Eb in H. specialize (H R2). cbv zeta in H. destruct H as (V & E' & F & S).
  rewrite R1 in E'. unfold d_mul. split.
  - apply holds_sf; [exact V|exact F|exact E'].
  - rewrite d_dec_enc by exact V. exact S.
Qed.

Lemma d_div_dbl a b z ra rb : holds a ra -> holds b rb -> rb <> 0%R -> holds z (ra / rb) ->
  holds (d_div a b) (ra / rb) /\
  sign_SF (d_dec (d_div a b)) = xorb (sign_SF (d_dec a)) (sign_SF (d_dec b)).
Proof.
  intros Ha Hb Nz Hz. destruct (holds_rnd _ _ Hz) as [R1 R2].
  destruct (holds_dec _ _ Ha) as (Va & Fa & Ea). destruct (holds_dec _ _ Hb) as (Vb & Fb & Eb).
  pose proof (sfdiv_correct 53 1024 _ _ (d_dec a) (d_dec b) Va Vb Fa Fb) as H.
  rewrite Ea, Eb in H. specialize (H Nz R2). cbv zeta in H. destruct H as (V & E' & F & S).
  rewrite R1 in E'. unfold d_div. split.
  - apply holds_sf; [exact V|exact F|exact E'].
  - rewrite d_dec_enc by exact V. exact S.
Qed.

Lemma neg_sign x r : holds x r -> sign_SF (d_dec x) = ieee_neg 52 11 x.
Proof. intros (D & F & _). apply d_dec_sign; assumption. Qed.

Lemma scaled_ok x m y : scaled x m y -> -1022 <= m <= 1023 ->
  d_div x (d_pow2 m) = y /\ d_mul y (d_pow2 m) = x.
Proof.
  intros (r & Hy & Hx & S) Hm. rewrite pw_powerRZ in Hx.
  destruct (d_pow2_holds m Hm) as [Hp Sp]. pose proof (pw_pos m) as P.
  rewrite <- (neg_sign _ _ Hx), <- (neg_sign _ _ Hy) in S. split.
  - assert (E : (r * pw m / pw m = r)%R) by (field; lra).
    destruct (d_div_dbl x (d_pow2 m) y _ _ Hx Hp ltac:(lra)) as [H1 S1]; [rewrite E; exact Hy|].
    rewrite E in H1. apply (holds_inj _ _ _ H1 Hy). rewrite S1, Sp, S. apply xorb_false_r.
  - destruct (d_mul_dbl y (d_pow2 m) x _ _ Hy Hp Hx) as [H1 S1].
    apply (holds_inj _ _ _ H1 Hx). rewrite S1, Sp, S. apply xorb_false_r.
Qed.

Lemma d_lt_refl x r : holds x r -> d_lt x x = false.
Proof.
  intros H. destruct (holds_dec _ _ H) as (_ & F & _). unfold d_lt.
  destruct (d_dec x) as [s|s| |s q e]; try discriminate F; [reflexivity|].
  cbn [SFcompare]. destruct s; rewrite Z.compare_refl; cbn; rewrite Pos.compare_cont_refl; reflexivity.
Qed.

Lemma d_exp2_int p d m : fixp d (m * 2 ^ 10) 10 -> -1022 <= m <= 1023 -> d_exp2 p d = d_pow2 m.
Proof.
  intros F Hm.
  assert (E : d = i2d m).
  { apply (fixp_uniq _ _ (m * 2 ^ 10) 10 F). apply (fixp_scale (i2d m) m 0 10); [|lia].
    apply fixp_int. lia. }
  subst d. destruct (i2d_holds m ltac:(lia)) as [H _].
  unfold d_exp2. rewrite (d_trunc_int _ _ H), (d_lt_refl _ _ H). cbn [negb andb].
  destruct (Z.leb_spec (-1022) m); [|lia]. destruct (Z.leb_spec m 1023); [|lia]. reflexivity.
Qed.

(** ** Words *)

Lemma sample_word_fmt fmt y bs : sample_word fmt y bs -> In fmt good_formats.
Proof.
  intros H. destruct (in_dec Z.eq_dec fmt good_formats) as [I|N]; [exact I|].
  exfalso. unfold good_formats in N. assert (K : forall k, In k [8036; 8038; 8058; 8080; 9038; 9058; 9080] -> fmt <> k).
  { intros k Hk ->. exact (N Hk). }
  unfold sample_word in H.
  repeat match type of H with match ?x with _ => _ end =>
    destruct x; try contradiction; try (eapply K; [|reflexivity]; cbn [In]; tauto) end.
Qed.

Lemma flt_word_codec y f : flt_word y f -> d2f y = f /\ f2d f = y.
Proof.
  intros (Df & Ff & Hy & S).
  assert (N : flt_nan f = false).
  { unfold flt_nan, ieee_nan. unfold flt_finite, ieee_finite in Ff.
    destruct (ieee_exp 23 8 f =? 2 ^ 8 - 1); [discriminate|reflexivity]. }
  destruct (f2d_finite f Df Ff) as [Hf Sf].
  assert (E : f2d f = y).
  { apply (holds_inj _ _ _ Hf Hy). rewrite Sf, (neg_sign _ _ Hy), S.
    clear - Df Ff. unfold f_dec, fdec. unfold flt_finite, ieee_finite in Ff.
    change (ieee_exp 23 8 f) with (fexpo 23 8 f) in Ff.
    destruct (fexpo 23 8 f =? 2 ^ 8 - 1); [discriminate|].
    change (ieee_neg 23 8 f) with (fsign 23 8 f).
    destruct (fields_bound 23 8 ltac:(lia) ltac:(lia) ltac:(reflexivity) f Df) as (He & Hm & _).
    destruct (Z.eqb_spec (fexpo 23 8 f) 0).
    - destruct (fmant 23 f) eqn:Em; try reflexivity; lia.
    - destruct (fmant 23 f + 2 ^ 23) eqn:Em; try reflexivity; lia. }
  split; [|exact E]. rewrite <- E. apply d2f_f2d; assumption.
Qed.

Lemma wr_wrapu e n u v : wrapu (8 * Z.of_nat n) u = wrapu (8 * Z.of_nat n) v -> wr e n u = wr e n v.
Proof.
  intros E. destruct e.
  - rewrite !wr_native, <- !le_enc_le_bytes, <- (le_enc_wrapu n u), <- (le_enc_wrapu n v), E. reflexivity.
  - rewrite !wr_swapped. unfold be_bytes.
    rewrite <- !le_enc_le_bytes, <- (le_enc_wrapu n u), <- (le_enc_wrapu n v), E. reflexivity.
Qed.

Lemma le_bytes_length n v : List.length (le_bytes n v) = n.
Proof. rewrite <- le_enc_le_bytes. apply le_enc_length. Qed.
Lemma be_bytes_length' n v : List.length (be_bytes n v) = n.
Proof. unfold be_bytes. rewrite rev_length. apply le_bytes_length. Qed.

Definition codec (p : platform) (fmt : Z) (n : nat) (f : Z -> outcome (list Z)) (r : P Z) : Prop :=
  d_sample_writer p fmt = Ok (8 * Z.of_nat n, SBytes f) /\
  d_sample_reader p fmt = Ok (8 * Z.of_nat n, r) /\
  forall y bs, sample_word fmt y bs ->
    List.length bs = n /\ f y = Ok bs /\ forall rest, r (bs ++ rest) = Ok (y, rest).

Lemma int_word_i2d n y v : int_word n y v -> (0 < n <= 8)%nat -> i2d v = y.
Proof.
  intros (H & Nz & B) Hn. apply (i2d_of_holds y v H); [|exact Nz].
  assert (2 ^ (8 * Z.of_nat n - 1) <= 2 ^ 63) by (apply Z.pow_le_mono_r; lia).
  assert (2 ^ 63 < 2 ^ 1024) by reflexivity. lia.
Qed.

Lemma int_rd e n v rest : - 2 ^ (8 * Z.of_nat n - 1) <= v < 2 ^ (8 * Z.of_nat n - 1) -> (0 < n)%nat ->
  rd_i e n (wr e n v ++ rest) = Ok (v, rest).
Proof.
  intros B Hn. rewrite rd_i_wr, wraps_id; [reflexivity|lia|]. unfold in_i. lia.
Qed.

Lemma conv_fmt_ok p v : p_d2u p = gcc_d2u -> conv_ok p v.
Proof. intros H. right. exact H. Qed.

Lemma codec_ok p fmt : p_left_first p = true -> conv_fmt p fmt ->
  In fmt good_formats ->
  exists n f r, codec p fmt n f r /\ (3 <= n <= 8)%nat.
Proof.
  intros Hp C Hin. unfold good_formats in Hin. cbn [In] in Hin.
  destruct Hin as [<-|[<-|[<-|[<-|[<-|[<-|[<-|[]]]]]]]].
  - eexists 3%nat, _, _. split; [|lia]. split; [reflexivity|]. split; [reflexivity|].
    intros y bs (v & Hv & ->). split; [apply be_bytes_length'|].
    destruct C as [C|C]; [|exfalso; apply C; cbn; tauto].
    pose proof Hv as (Hy & Nz & B). cbn -[Z.pow] in B. change (24 - 1) with 23 in B.
    destruct (d2u_int p 32 y v Hy (conv_fmt_ok p v C)) as (u & E & Eu & Bu); [lia|lia|].
    assert (W : wr24 Swapped u = wr24 Swapped v).
    { unfold wr24. rewrite Eu. reflexivity. }
    rewrite E. cbn [bind]. rewrite W, <- wr24_swapped. split; [reflexivity|].
    intros rest. erewrite pmap_ok by (apply rd_i24_wr24; exact Hp).
    rewrite wraps_id; [|lia|unfold in_i; lia]. rewrite (int_word_i2d 3 y v Hv) by lia. reflexivity.
  - eexists 4%nat, _, _. split; [|lia]. split; [reflexivity|]. split; [reflexivity|].
    intros y bs (v & Hv & ->). split; [apply be_bytes_length'|].
    destruct C as [C|C]; [|exfalso; apply C; cbn; tauto].
    pose proof Hv as (Hy & Nz & B). cbn -[Z.pow] in B. change (32 - 1) with 31 in B.
    destruct (d2u_int p 32 y v Hy (conv_fmt_ok p v C)) as (u & E & Eu & Bu); [lia|lia|].
    rewrite E. cbn [bind]. rewrite (wr_wrapu Swapped 4 u v Eu), <- wr_swapped. split; [reflexivity|].
    intros rest. erewrite pmap_ok by (apply int_rd; [exact B|lia]).
    rewrite (int_word_i2d 4 y v Hv) by lia. reflexivity.
  - eexists 4%nat, _, _. split; [|lia]. split; [reflexivity|]. split; [reflexivity|].
    intros y bs (f & Hf & ->). split; [apply be_bytes_length'|].
    destruct (flt_word_codec y f Hf) as [E1 E2]. destruct Hf as (Df & _).
    unfold wr_f32, rd_f32. rewrite E1, <- wr_swapped. split; [reflexivity|].
    intros rest. erewrite pmap_ok by apply rd_u_wr. change (8 * Z.of_nat 4) with 32.
    rewrite wrapu_small by exact Df. rewrite E2. reflexivity.
  - eexists 8%nat, _, _. split; [|lia]. split; [reflexivity|]. split; [reflexivity|].
    intros y bs (D & _ & ->). split; [apply be_bytes_length'|].
    unfold wr_f64, rd_f64. rewrite <- wr_swapped. split; [reflexivity|].
    intros rest. rewrite rd_u_wr. change (8 * Z.of_nat 8) with 64. rewrite wrapu_small by exact D. reflexivity.
  - eexists 4%nat, _, _. split; [|lia]. split; [reflexivity|]. split; [reflexivity|].
    intros y bs (v & Hv & ->). split; [apply le_bytes_length|].
    pose proof Hv as (Hy & Nz & B). cbn -[Z.pow] in B. change (32 - 1) with 31 in B.
    rewrite (d2s_int_holds p 32 y v Hy) by (change (32 - 1) with 31; lia). cbn [bind].
    rewrite <- wr_native. split; [reflexivity|].
    intros rest. erewrite pmap_ok by (apply int_rd; [exact B|lia]).
    rewrite (int_word_i2d 4 y v Hv) by lia. reflexivity.
  - eexists 4%nat, _, _. split; [|lia]. split; [reflexivity|]. split; [reflexivity|].
    intros y bs (f & Hf & ->). split; [apply le_bytes_length|].
    destruct (flt_word_codec y f Hf) as [E1 E2]. destruct Hf as (Df & _).
    unfold wr_f32, rd_f32. rewrite E1, <- wr_native. split; [reflexivity|].
    intros rest. erewrite pmap_ok by apply rd_u_wr. change (8 * Z.of_nat 4) with 32.
    rewrite wrapu_small by exact Df. rewrite E2. reflexivity.
  - eexists 8%nat, _, _. split; [|lia]. split; [reflexivity|]. split; [reflexivity|].
    intros y bs (D & _ & ->). split; [apply le_bytes_length|].
    unfold wr_f64, rd_f64. rewrite <- wr_native. split; [reflexivity|].
    intros rest. rewrite rd_u_wr. change (8 * Z.of_nat 8) with 64. rewrite wrapu_small by exact D. reflexivity.
Qed.

(** ** Lists of samples *)

Definition back (fmt m : Z) (v : Z) (w : list Z) : Prop :=
  exists y, scaled v m y /\ sample_word fmt y w.

Lemma write_smps_ok p fmt n f r m pend : codec p fmt n f r -> -1022 <= m <= 1023 ->
  forall vs ws c, Forall2 (back fmt m) vs ws -> (n * List.length vs <= List.length c)%nat ->
  write_smps p (SBytes f) pend (map (fun x => d_div x (d_pow2 m)) vs) c =
  Ok (pend, (concat ws, skipn (n * List.length vs) c)).
Proof.
  intros (_ & _ & K) Hm. induction vs as [|v vs IH]; intros ws c F L; inversion F as [|? w ? ws' F1 F2]; subst;
    cbn [map write_smps concat List.length] in *.
  - rewrite Nat.mul_0_r. reflexivity.
  - destruct F1 as (y & S & W). destruct (K y w W) as (Ln & E & _).
    destruct (scaled_ok v m y S Hm) as [Ed _].
    cbn [sample_step]. rewrite Ed, E. cbn [bind].
    assert (Lc : (List.length w <= List.length c)%nat) by lia.
    unfold wput at 1. destruct (Nat.leb_spec (List.length w) (List.length c)); [|lia]. cbn [bind].
    rewrite (IH ws' _ F2) by (rewrite skipn_length; lia). cbn [bind].
    rewrite skipn_skipn', Ln. do 4 f_equal. lia.
Qed.

Lemma read_smps_ok p fmt n f r m : codec p fmt n f r -> -1022 <= m <= 1023 ->
  forall vs ws rest, Forall2 (back fmt m) vs ws ->
  prep (pmap (fun x => d_mul x (d_pow2 m)) r) (List.length vs) (concat ws ++ rest) = Ok (vs, rest).
Proof.
  intros (_ & _ & K) Hm. induction vs as [|v vs IH]; intros ws rest F; inversion F as [|? w ? ws' F1 F2]; subst;
    cbn [prep concat List.length] in *.
  - reflexivity.
  - destruct F1 as (y & S & W). destruct (K y w W) as (Ln & _ & E).
    destruct (scaled_ok v m y S Hm) as [_ Em]. rewrite <- app_assoc.
    rewrite (pbind_ok _ _ _ v (concat ws' ++ rest)).
    + rewrite (pbind_ok _ _ _ _ _ (IH ws' rest F2)). reflexivity.
    + erewrite pmap_ok by apply E. rewrite Em. reflexivity.
Qed.

Lemma words_len p fmt n f r m : codec p fmt n f r -> forall vs ws, Forall2 (back fmt m) vs ws ->
  List.length (concat ws) = (n * List.length vs)%nat.
Proof.
  intros (_ & _ & K). induction 1 as [|v w vs ws (y & _ & W) F IH]; [cbn; lia|].
  cbn [concat List.length]. rewrite app_length, IH. destruct (K y w W) as (-> & _). lia.
Qed.
