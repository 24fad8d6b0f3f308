(** Lemmas for C59-C61: what the codecs of the writers store. *)
From Coq Require Import Reals Lra.
From Flocq Require Import Core.
From Verif Require Import BaseFacts Platform Fp FpSpec FpReal FixFacts TraceHdr SegyTypes SegyCodec CodecSpec CodecFacts
     SampleFacts SampleReal LayoutSpec LayoutFacts HdrFacts ISegy OSegy OpenFacts BinFacts WriterFacts RoundSpec
     ReadFacts ReadFacts2 SegyDecSpec SegyDecFacts SegyDecFacts2 FileSpec SegyEncSpec PropertiesFp.
Local Open Scope Z_scope.

Lemma uval_wr e n v : uval (ord e) (wr e n v) = as_unsigned n v.
Proof.
  unfold as_unsigned. destruct e; cbn [ord].
  - rewrite uval_le, wr_native, <- le_enc_le_bytes. apply le_dec_enc.
  - rewrite uval_be, wr_swapped. unfold be_bytes. rewrite rev_involutive, <- le_enc_le_bytes. apply le_dec_enc.
Qed.
Lemma uval_wr24 e v : uval (ord e) (wr24 e v) = as_unsigned 3 v.
Proof.
  unfold as_unsigned. destruct e; cbn [ord].
  - rewrite uval_le, wr24_native, <- le_enc_le_bytes. apply le_dec_enc.
  - rewrite uval_be, wr24_swapped. unfold be_bytes. rewrite rev_involutive, <- le_enc_le_bytes. apply le_dec_enc.
Qed.
Lemma wr24_bytes e v : bytes (wr24 e v).
Proof.
  destruct e; [rewrite wr24_native|rewrite wr24_swapped; unfold be_bytes]; rewrite <- le_enc_le_bytes;
    [|apply bytes_rev]; apply le_enc_bytes.
Qed.
Lemma wr24_len e v : List.length (wr24 e v) = 3%nat.
Proof.
  destruct e; [rewrite wr24_native|rewrite wr24_swapped; unfold be_bytes; rewrite rev_length];
    rewrite <- le_enc_le_bytes; apply le_enc_length.
Qed.
Lemma len_wr e n v : len (wr e n v) = Z.of_nat n.
Proof. unfold len. rewrite wr_length. reflexivity. Qed.

Lemma as_signed_mod n v : as_signed n (v mod 256 ^ Z.of_nat n) = as_signed n v.
Proof. unfold as_signed. rewrite Z.mod_mod by (apply Z.pow_nonzero; lia). reflexivity. Qed.
Lemma sval_wr e n v : sval (ord e) (wr e n v) = as_signed n v.
Proof. unfold sval. rewrite wr_length, uval_wr. apply as_signed_mod. Qed.

Lemma as_signed_in n v : (0 < n)%nat -> in_i (8 * Z.of_nat n) v = true -> as_signed n v = v.
Proof. intros N H. rewrite as_signed_wraps by exact N. apply wraps_id; [lia|exact H]. Qed.
Lemma as_unsigned_in n v : in_u (8 * Z.of_nat n) v = true -> as_unsigned n v = v.
Proof.
  intros H. rewrite as_unsigned_wrapu. unfold in_u in H. apply wrapu_small. lia.
Qed.

(** ** IBM *)
Lemma rd_ibm_at e bs d : bytes bs -> List.length bs = 4%nat -> rd_ibm e (bs ++ []) = Ok (d, []) ->
  holds d (ibm_val (uval (ord e) bs)).
Proof.
  intros B L H. rewrite app_nil_r in H. unfold rd_ibm in H. erewrite pmap_ok in H by (apply rd_u_val; [exact B|lia]).
  rewrite firstn_all2 in H by lia. assert (K : d = ibm2d (uval (ord e) bs)) by congruence. subst d.
  apply ibm2d_holds. pose proof (uval_range (ord e) bs B) as R. unfold len in R. rewrite L in R. exact R.
Qed.

Lemma holds_fun d x y : holds d x -> holds d y -> x = y.
Proof. intros (_ & _ & <-) (_ & _ & <-). reflexivity. Qed.

Lemma wr_ibm_shape p e v bs : wr_ibm p e v = Ok bs -> bytes bs /\ List.length bs = 4%nat.
Proof.
  unfold wr_ibm. intros H. apply bind_ok in H as (w & _ & H). injection H as <-. split; [apply wr_bytes|apply wr_length].
Qed.

Lemma wr_ibm_close p e v x bs : holds v x -> exp_right p v x -> wr_ibm p e v = Ok bs ->
  ibm_close x (uval (ord e) bs).
Proof.
  intros H (E & HE & R & Hx) W. destruct (wr_ibm_shape _ _ _ _ W) as [B L]. change (v mod 2 ^ 63) with (d_abs v) in HE.
  destruct Hx as [X|X].
  - subst x. destruct (C07_ibm_zero_if_defined p e v E [] H HE R) as (bs' & d & W' & Rd & Hd).
    assert (bs' = bs) by congruence. subst bs'. pose proof (rd_ibm_at _ _ _ B L Rd) as K.
    unfold ibm_close. rewrite <- (holds_fun _ _ _ Hd K). rewrite Rminus_0_r, Rabs_R0. repeat split; lra.
  - destruct (C07_ibm_relative_error p e v x E [] H HE R X) as (bs' & d & r & W' & Rd & Hd & Q1 & Q2 & Q3).
    assert (bs' = bs) by congruence. subst bs'. pose proof (rd_ibm_at _ _ _ B L Rd) as K.
    unfold ibm_close. rewrite <- (holds_fun _ _ _ Hd K). repeat split; [exact Q1|exact Q2|apply Rlt_le, Q3].
Qed.

(** ** Single precision *)
Lemma dbl_cases d : is_dbl d -> (exists x, holds d x) \/ (exists s, d = inf64 s) \/ dbl_nan d = true.
Proof.
  intros D. destruct (dbl_finite d) eqn:F; [left; exists (dbl_val d); split; auto|right].
  destruct (dbl_nan d) eqn:N; [right; reflexivity|left].
  unfold dbl_finite, ieee_finite in F. unfold dbl_nan, ieee_nan in N.
  destruct (ieee_exp 52 11 d =? 2 ^ 11 - 1) eqn:Ex; [|discriminate]. cbn [andb] in N.
  apply negb_false_iff, Z.eqb_eq in N. apply Z.eqb_eq in Ex.
  exists (2 ^ 63 <=? d). unfold inf64. unfold ieee_exp in Ex. unfold ieee_man in N. unfold is_dbl in D.
  pose proof (Z.div_mod d (2 ^ 52) ltac:(lia)) as Q. pose proof (Z.div_mod (d / 2 ^ 52) (2 ^ 11) ltac:(lia)) as Q2.
  rewrite Z.div_div in Q2 by lia. change (2 ^ 52 * 2 ^ 11) with (2 ^ 63) in Q2.
  assert (d / 2 ^ 63 = if 2 ^ 63 <=? d then 1 else 0) as Q3.
  { destruct (Z.leb_spec (2 ^ 63) d).
    - symmetry. apply (Z.div_unique _ _ _ (d - 2 ^ 63)); lia.
    - apply Z.div_small. lia. }
  destruct (2 ^ 63 <=? d); lia.
Qed.

Lemma d2f_inf s : d2f (inf64 s) = inf32 s.
Proof. destruct s; vm_compute; reflexivity. Qed.
Lemma inf64_not_nan s : dbl_nan (inf64 s) = false.
Proof. destruct s; vm_compute; reflexivity. Qed.
Lemma inf64_not s x : ~ holds (inf64 s) x.
Proof. intros (_ & F & _). destruct s; vm_compute in F; discriminate. Qed.

Lemma d2f_narrowed d : is_dbl d -> narrowed d (d2f d).
Proof.
  intros D.
  assert (Fl : is_flt (d2f d)).
  { destruct (dbl_cases d D) as [[x H]|[[s ->]|N]].
    - destruct (Rlt_le_dec (Rabs (rne32 x)) (pw 128)) as [L|L].
      + apply (d2f_finite _ _ H L).
      + rewrite (d2f_overflow _ _ H L). apply f_enc_flt. reflexivity.
    - rewrite d2f_inf. destruct s; split; vm_compute; congruence.
    - apply (d2f_nan _ D N). }
  split; [exact Fl|]. split; [|split].
  - intros x H. rewrite !pw_powerRZ. split; intros L.
    + destruct (d2f_finite _ _ H L) as (_ & F & V & S). split; [exact F|]. split; [exact V|].
      rewrite f_dec_sign, d_dec_sign in S; [exact S|apply H|apply H|exact Fl|exact F].
    + rewrite (d2f_overflow _ _ H L). rewrite d_dec_sign by apply H. change (fsign 52 11 d) with (ieee_neg 52 11 d).
      destruct (ieee_neg 52 11 d); reflexivity.
  - intros s ->. apply d2f_inf.
  - intros N. apply (d2f_nan _ D N).
Qed.

(** ** Fields of trace headers *)
Lemma bytes_len4 e l : bytes l -> List.length l = 4%nat -> is_flt (uval (ord e) l).
Proof. intros B L. pose proof (uval_range (ord e) l B) as R. unfold len in R. rewrite L in R. exact R. Qed.

Lemma rne64_small z : - 2 ^ 63 <= z < 2 ^ 63 -> (Rabs (rne32 (rne64 (IZR z))) < powerRZ 2 128)%R.
Proof.
  intros H. rewrite pw_powerRZ. apply Rle_lt_trans with (pw 63); [|apply bpow_lt; lia].
  assert (G : forall p, (24 <= p) -> generic_format radix2 (FLT_exp (if p =? 24 then -149 else -1074) p) (pw 63)).
  { intros p Hp. apply generic_format_FLT_bpow; [unfold Prec_gt_0; lia|destruct (p =? 24); lia]. }
  unfold rne32. apply abs_round_le_generic; [apply FLT_exp_valid; reflexivity|apply valid_rnd_N|apply (G 24); lia|].
  unfold rne64. apply abs_round_le_generic; [apply FLT_exp_valid; reflexivity|apply valid_rnd_N|apply (G 53); lia|].
  rewrite <- abs_IZR, pw_IZR by lia. apply IZR_le. lia.
Qed.

Lemma i2d_dbl z : - 2 ^ 63 <= z < 2 ^ 63 -> holds (i2d z) (rne64 (IZR z)).
Proof. intros H. apply i2d_rne. lia. Qed.

Lemma holds_negzero : holds (2 ^ 63) 0.
Proof.
  split; [unfold is_dbl; lia|]. split; [vm_compute; reflexivity|]. unfold dbl_val, ieee_val.
  change (ieee_exp 52 11 (2 ^ 63)) with 0. change (ieee_man 52 (2 ^ 63)) with 0. change (ieee_neg 52 11 (2 ^ 63)) with true.
  cbv beta iota zeta. change (0 =? 0) with true. cbv iota. rewrite Rmult_0_l. apply Ropp_0.
Qed.

Lemma i2d_not_negzero z : - 2 ^ 63 <= z < 2 ^ 63 -> i2d z <> 2 ^ 63.
Proof.
  intros H E. pose proof (i2d_dbl z H) as K. rewrite E in K. pose proof (holds_fun _ _ _ K holds_negzero) as Q.
  destruct (Z.eq_dec z 0) as [->|N]; [vm_compute in E; discriminate|].
  assert (pw 0 <= Rabs (rne64 (IZR z)))%R as L.
  { unfold rne64. apply abs_round_ge_generic; [apply FLT_exp_valid; reflexivity|apply valid_rnd_N| |].
    - apply generic_format_FLT_bpow; [reflexivity|lia].
    - rewrite <- abs_IZR. apply IZR_le. lia. }
  rewrite Q, Rabs_R0 in L. change (pw 0) with 1%R in L. lra.
Qed.

Lemma wr_field_stored p e t ov l : (forall z, ov = Some (VInt z) -> - 2 ^ 63 <= z < 2 ^ 63) ->
  wr_field p e t ov = Ok l ->
  exists z, (ov = Some (VInt z) \/ (ov = None /\ z = 0)) /\ stored_int p (ord e) t z l.
Proof.
  intros T H. unfold wr_field in H. apply bind_ok in H as (z & Ez & H). exists z.
  assert (Hz : ov = Some (VInt z) \/ (ov = None /\ z = 0)).
  { destruct ov as [[y|y]|]; [left; injection Ez as ->; reflexivity|discriminate|right; injection Ez as <-; auto]. }
  split; [exact Hz|].
  assert (Bz : - 2 ^ 63 <= z < 2 ^ 63) by (destruct Hz as [->|[_ ->]]; [apply T; reflexivity|lia]).
  assert (I : forall n, bytes (wr e n z) /\ len (wr e n z) = Z.of_nat n /\
     uval (ord e) (wr e n z) = as_unsigned n z).
  { intros n. split; [apply wr_bytes|]. split; [apply len_wr|apply uval_wr]. }
  unfold stored_int. destruct t; try (injection H as <-; apply I).
  - injection H as <-. split; [apply wr24_bytes|]. split; [unfold len; rewrite wr24_len; reflexivity|apply uval_wr24].
  - injection H as <-. split; [apply wr24_bytes|]. split; [unfold len; rewrite wr24_len; reflexivity|apply uval_wr24].
  - destruct (wr_ibm_shape _ _ _ _ H) as [B L]. split; [exact B|]. split; [unfold len; rewrite L; reflexivity|].
    intros d Hd Nd X. pose proof (i2d_dbl z Bz) as Hi.
    rewrite (holds_uniq d (i2d z) _ Hd Hi Nd (i2d_not_negzero z Bz)) in X.
    eapply wr_ibm_close; eassumption.
  - injection H as <-. unfold wr_f32. split; [apply wr_bytes|]. split; [apply len_wr|].
    rewrite uval_wr. pose proof (i2d_dbl z Bz) as Hi. destruct (d2f_narrowed (i2d z) (proj1 Hi)) as (Fl & N & _).
    rewrite as_unsigned_in by (unfold in_u, is_flt in *; change (8 * Z.of_nat 4) with 32; lia).
    destruct (proj1 (N _ Hi) (rne64_small z Bz)) as (N1 & N2 & N3). split; [exact N1|]. split; [exact N2|].
    rewrite N3. apply (i2d_rne_signed z). lia.
  - injection H as <-. unfold wr_f64. split; [apply wr_bytes|]. split; [apply len_wr|].
    rewrite uval_wr. pose proof (i2d_dbl z Bz) as Hi. pose proof (proj1 Hi) as D. unfold is_dbl in D.
    rewrite as_unsigned_in by (unfold in_u; change (8 * Z.of_nat 8) with 64; lia). apply (i2d_rne_signed z). lia.
Qed.

(** ** Samples *)
Lemma d2u_trunc p w d x u : holds d x -> d2u p w d = Ok u -> 0 <= Ztrunc x \/ p_d2u p = gcc_d2u ->
  (w = 8 \/ w = 16 \/ w = 32 \/ w = 64) -> - 2 ^ (w - 1) <= Ztrunc x < 2 ^ w ->
  u mod 2 ^ w = Ztrunc x mod 2 ^ w.
Proof.
  intros H E C W B. unfold d2u in E. rewrite (d_trunc_holds _ _ H) in E.
  destruct (in_u w (Ztrunc x)) eqn:I; [injection E as <-; reflexivity|].
  destruct C as [C|C]; [unfold in_u in I; lia|]. rewrite C in E.
  assert (Hneg : Ztrunc x < 0) by (unfold in_u in I; lia).
  assert (J : in_i (if w <=? 16 then 32 else 64) (Ztrunc x) = true).
  { unfold in_i. clear I C E. decompose [or] W; subst w; cbn -[Z.pow Ztrunc] in *; lia. }
  unfold gcc_d2u in E. rewrite J in E. injection E as <-. unfold wrapu. apply Z.mod_mod. apply Z.pow_nonzero; lia.
Qed.

Lemma mod_sub a b m k : 0 < m -> 0 < k -> a mod (m * k) = b mod (m * k) -> a mod m = b mod m.
Proof.
  intros Hm Hk E. rewrite (Znumtheory.Zmod_div_mod m (m * k) a), (Znumtheory.Zmod_div_mod m (m * k) b) by (try nia; apply Z.divide_factor_l).
  rewrite E. reflexivity.
Qed.

Lemma as_signed_eq n a b : a mod 256 ^ Z.of_nat n = b mod 256 ^ Z.of_nat n -> as_signed n a = as_signed n b.
Proof. intros E. unfold as_signed. rewrite E. reflexivity. Qed.

Lemma sample_stored p e fmt d w l : is_dbl d -> sample_writer p e fmt = Ok w -> w d = Ok l ->
  stored_sample p (ord e) fmt d l.
Proof.
  intros D W E.
  assert (I : forall n lo hi, (n = 1 \/ n = 2 \/ n = 4 \/ n = 8)%nat ->
     (let* u := d2u p (8 * Z.of_nat n) d in Ok (wr e n u)) = Ok l ->
     (lo = 0 /\ hi = 256 ^ Z.of_nat n - 1 \/ lo = - 2 ^ (8 * Z.of_nat n - 1) /\ hi = 2 ^ (8 * Z.of_nat n - 1) - 1) ->
     bytes l /\ len l = Z.of_nat n /\ (forall x, holds d x -> lo <= Ztrunc x <= hi -> (0 <= Ztrunc x \/ p_d2u p = gcc_d2u) ->
       (if lo <? 0 then sval (ord e) l else uval (ord e) l) = Ztrunc x)).
  { intros n lo hi Hn E1 Hl. apply bind_ok in E1 as (u & Eu & E1). injection E1 as <-.
    split; [apply wr_bytes|]. split; [apply len_wr|]. intros x Hx Bx C.
    assert (P2 : 256 ^ Z.of_nat n = 2 ^ (8 * Z.of_nat n)) by (rewrite Z.pow_mul_r by lia; reflexivity).
    assert (P1 : 2 ^ (8 * Z.of_nat n) = 2 * 2 ^ (8 * Z.of_nat n - 1)).
    { rewrite <- Z.pow_succ_r by lia. f_equal. lia. }
    assert (P0 : 0 < 2 ^ (8 * Z.of_nat n - 1)) by (apply pow2_pos; lia).
    assert (M : u mod 2 ^ (8 * Z.of_nat n) = Ztrunc x mod 2 ^ (8 * Z.of_nat n)).
    { apply (d2u_trunc p _ d x u Hx Eu C); [lia|]. destruct Hl as [[-> ->]|[-> ->]]; lia. }
    rewrite sval_wr, uval_wr. unfold as_unsigned.
    rewrite (as_signed_eq n u (Ztrunc x)) by (rewrite P2; exact M). rewrite P2, M.
    destruct Hl as [[-> ->]|[-> ->]].
    - change (0 <? 0) with false. cbv iota. apply Z.mod_small. lia.
    - destruct (Z.ltb_spec (- 2 ^ (8 * Z.of_nat n - 1)) 0); [|lia]. apply as_signed_in; [lia|]. unfold in_i. lia. }
  assert (I3 : forall lo hi, (let* u := d2u p 32 d in Ok (wr24 e u)) = Ok l ->
     (lo = 0 /\ hi = 2 ^ 24 - 1 \/ lo = - 2 ^ 23 /\ hi = 2 ^ 23 - 1) ->
     bytes l /\ len l = 3 /\ (forall x, holds d x -> lo <= Ztrunc x <= hi -> (0 <= Ztrunc x \/ p_d2u p = gcc_d2u) ->
       (if lo <? 0 then sval (ord e) l else uval (ord e) l) = Ztrunc x)).
  { intros lo hi E1 Hl. apply bind_ok in E1 as (u & Eu & E1). injection E1 as <-.
    split; [apply wr24_bytes|]. split; [unfold len; rewrite wr24_len; reflexivity|]. intros x Hx Bx C.
    assert (M : u mod 2 ^ 24 = Ztrunc x mod 2 ^ 24).
    { apply (mod_sub _ _ (2 ^ 24) (2 ^ 8)); [lia|lia|]. change (2 ^ 24 * 2 ^ 8) with (2 ^ 32).
      apply (d2u_trunc p _ d x u Hx Eu C); [lia|]. change (32 - 1) with 31. destruct Hl as [[-> ->]|[-> ->]]; lia. }
    unfold sval. rewrite wr24_len, uval_wr24. unfold as_unsigned. rewrite as_signed_mod.
    change (256 ^ Z.of_nat 3) with (2 ^ 24). rewrite (as_signed_eq 3 u (Ztrunc x)) by exact M. rewrite M.
    destruct Hl as [[-> ->]|[-> ->]].
    - change (0 <? 0) with false. cbv iota. apply Z.mod_small. lia.
    - change (- 2 ^ 23 <? 0) with true. cbv iota. apply as_signed_in; [lia|]. unfold in_i. change (8 * Z.of_nat 3 - 1) with 23. lia. }
  unfold stored_sample.
  assert (Hin : In fmt [1; 2; 3; 5; 6; 7; 8; 9; 10; 11; 12; 15; 16]) by (eapply writer_fmt; exact W).
  cbn [In] in Hin.
  repeat (destruct Hin as [<-|Hin]); try contradiction; injection W as <-.
  1: { destruct (wr_ibm_shape _ _ _ _ E) as [B L]. split; [exact B|]. split; [unfold len; rewrite L; reflexivity|].
       intros x Hx X. eapply wr_ibm_close; eassumption. }
  3: { injection E as <-. unfold wr_f32. split; [apply wr_bytes|]. split; [rewrite len_wr; reflexivity|].
       rewrite uval_wr. destruct (d2f_narrowed d D) as (Fl & N). unfold is_flt in Fl.
       rewrite as_unsigned_in by (unfold in_u; change (8 * Z.of_nat 4) with 32; lia). split; assumption. }
  3: { injection E as <-. unfold wr_f64. split; [apply wr_bytes|]. split; [rewrite len_wr; reflexivity|].
       rewrite uval_wr. unfold is_dbl in D. apply as_unsigned_in. unfold in_u. change (8 * Z.of_nat 8) with 64. lia. }
  Local Ltac fini K := let K0 := fresh in pose proof K as (B & L & K0); split; [exact B|]; split; [rewrite L; reflexivity|];
    intros lo hi x R Hx Bx C; injection R as <- <-; exact (K0 x Hx Bx C).
  - fini (I 4%nat (- 2 ^ 31) (2 ^ 31 - 1) ltac:(lia) E (or_intror (conj eq_refl eq_refl))).
  - fini (I 2%nat (- 2 ^ 15) (2 ^ 15 - 1) ltac:(lia) E (or_intror (conj eq_refl eq_refl))).
  - fini (I3 (- 2 ^ 23) (2 ^ 23 - 1) E (or_intror (conj eq_refl eq_refl))).
  - fini (I 1%nat (- 2 ^ 7) (2 ^ 7 - 1) ltac:(lia) E (or_intror (conj eq_refl eq_refl))).
  - fini (I 8%nat (- 2 ^ 63) (2 ^ 63 - 1) ltac:(lia) E (or_intror (conj eq_refl eq_refl))).
  - fini (I 4%nat 0 (2 ^ 32 - 1) ltac:(lia) E (or_introl (conj eq_refl eq_refl))).
  - fini (I 2%nat 0 (2 ^ 16 - 1) ltac:(lia) E (or_introl (conj eq_refl eq_refl))).
  - fini (I 8%nat 0 (2 ^ 64 - 1) ltac:(lia) E (or_introl (conj eq_refl eq_refl))).
  - fini (I3 0 (2 ^ 24 - 1) E (or_introl (conj eq_refl eq_refl))).
  - fini (I 1%nat 0 (2 ^ 8 - 1) ltac:(lia) E (or_introl (conj eq_refl eq_refl))).
Qed.
