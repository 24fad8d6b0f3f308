(** Lemmas for C62: numbers and samples come back as the bytes they were. *)
From Coq Require Import Reals Lra.
From Flocq Require Import Core.
From Verif Require Import BaseFacts Platform Fp FpSpec FpReal FixFacts TraceHdr SegyTypes SegyCodec CodecSpec CodecFacts
     SampleFacts SampleReal LayoutSpec LayoutFacts HdrFacts ISegy OSegy OpenFacts BinFacts WriterFacts RoundSpec
     ReadFacts ReadFacts2 SegyDecSpec SegyDecFacts SegyDecFacts2 FileSpec FileFacts SegyEncSpec SegyEncFacts SegyEncFacts2
     CopySpec.
Local Open Scope Z_scope.

(** ** Bytes *)
Lemma uval_inj o a b : bytes a -> bytes b -> List.length a = List.length b -> uval o a = uval o b -> a = b.
Proof.
  intros A B L E. destruct o.
  - rewrite !uval_be in E. pose proof (le_enc_dec _ (bytes_rev _ A)) as X. pose proof (le_enc_dec _ (bytes_rev _ B)) as Y.
    rewrite !rev_length in *. rewrite L, E, Y in X. rewrite <- (rev_involutive a), <- (rev_involutive b). congruence.
  - rewrite !uval_le in E. pose proof (le_enc_dec _ A) as X. pose proof (le_enc_dec _ B) as Y. rewrite L, E, Y in X. auto.
Qed.
Lemma unsigned_sval o l : bytes l -> as_unsigned (List.length l) (sval o l) = uval o l.
Proof.
  intros B. pose proof (uval_range o l B) as R. unfold len in R. unfold sval, as_signed, as_unsigned. cbv zeta.
  set (m := 256 ^ Z.of_nat (List.length l)) in *. rewrite (Z.mod_small (uval o l) m) by exact R.
  destruct (2 * uval o l <? m).
  - apply Z.mod_small. exact R.
  - replace (uval o l - m) with (uval o l + (-1) * m) by lia. rewrite Z_mod_plus_full. apply Z.mod_small. exact R.
Qed.
Lemma unsigned_uval o l : bytes l -> as_unsigned (List.length l) (uval o l) = uval o l.
Proof. intros B. pose proof (uval_range o l B) as R. unfold len in R. unfold as_unsigned. apply Z.mod_small. exact R. Qed.

Lemma wr_back e l v : bytes l -> as_unsigned (List.length l) v = uval (ord e) l -> wr e (List.length l) v = l.
Proof.
  intros B E. apply (uval_inj (ord e)); [apply wr_bytes|exact B|apply wr_length|]. rewrite uval_wr. exact E.
Qed.
Lemma wr24_back e l v : bytes l -> List.length l = 3%nat -> as_unsigned 3 v = uval (ord e) l -> wr24 e v = l.
Proof.
  intros B L E. apply (uval_inj (ord e)); [apply wr24_bytes|exact B|rewrite L; apply wr24_length|]. rewrite uval_wr24. exact E.
Qed.

(** ** Samples *)
Lemma rne64_int z : Z.abs z <= 2 ^ 53 -> rne64 (IZR z) = IZR z.
Proof.
  intros H. destruct (i2d_holds z H) as ((_ & _ & A) & _). destruct (i2d_rne z ltac:(lia)) as (_ & _ & B). congruence.
Qed.
Lemma sval_range n o l : bytes l -> List.length l = S n ->
  - 2 ^ (8 * Z.of_nat (S n) - 1) <= sval o l <= 2 ^ (8 * Z.of_nat (S n) - 1) - 1.
Proof.
  intros B L. pose proof (uval_range o l B) as R. unfold len in R. unfold sval, as_signed. cbv zeta. rewrite L in *.
  assert (E : 256 ^ Z.of_nat (S n) = 2 * 2 ^ (8 * Z.of_nat (S n) - 1)).
  { rewrite <- Z.pow_succ_r by lia. change 256 with (2 ^ 8). rewrite <- Z.pow_mul_r by lia. f_equal. lia. }
  rewrite E in *. set (m := 2 ^ (8 * Z.of_nat (S n) - 1)) in *. rewrite Z.mod_small by exact R.
  destruct (Z.ltb_spec (2 * uval o l) (2 * m)); lia.
Qed.

Lemma int_kept p e fmt lo hi r w d z l : p_left_first p = true -> int_range fmt = Some (lo, hi) ->
  sample_reader p e fmt = Ok r -> sample_writer p e fmt = Ok w -> holds d (IZR z) -> lo <= z <= hi ->
  (0 <= z \/ p_d2u p = gcc_d2u) -> bytes l -> code_width fmt = Some (len l) ->
  (if lo <? 0 then sval (ord e) l else uval (ord e) l) = z -> w d = Ok l.
Proof.
  intros Hp I R W H Z C B L E. destruct (int_sample_ok p e fmt lo hi r w d z [] I R W H Z C Hp) as (bs & d' & Eb & _).
  rewrite Eb. f_equal. pose proof (sample_stored p e fmt d w bs (proj1 H) W Eb) as (Bb & Lb & S).
  assert (S' : (if lo <? 0 then sval (ord e) bs else uval (ord e) bs) = Ztrunc (IZR z)).
  { unfold stored_sample in S.
    assert (K : forall lo' hi' x, int_range fmt = Some (lo', hi') -> holds d x -> lo' <= Ztrunc x <= hi' ->
           (0 <= Ztrunc x \/ p_d2u p = gcc_d2u) ->
           (if lo' <? 0 then sval (ord e) bs else uval (ord e) bs) = Ztrunc x).
    { clear - S I. destruct fmt as [|q|q]; [discriminate I| |discriminate I].
      do 5 (destruct q as [q|q|]; try discriminate I; try exact S). }
    apply (K lo hi (IZR z)); rewrite ?Ztrunc_IZR; auto. }
  rewrite Ztrunc_IZR in S'. assert (Ll : List.length bs = List.length l).
  { rewrite L in Lb. injection Lb as Lb. unfold len in Lb. lia. }
  apply (uval_inj (ord e)); try assumption. destruct (lo <? 0); [|congruence].
  rewrite <- (unsigned_sval _ bs Bb), <- (unsigned_sval _ l B), Ll. congruence.
Qed.

Lemma signed_inj neg x a b : signed neg x a -> signed neg x b -> a = b.
Proof.
  intros (A & Sa) (B & Sb). apply (holds_inj a b x A B). rewrite !d_dec_sign by (apply A || apply B).
  change (fsign 52 11 a) with (ieee_neg 52 11 a). change (fsign 52 11 b) with (ieee_neg 52 11 b). congruence.
Qed.

Ltac ik f z := let X := fresh in
  match goal with Hp : p_left_first ?p = true, R : sample_reader ?p ?e f = Ok ?r, B : bytes ?l, L : _ = len ?l, Y : signed _ _ ?d |- _ =>
    pose proof (int_kept p e f _ _ r _ d z l Hp eq_refl R eq_refl) as X; apply X; clear X;
    [apply Y|lia|first [assumption | left; lia]|exact B|rewrite <- L; reflexivity|reflexivity] end.
Lemma sample_kept p e fmt r l d : p_left_first p = true -> sample_reader p e fmt = Ok r -> bytes l -> code_width fmt = Some (len l) ->
  sample_says (ord e) fmt l d -> keeps p (ord e) fmt l -> sample_as p e fmt d l.
Proof.
  intros Hp R B L Y K. pose proof (reader_fmt _ _ _ _ R) as Sup. unfold supported in Sup. cbn [In] in Sup.
  pose proof (uval_range (ord e) l B) as U.
  repeat (destruct Sup as [<-|Sup]); try contradiction; cbn [sample_says keeps] in Y, K; cbn [code_width] in L;
    injection L as L; unfold sample_as; cbn [sample_writer]; (eexists; split; [reflexivity|]);
    rewrite <- L in U;
    try (assert (Ln : exists n, List.length l = S n /\ Z.of_nat (S n) = len l) by
          (exists (Z.to_nat (len l - 1)); unfold len in *; lia); destruct Ln as (n & Ln & Lz);
         pose proof (sval_range n (ord e) l B Ln) as Sr; rewrite Lz, <- L in Sr; clear n Ln Lz).
  - (* IBM *) destruct K as (N & X). destruct (X d (proj1 Y)) as (E & E1 & E2 & E3).
    assert (d = ibm2d (uval (ord e) l)) by (eapply signed_inj; [exact Y|apply ibm2d_signed; exact U]). subst d.
    unfold wr_ibm. rewrite (ibm_bits p (uval (ord e) l) E U N E1).
    + cbn [bind]. f_equal. replace 4%nat with (List.length l) by (unfold len in L; lia). apply wr_back; [exact B|]. apply unsigned_uval, B.
    + destruct E3 as [Z0|E3]; [|rewrite !pw16 in E3; exact E3].
      exfalso. pose proof (ibm_normal_range _ U N) as [N1 _]. rewrite Z0, Rabs_R0 in N1.
      match type of N1 with (pw ?k <= _)%R => pose proof (pw_pos k) end. lra.
  - ik 2 (sval (ord e) l).
  - ik 3 (sval (ord e) l).
  - (* single *) f_equal. unfold wr_f32.
    assert (d = f2d (uval (ord e) l)) as ->.
    { pose proof (f2d_widened _ U) as V. unfold widened in Y, V. rewrite K in Y, V.
      destruct (flt_finite _); [eapply signed_inj; eassumption|congruence]. }
    rewrite d2f_f2d by (exact U || exact K). replace 4%nat with (List.length l) by (unfold len in L; lia).
    apply wr_back; [exact B|]. apply unsigned_uval, B.
  - (* double *) f_equal. unfold wr_f64. subst d. replace 8%nat with (List.length l) by (unfold len in L; lia).
    apply wr_back; [exact B|]. apply unsigned_uval, B.
  - ik 7 (sval (ord e) l).
  - ik 8 (sval (ord e) l).
  - destruct K as (K1 & K2). rewrite rne64_int in Y by exact K1.
    ik 9 (sval (ord e) l).
  - ik 10 (uval (ord e) l).
  - ik 11 (uval (ord e) l).
  - rewrite rne64_int in Y by lia.
    ik 12 (uval (ord e) l).
  - ik 15 (uval (ord e) l).
  - ik 16 (uval (ord e) l).
Qed.
