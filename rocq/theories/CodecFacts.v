(** Facts about the raw codecs. *)
From Verif Require Import BaseFacts Platform SegyTypes SegyCodec CodecSpec BcdFacts.

Lemma le_enc_le_bytes n : forall v, le_enc n v = le_bytes n v.
Proof.
  unfold le_bytes. induction n as [|n IH]; intros v; [reflexivity|].
  cbn [le_enc seq map]. f_equal.
  - change (Z.of_nat 0) with 0. rewrite Z.pow_0_r, Z.div_1_r. reflexivity.
  - rewrite IH, <- seq_shift, map_map. apply map_ext. intros i.
    rewrite Nat2Z.inj_succ, Z.pow_succ_r by lia.
    rewrite Z.div_div; [reflexivity|lia|apply pow256_pos].
Qed.

Lemma as_unsigned_wrapu n v : as_unsigned n v = wrapu (8 * Z.of_nat n) v.
Proof. unfold as_unsigned, wrapu. rewrite pow256_2. reflexivity. Qed.

Lemma as_signed_wraps n v : (0 < n)%nat -> as_signed n v = wraps (8 * Z.of_nat n) v.
Proof.
  intros Hn. unfold as_signed, wraps. rewrite pow256_2.
  set (w := 8 * Z.of_nat n).
  assert (E : 2 ^ w = 2 * 2 ^ (w - 1)).
  { rewrite <- Z.pow_succ_r by lia. f_equal; lia. }
  rewrite E. destruct (Z.ltb_spec (2 * (v mod (2 * 2 ^ (w - 1)))) (2 * 2 ^ (w - 1))),
    (Z.ltb_spec (v mod (2 * 2 ^ (w - 1))) (2 ^ (w - 1))); lia.
Qed.

Lemma wr_length e n v : List.length (wr e n v) = n.
Proof. unfold wr. apply le_enc_length. Qed.

Lemma wr_bytes e n v : bytes (wr e n v).
Proof. unfold wr. apply le_enc_bytes. Qed.

Lemma le_enc_wrapu n v : le_enc n (wrapu (8 * Z.of_nat n) v) = le_enc n v.
Proof. unfold wrapu. rewrite <- pow256_2. apply le_enc_mod. Qed.

Lemma wr_native n v : wr Native n v = le_bytes n v.
Proof. unfold wr. rewrite le_enc_wrapu. apply le_enc_le_bytes. Qed.

Lemma wr_swapped n v : wr Swapped n v = be_bytes n v.
Proof.
  unfold wr, be_bytes. rewrite le_enc_swapb, le_enc_wrapu, le_enc_le_bytes. reflexivity.
Qed.

Lemma rd_u_wr e n v c : rd_u e n (wr e n v ++ c) = Ok (wrapu (8 * Z.of_nat n) v, c).
Proof.
  unfold rd_u. rewrite (pbind_ok _ _ _ _ _ (pread_app n (wr e n v) c (wr_length e n v))).
  unfold pret. f_equal. f_equal. unfold wr.
  pose proof (wrapu_bound (8 * Z.of_nat n) v ltac:(lia)) as Hb.
  rewrite <- pow256_2 in Hb.
  destruct e; rewrite le_dec_enc.
  - apply Z.mod_small; exact Hb.
  - rewrite (Z.mod_small (swapb _ _)) by apply swapb_bound.
    apply swapb_invol; exact Hb.
Qed.

Lemma rd_i_wr e n v c : rd_i e n (wr e n v ++ c) = Ok (wraps (8 * Z.of_nat n) v, c).
Proof.
  unfold rd_i. erewrite pmap_ok by apply rd_u_wr. rewrite wraps_wrapu. reflexivity.
Qed.

(** Readers on a long enough cursor never fail and consume exactly [n]. *)
Lemma rd_u_ok e n c : (n <= List.length c)%nat ->
  exists v, rd_u e n c = Ok (v, skipn n c).
Proof. intros H. unfold rd_u, pbind, pret. rewrite pread_ok by exact H. eauto. Qed.

Lemma rd_i_ok e n c : (n <= List.length c)%nat ->
  exists v, rd_i e n c = Ok (v, skipn n c).
Proof.
  intros H. destruct (rd_u_ok e n c H) as (v & E). unfold rd_i.
  erewrite pmap_ok by exact E. eauto.
Qed.

(** ** 24-bit *)

Lemma shr_le_bytes u : 0 <= u -> le_enc 2 u ++ le_enc 1 (Z.shiftr u 16) = le_enc 3 u.
Proof.
  intros Hu. rewrite Z.shiftr_div_pow2 by lia. change (2 ^ 16) with (256 * 256).
  rewrite <- Z.div_div by lia. reflexivity.
Qed.

Lemma le_enc_3_mod32 v : le_enc 3 (wrapu 32 v) = le_enc 3 v.
Proof.
  rewrite <- (le_enc_mod 3 (wrapu 32 v)), <- (le_enc_mod 3 v). f_equal.
  rewrite pow256_2. unfold wrapu. apply mod_mod_pow2. lia.
Qed.

Lemma wr24_native v : wr24 Native v = le_bytes 3 v.
Proof.
  unfold wr24. pose proof (wrapu_bound 32 v ltac:(lia)).
  rewrite shr_le_bytes by lia. rewrite le_enc_3_mod32. apply le_enc_le_bytes.
Qed.

Lemma wr24_swapped v : wr24 Swapped v = be_bytes 3 v.
Proof.
  unfold wr24. pose proof (wrapu_bound 32 v ltac:(lia)) as Hb.
  set (u := wrapu 32 v) in *.
  pose proof (swapb_bound 4 u) as Hs. change (256 ^ Z.of_nat 4) with (2 ^ 32) in Hs.
  rewrite shr_le_bytes by (apply Z.shiftr_nonneg; lia).
  unfold be_bytes. rewrite <- le_enc_le_bytes. rewrite <- (le_enc_3_mod32 v). fold u.
  assert (E : le_enc 4 (swapb 4 u) = rev (le_enc 4 u)) by apply le_enc_swapb.
  assert (E4 : le_enc 4 (swapb 4 u) = swapb 4 u mod 256 :: le_enc 3 (swapb 4 u / 256)) by reflexivity.
  rewrite Z.shiftr_div_pow2 by lia. change (2 ^ 8) with 256.
  rewrite E4 in E. apply (f_equal (@tl Z)) in E. cbn [tl] in E. rewrite E.
  cbn [le_enc rev app tl]. reflexivity.
Qed.

Lemma wr24_length e v : List.length (wr24 e v) = 3%nat.
Proof. destruct e; unfold wr24; rewrite app_length, !le_enc_length; reflexivity. Qed.

Lemma wr24_bytes e v : bytes (wr24 e v).
Proof. destruct e; unfold wr24; apply bytes_app; split; apply le_enc_bytes. Qed.

Lemma lor_shift a b k : 0 <= k -> 0 <= b < 2 ^ k -> Z.lor (Z.shiftl a k) b = a * 2 ^ k + b.
Proof.
  intros Hk Hb. apply Z.bits_inj'. intros i Hi.
  rewrite Z.lor_spec, Z.shiftl_spec, tb_split by lia.
  destruct (Z.ltb_spec i k).
  - rewrite Z.testbit_neg_r by lia. reflexivity.
  - assert (Z.testbit b i = false) as ->; [|apply orb_false_r].
    destruct (Z.eq_dec b 0) as [->|]; [apply Z.bits_0|].
    apply Z.bits_above_log2; [lia|]. apply Z.log2_lt_pow2; [lia|].
    eapply Z.lt_le_trans; [apply Hb|]. apply Z.pow_le_mono_r; lia.
Qed.

Lemma rd_u24_wr24 p e v c : p_left_first p = true ->
  rd_u24 p e (wr24 e v ++ c) = Ok (wrapu 24 v, c).
Proof.
  intros Hp. unfold rd_u24, rd_16_8. rewrite Hp.
  assert (Hu : forall x, 0 <= x mod 256 < 256) by (intros; apply Z.mod_pos_bound; lia).
  pose proof (Hu v) as H0. pose proof (Hu (v / 256)) as H1. pose proof (Hu (v / 256 / 256)) as H2.
  assert (E3 : wrapu 24 v = v mod 256 + 256 * ((v / 256) mod 256) + 65536 * ((v / 256 / 256) mod 256)).
  { unfold wrapu. change (2 ^ 24) with (256 ^ Z.of_nat 3). rewrite <- le_dec_enc.
    cbn [le_enc le_dec]. lia. }
  destruct e.
  - rewrite wr24_native, <- le_enc_le_bytes.
    change (le_enc 3 v) with (le_enc 2 v ++ [(v / 256 / 256) mod 256]).
    rewrite <- app_assoc.
    unfold pbind at 1 2. rewrite pread_app by reflexivity. 
    unfold pbind. rewrite pread_app by reflexivity. unfold pret.
    f_equal. f_equal. cbn [le_enc le_dec].
    rewrite Z.lor_comm, lor_shift by (change (2 ^ 16) with 65536; lia).
    change (2 ^ 16) with 65536. lia.
  - rewrite wr24_swapped. unfold be_bytes. rewrite <- le_enc_le_bytes.
    change (rev (le_enc 3 v)) with (([(v / 256 / 256) mod 256; (v / 256) mod 256]) ++ [v mod 256]).
    rewrite <- app_assoc.
    unfold pbind at 1 2. rewrite pread_app by reflexivity.
    unfold pbind. rewrite pread_app by reflexivity. unfold pret.
    f_equal. f_equal.
    rewrite lor_shift by (cbn [le_dec]; change (2 ^ 8) with 256; lia).
    change (2 ^ 8) with 256. unfold swapb. cbn [le_dec].
    set (a := (v / 256 / 256) mod 256) in *. set (b := (v / 256) mod 256) in *.
    assert (Ee : le_enc 2 (a + 256 * (b + 256 * 0)) = [a; b]).
    { apply (le_enc_dec [a; b]).
      constructor; [exact H2|constructor; [exact H1|constructor]]. }
    rewrite Ee. cbn [rev app le_dec]. lia.
Qed.

Lemma sign_ext24 u : 0 <= u < 2 ^ 24 ->
  wraps 32 (if Z.testbit u 23 then Z.lor u 4278190080 else u) = wraps 24 u.
Proof.
  intros Hu.
  assert (E23 : Z.testbit u 23 = (2 ^ 23 <=? u)).
  { rewrite Z.testbit_eqb by lia. change (2 ^ 24) with (2 * 2 ^ 23) in Hu.
    destruct (Z.leb_spec (2 ^ 23) u).
    - assert (u / 2 ^ 23 = 1) as ->; [|reflexivity].
      symmetry. apply Z.div_unique with (r := u - 2 ^ 23); lia.
    - rewrite Z.div_small by lia. reflexivity. }
  rewrite E23. unfold wraps. rewrite (Z.mod_small u) by lia.
  change (24 - 1) with 23. change (32 - 1) with 31.
  destruct (Z.leb_spec (2 ^ 23) u) as [H|H].
  - change 4278190080 with (Z.shiftl 255 24). rewrite Z.lor_comm, lor_shift by lia.
    rewrite Z.mod_small by (change (2 ^ 24) with 16777216 in *; change (2 ^ 32) with 4294967296; lia).
    destruct (Z.ltb_spec (255 * 2 ^ 24 + u) (2 ^ 31)), (Z.ltb_spec u (2 ^ 23)); try lia.
  - rewrite Z.mod_small by lia.
    destruct (Z.ltb_spec u (2 ^ 31)), (Z.ltb_spec u (2 ^ 23)); lia.
Qed.

Lemma rd_i24_wr24 p e v c : p_left_first p = true ->
  rd_i24 p e (wr24 e v ++ c) = Ok (wraps 24 v, c).
Proof.
  intros Hp. unfold rd_i24. erewrite pbind_ok by (apply rd_u24_wr24; exact Hp).
  unfold pret. rewrite sign_ext24 by (apply wrapu_bound; lia).
  rewrite wraps_wrapu. reflexivity.
Qed.

Lemma rd_u24_ok p e c : (3 <= List.length c)%nat ->
  exists v, rd_u24 p e c = Ok (v, skipn 3 c).
Proof.
  intros H. unfold rd_u24, rd_16_8.
  destruct (p_left_first p); unfold pbind, pret.
  - rewrite pread_ok by lia. rewrite pread_ok by (rewrite skipn_length; lia).
    rewrite skipn_skipn'. eauto.
  - rewrite pread_ok by lia. rewrite pread_ok by (rewrite skipn_length; lia).
    rewrite skipn_skipn'. eauto.
Qed.

Lemma rd_i24_ok p e c : (3 <= List.length c)%nat ->
  exists v, rd_i24 p e c = Ok (v, skipn 3 c).
Proof.
  intros H. destruct (rd_u24_ok p e c H) as (v & E). unfold rd_i24.
  erewrite pbind_ok by exact E. unfold pret. eauto.
Qed.

(** ** Markers *)
Lemma endian_of_order m e : endian_of m = Ok e ->
  (e = Native /\ m = 16909060) \/ (e = Swapped /\ (m = 0 \/ m = 67305985)).
Proof.
  unfold endian_of. destruct (Z.eqb_spec m 16909060).
  - intros H; injection H as <-. auto.
  - destruct ((m =? 0) || (m =? 67305985)) eqn:E; [|discriminate].
    intros H; injection H as <-. right. split; [reflexivity|lia].
Qed.
