(** What is in the sample areas of the records, for C21. *)
From Verif Require Import BaseFacts Platform Fp TraceHdr SegyTypes SegyCodec CodecFacts SampleFacts
     HdrFacts ISegy OSegy OpenFacts CodecSpec LayoutSpec LayoutFacts BinFacts WriterFacts RoundSpec ReaderFacts
     RoundFacts FileSpec FileFacts.

Lemma over_ext prev prev' own a : (forall i, nth i prev 0 = nth i prev' 0) -> over prev own a = over prev' own a.
Proof. intros H. apply map_ext. intros i. rewrite H. reflexivity. Qed.

Lemma len_over prev own a : 0 <= a -> len (over prev own a) = a.
Proof. intros H. unfold len, over. rewrite map_length, seq_length. lia. Qed.

Lemma nth_over prev own a i : (i < Z.to_nat a)%nat -> nth i (over prev own a) 0 = nth i own (nth i prev 0).
Proof.
  intros H. unfold over. set (f := fun i => nth i own (nth i prev 0)).
  rewrite (nth_indep _ 0 (f 0%nat)) by (rewrite map_length, seq_length; exact H).
  rewrite map_nth, seq_nth by exact H. reflexivity.
Qed.

Lemma nth_resized n (b : list Z) i : (i < n)%nat ->
  nth i (firstn n b ++ repeat 0 (n - List.length b)) 0 = nth i b 0.
Proof.
  intros H. destruct (Nat.lt_ge_cases i (List.length b)) as [K|K].
  - rewrite app_nth1 by (rewrite firstn_length; lia). rewrite <- (firstn_skipn n b) at 2.
    rewrite app_nth1; [reflexivity|rewrite firstn_length; lia].
  - rewrite app_nth2 by (rewrite firstn_length; lia). rewrite (nth_overflow b) by lia. apply nth_repeat.
Qed.

Lemma resize_buf_nth p n b sb : resize_buf p n b = Ok sb -> forall i, Z.of_nat i < len sb -> nth i sb 0 = nth i b 0.
Proof.
  intros H i Hi. pose proof (proj1 (resize_buf_inv _ _ _ _ H)) as L.
  unfold resize_buf in H. apply bind_ok in H as (sz & E & H). injection H as <-.
  unfold resize_to in E. cbv zeta in E. destruct (_ <=? _); [|discriminate]. injection E as <-.
  rewrite L in Hi. apply nth_resized. lia.
Qed.

(** One record. *)
Lemma stored_area p s sb t r smp : stored p s sb t r smp ->
  exists smps, Forall2 (sample_as p (o_endian s) (bh_format_code (o_bh s))) (t_smp t) smps /\
    smp = over sb (concat smps) (len smp) /\ skipn (Z.to_nat (240 * Z.of_nat (S (add_count s)))) r = smp.
Proof.
  intros (hb & ab & -> & L1 & L2 & Hm & sb1 & Hv & Hf).
  apply fill_samples_inv in Hf as (w & encs & W & E & Sm & Lsm & Lc).
  exists encs. split; [|split].
  - apply mapM_ok in E. clear - E W. induction E; constructor; auto. exists w. auto.
  - assert (Nb : forall i, Z.of_nat i < len sb1 -> nth i sb1 0 = nth i sb 0).
    { destruct (o_var s); [|subst; reflexivity]. unfold var_buf in Hv.
      apply bind_ok in Hv as (v & _ & Hv). apply bind_ok in Hv as (n & _ & Hv). apply bind_ok in Hv as (q & _ & Hv).
      cbv zeta in Hv. destruct (_ =? _); [injection Hv as <-; reflexivity|].
      intros i Hi. exact (resize_buf_nth _ _ _ _ Hv i Hi). }
    apply (nth_ext _ _ 0 0).
    { pose proof (len_over sb (concat encs) (len smp) (len_nonneg _)) as K. unfold len in K |- *. lia. }
    intros i Hi. rewrite nth_over by (unfold len; lia).
    assert (Hi1 : Z.of_nat i < len sb1) by (unfold len in *; lia).
    rewrite <- (Nb i Hi1), Sm. destruct (Nat.lt_ge_cases i (List.length (concat encs))) as [K|K].
    + rewrite app_nth1 by exact K. apply nth_indep. exact K.
    + rewrite app_nth2 by exact K. rewrite (nth_overflow (concat encs)) by exact K.
      rewrite <- (firstn_skipn (List.length (concat encs)) sb1) at 2.
      rewrite app_nth2; rewrite firstn_length_le; unfold len in *; lia || reflexivity.
  - rewrite app_assoc. replace (Z.to_nat _) with (List.length (hb ++ ab)) by (rewrite app_length; unfold len in *; lia).
    rewrite skipn_app, skipn_all, Nat.sub_diag. reflexivity.
Qed.

Lemma areas_ext p e fmt size ts : forall prev prev' xs, (forall i, nth i prev 0 = nth i prev' 0) ->
  areas p e fmt size prev ts xs -> areas p e fmt size prev' ts xs.
Proof.
  intros prev prev' xs H A. inversion A; subst; [constructor|].
  rewrite (over_ext prev prev' (concat smps) (size t) H) in *. constructor; assumption.
Qed.

Lemma stored_all_areas p s size : o_good p s -> safe_layouts (o_maps s) -> p_max_alloc p < 2 ^ 63 ->
  forall ts sb recs, len sb <= p_max_alloc p -> stored_all p s sb ts recs ->
  (forall t, (if o_var s then forall n, hget (t_hdr t) "SAMP_NUM" = Some (VInt n) -> size t = n * o_bps s
              else size t = len sb)) ->
  areas p (o_endian s) (bh_format_code (o_bh s)) size sb ts
    (map (fun r => skipn (Z.to_nat (240 * Z.of_nat (S (add_count s)))) r) recs).
Proof.
  intros G HS HA. induction ts as [|t ts IH]; intros sb recs Ls H Sz; destruct recs as [|r recs]; try contradiction.
  - constructor.
  - destruct H as (smp & S & H). destruct (stored_record _ _ _ _ _ _ G HS HA Ls S) as (_ & K & L).
    destruct (stored_area _ _ _ _ _ _ S) as (smps & F & E & Sk). cbn [map]. rewrite Sk.
    assert (Q : size t = len smp).
    { specialize (Sz t). destruct (o_var s); [|congruence]. destruct K as (n & Hn & ->). exact (Sz n Hn). }
    rewrite <- Q in E. rewrite E. constructor; [exact F|]. rewrite <- E. apply IH; [exact L|exact H|].
    intros t'. specialize (Sz t'). destruct (o_var s); [exact Sz|congruence].
Qed.

Lemma file_areas p w bh ls ts s s' : sane_alloc p -> safe_layouts ls -> len (given_texts w) <= 65536 ->
  w_open p w bh ls = Ok s -> write_traces p s ts = Ok s' ->
  let size := sample_area (own_count w bh) (bh_samp_per_tr (o_bh s') mod 2 ^ 16) (bh_format_code (o_bh s')) in
  exists pre recs,
    fdata (o_file s') = pre ++ concat recs /\ len pre = 3600 + 3200 * len (ext_texts w) /\
    Forall2 (fun t r => len r = 240 * header_count w bh + size t) ts recs /\
    areas p (o_endian s) (bh_format_code (o_bh s')) size [] ts
      (map (fun r => skipn (Z.to_nat (240 * header_count w bh)) r) recs).
Proof.
  intros HA HS Ln Ho Hw size. destruct (w_open_inv _ _ _ _ _ Ho Ln) as (G & Ck & t0 & tr & b & Rd & Et & F3 & Tx & Eb & Em & Ea & Ax & Sx & Ev & Md).
  destruct (write_all p s _ _ _ _ _ Rd Hw) as (s1 & recs & C1 & C & B & A & SA & D).
  pose proof (good_bps _ _ G) as Bp. pose proof HA as [HA1 HA2].
  assert (G1 : o_good p s1 /\ bh_max_num_add_tr_headers (o_bh s1) = bh_max_num_add_tr_headers bh /\
     len (o_sbuf s1) <= p_max_alloc p /\ (forall i, nth i (o_sbuf s1) 0 = 0) /\
     (ts <> [] -> o_var s = false -> len (o_sbuf s1) = bh_samp_per_tr (o_bh s1) mod 2 ^ 16 * o_bps s)).
  { assert (Zr : forall n sb0, resize_buf p n [] = Ok sb0 -> forall i, nth i sb0 0 = 0).
    { intros n sb0 R i. destruct (Z.lt_ge_cases (Z.of_nat i) (len sb0)) as [K|K].
      - rewrite (resize_buf_nth _ _ _ _ R i K). destruct i; reflexivity.
      - apply nth_overflow. unfold len in K. lia. }
    destruct D as [(Mo & -> & _)|(t1 & ts1 & Mo & Ets & Cm & _)].
    - split; [exact G|]. split; [exact Ax|].
      destruct Md as [(M1 & M2)|[(M1 & M2 & M3)|(M1 & M2 & M3)]].
      + rewrite M2. change (len []) with 0. split; [clear - HA1; lia|]. split; [intros [|i]; reflexivity|].
        intros K. destruct Mo; contradiction.
      + split; [apply resize_buf_inv in M3 as [K1 K2]; congruence|]. split; [exact (Zr _ _ M3)|].
        apply resize_buf_inv in M3 as [K1 K2]. intros _ _. rewrite K1, Sx.
        pose proof (wrapu_bound 16 (bh_samp_per_tr bh) ltac:(lia)). apply wrapu_small. clear - H Bp. unfold wrapu in *. nia.
      + rewrite M3. change (len []) with 0. split; [clear - HA1; lia|]. split; [intros [|i]; reflexivity|]. congruence.
    - pose proof Cm as (n & si & _ & _ & _ & E1 & _ & R).
      split; [eapply good_min; eassumption|]. split; [rewrite E1; exact Ax|].
      destruct (completed_buf p s _ _ _ HA (proj1 Bp) Cm) as [K1 K2]. split; [exact K2|]. split; [|auto].
      destruct Md as [(M1 & M2)|[(M1 & M2 & M3)|(M1 & M2 & M3)]]; try contradiction.
      rewrite M2 in R. exact (Zr _ _ R). }
  destruct G1 as (G1 & Ax1 & Lsb & Zsb & Dsb).
  pose proof C1 as (C11 & _ & _ & C14 & C15 & _ & _ & C18 & C19).
  assert (HS1 : safe_layouts (o_maps s1)) by (rewrite C11, Em; exact HS).
  assert (Wd : o_bps s = sample_width (bh_format_code (o_bh s'))).
  { rewrite B. destruct G1 as ((wr & W) & Bps & _). rewrite <- C15. apply width_bps; [exact Bps|]. eapply writer_fmt; exact W. }
  assert (Hc : Z.of_nat (S (add_count s1)) = header_count w bh).
  { unfold add_count, header_count. rewrite C18, Ea, Ax1. destruct w; try reflexivity.
    destruct (Z.eqb_spec (bh_max_num_add_tr_headers bh) 0) as [E|E]; cbn [negb]; lia. }
  assert (Sz : ts <> [] -> forall t, if o_var s1 then forall n, hget (t_hdr t) "SAMP_NUM" = Some (VInt n) -> size t = n * o_bps s1
              else size t = len (o_sbuf s1)).
  { intros N t. unfold size, sample_area. rewrite C19, Ev, C15, <- Wd. destruct (own_count w bh) eqn:Ow.
    - intros n Hn. unfold given. rewrite Hn. reflexivity.
    - rewrite (Dsb N Ev), B. reflexivity. }
  assert (AR : areas p (o_endian s) (bh_format_code (o_bh s')) size [] ts
      (map (fun r => skipn (Z.to_nat (240 * header_count w bh)) r) recs)).
  { destruct ts as [|t ts]; [destruct recs; [constructor|contradiction]|].
    apply areas_ext with (prev := o_sbuf s1); [intros i; rewrite Zsb; destruct i; reflexivity|].
    rewrite <- Hc, B, <- C14. apply stored_all_areas; auto. apply Sz. discriminate. }
  assert (LR : Forall2 (fun t r => len r = 240 * header_count w bh + size t) ts recs).
  { destruct ts as [|t ts]; [destruct recs; [constructor|contradiction]|].
    eapply Forall2_weaken; [|exact (stored_all_records p s1 G1 HS1 HA2 _ _ _ Lsb SA)].
    intros t' r (area & R & K). rewrite Hc in R. rewrite (is_record_len _ _ _ _ _ _ _ _ R). f_equal.
    specialize (Sz ltac:(discriminate) t'). destruct (o_var s1); [|congruence]. destruct K as (n & Hn & ->).
    symmetry. exact (Sz n Hn). }
  assert (L3 : len (concat tr) = 3200 * len tr) by (apply concat_len_3200; exact F3).
  destruct Rd as (_ & Lt & _ & _ & Mn). subst tr.
  destruct D as [(Mo & -> & D)|(t1 & ts1 & Mo & Ets & Cm & D)].
  - exists (first_text t0 ++ bin_block (o_endian s) b ++ concat (ext_texts w)), recs.
    rewrite D, !len_app, len_bin_block, Lt, L3, <- !app_assoc. repeat split; try assumption. lia.
  - rewrite (Mn Mo) in *. exists (first_text t0 ++ bin_block (o_endian s) (o_bh s1)), recs.
    rewrite D, !len_app, len_bin_block, Lt, <- !app_assoc. change (len []) with 0 in L3. repeat split; try assumption. lia.
Qed.
