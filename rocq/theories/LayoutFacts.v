(** Lemmas about trace header layouts and header blocks (C11-C14). *)
From Verif Require Import BaseFacts Platform Fp TraceHdr SegyTypes SegyCodec CodecSpec CodecFacts
     HdrFacts SampleFacts ISegy OSegy LayoutSpec.

Lemma vsize_width t : vsize t = width t.
Proof. destruct t; reflexivity. Qed.
Lemma width_pos t : 1 <= width t <= 8.
Proof. destruct t; cbn; lia. Qed.

(** ** The check *)
Definition no_wrap (l : layout) : Prop := forall en, In en l -> e_off en + width (e_type en) < 2 ^ 32.

Lemma keys_sorted_inv e l : keys_sorted (e :: l) = true ->
  0 <= e_off e < 2 ^ 32 /\ keys_sorted l = true /\ forall e', In e' l -> e_off e < e_off e'.
Proof.
  revert e. induction l as [|a l IH]; intros e H.
  - cbn [keys_sorted] in H. unfold in_u in H. split; [lia|]. split; [reflexivity|]. intros ? [].
  - assert (H2 : keys_sorted (a :: l) = true /\ e_off e < e_off a /\ in_u 32 (e_off e) = true).
    { change (keys_sorted (e :: a :: l)) with (in_u 32 (e_off e) && (e_off e <? e_off a) && keys_sorted (a :: l)) in H.
      lia. }
    destruct H2 as (H2 & Ha & Hu). unfold in_u in Hu. split; [lia|]. split; [exact H2|].
    destruct (IH a H2) as (_ & _ & K). intros e' [<-|Hin]; [lia|]. specialize (K e' Hin). lia.
Qed.

Lemma check_rest_ok prev l : keys_sorted (prev :: l) = true -> no_wrap (prev :: l) ->
  (check_rest (e_off prev) (vsize (e_type prev)) l = Ok tt <->
   (forall en, In en l -> e_off en + width (e_type en) <= 240) /\
   ForallOrdPairs (fun a b => e_off a + width (e_type a) <= e_off b) (prev :: l)).
Proof.
  revert prev. induction l as [|a l IH]; intros prev Hs Hn.
  - cbn [check_rest]. split; [|reflexivity]. intros _. split; [intros ? []|].
    constructor; constructor.
  - destruct (keys_sorted_inv _ _ Hs) as (B & Hs' & K).
    destruct (keys_sorted_inv _ _ Hs') as (B' & _ & K').
    assert (Ka := K a (or_introl eq_refl)). assert (Na := Hn a (or_intror (or_introl eq_refl))).
    cbn [check_rest]. rewrite (vsize_width (e_type prev)), (vsize_width (e_type a)).
    pose proof (width_pos (e_type a)).
    rewrite (wrapu_small 32 (e_off a - e_off prev)) by lia.
    rewrite (wrapu_small 32 (e_off a + width (e_type a))) by lia.
    assert (IH' := IH a Hs' (fun en H => Hn en (or_intror H))). rewrite vsize_width in IH'.
    destruct (Z.ltb_spec (e_off a - e_off prev) (width (e_type prev))) as [L|L].
    { split; [discriminate|]. intros [_ F]. inversion F; subst. rewrite Forall_forall in H2.
      specialize (H2 a (or_introl eq_refl)). cbv beta in H2. lia. }
    destruct (Z.ltb_spec 240 (e_off a + width (e_type a))) as [L2|L2].
    { split; [discriminate|]. intros [F _]. specialize (F a (or_introl eq_refl)). lia. }
    rewrite IH'. split.
    + intros [F1 F2]. split.
      * intros en [<-|Hin]; [exact L2|apply F1, Hin].
      * constructor; [|exact F2]. rewrite Forall_forall. intros en Hin.
        destruct Hin as [<-|Hin]; [lia|]. specialize (K' en Hin). lia.
    + intros [F1 F2]. split; [intros en Hin; apply F1; right; exact Hin|]. inversion F2; assumption.
Qed.

Lemma FOP_nth {A} (R : A -> A -> Prop) l : ForallOrdPairs R l ->
  forall i j a b, nth_error l i = Some a -> nth_error l j = Some b -> (i < j)%nat -> R a b.
Proof.
  induction 1 as [|x l F _ IH]; intros i j a b Hi Hj L.
  - destruct i; discriminate.
  - destruct j as [|j]; [lia|]. cbn [nth_error] in Hj. destruct i as [|i].
    + injection Hi as <-. rewrite Forall_forall in F. apply F. eapply nth_error_In; exact Hj.
    + cbn [nth_error] in Hi. apply (IH i j); auto. lia.
Qed.

Lemma FOP_of_nth {A} (R : A -> A -> Prop) l :
  (forall i j a b, nth_error l i = Some a -> nth_error l j = Some b -> (i < j)%nat -> R a b) ->
  ForallOrdPairs R l.
Proof.
  induction l as [|x l IH]; intros H; constructor.
  - rewrite Forall_forall. intros y Hy. apply In_nth_error in Hy as (j & Hj).
    apply (H 0%nat (S j)); [reflexivity|exact Hj|lia].
  - apply IH. intros i j a b Hi Hj L. apply (H (S i) (S j)); auto. lia.
Qed.

Lemma safe_ord l : safe_layout l <->
  (forall en, In en l -> inside en) /\ ForallOrdPairs apart l.
Proof.
  unfold safe_layout. split; intros [H1 H2]; split; try exact H1.
  - apply FOP_of_nth. intros i j a b Hi Hj L. apply (H2 i j); auto. lia.
  - intros i j a b Hi Hj N. destruct (Nat.lt_total i j) as [L|[L|L]]; [|contradiction|].
    + exact (FOP_nth _ _ H2 i j a b Hi Hj L).
    + assert (K := FOP_nth _ _ H2 j i b a Hj Hi L). unfold apart in *. tauto.
Qed.

Lemma FOP_weaken {A} (R S : A -> A -> Prop) l : (forall a b, R a b -> S a b) ->
  ForallOrdPairs R l -> ForallOrdPairs S l.
Proof.
  intros W. induction 1 as [|x l F _ IH]; constructor; auto.
  eapply Forall_impl; [|exact F]. intros y. apply W.
Qed.

Lemma sorted_apart l : keys_sorted l = true -> ForallOrdPairs apart l ->
  ForallOrdPairs (fun a b => e_off a + width (e_type a) <= e_off b) l.
Proof.
  induction l as [|x l IH]; intros Hs F; constructor.
  - inversion F; subst. destruct (keys_sorted_inv _ _ Hs) as (_ & _ & K).
    rewrite Forall_forall in *. intros y Hy. specialize (H1 y Hy). specialize (K y Hy).
    pose proof (width_pos (e_type y)). unfold apart in H1. lia.
  - inversion F; subst. apply IH; auto. apply keys_sorted_inv in Hs. tauto.
Qed.

Definition first_inside (l : layout) : Prop :=
  match l with [] => True | en :: _ => e_off en + width (e_type en) <= 240 end.

Lemma check_layout_safe n l : keys_sorted l = true -> no_wrap l -> first_inside l ->
  (check_layout (n, l) = Ok tt <-> String.length n = 8%nat /\ safe_layout l).
Proof.
  intros Hs Hn Hf. unfold check_layout. cbn [fst snd].
  destruct (Nat.eqb_spec (String.length n) 8) as [E|E]; cbn [negb]; [|split; [discriminate|intros [? _]; contradiction]].
  destruct l as [|en l].
  - split; [|reflexivity]. intros _. split; [exact E|]. apply safe_ord. split; [intros ? []|constructor].
  - rewrite (check_rest_ok en l Hs Hn). rewrite safe_ord. cbn [first_inside] in Hf.
    assert (Hpos : forall e, In e (en :: l) -> 0 <= e_off e).
    { destruct (keys_sorted_inv _ _ Hs) as (B & _ & K). intros e [<-|Hin]; [lia|]. specialize (K e Hin). lia. }
    split.
    + intros [F1 F2]. split; [exact E|]. split.
      * intros e Hin. split; [apply Hpos, Hin|]. destruct Hin as [<-|Hin]; [exact Hf|apply F1, Hin].
      * eapply FOP_weaken; [|exact F2]. unfold apart. auto.
    + intros (_ & F1 & F2). split; [intros e Hin; apply F1; right; exact Hin|].
      apply sorted_apart; assumption.
Qed.

Lemma safe_no_wrap l : safe_layout l -> no_wrap l.
Proof. intros [H _] en Hin. destruct (H en Hin). lia. Qed.
Lemma safe_first l : safe_layout l -> first_inside l.
Proof. intros [H _]. destruct l as [|en l]; [exact I|]. apply (H en). left; reflexivity. Qed.

Definition count_ok (b : bin_hdr) (ls : layouts) : Prop :=
  bh_SEGY_rev_major_ver b <= 1 \/ bh_max_num_add_tr_headers b = 0 \/
  bh_max_num_add_tr_headers b = len ls - 1.

Lemma mapM_unit {A} (f : A -> outcome unit) l : is_ok (mapM f l) = true <-> (forall a, In a l -> f a = Ok tt).
Proof.
  induction l as [|a l IH]; cbn [mapM].
  - split; [intros _ ? []|reflexivity].
  - split.
    + destruct (f a) as [[]| |] eqn:E; cbn [bind]; try discriminate.
      destruct (mapM f l) as [bs| |]; cbn [bind]; try discriminate. intros _ x [<-|Hin]; [exact E|].
      apply IH; [reflexivity|exact Hin].
    + intros H. rewrite (H a (or_introl eq_refl)). cbn [bind].
      assert (K : is_ok (mapM f l) = true) by (apply IH; intros; apply H; right; assumption).
      destruct (mapM f l); cbn [is_ok bind] in *; congruence.
Qed.

Lemma check_map_ok b ls : check_tr_hdr_map b ls = Ok tt -> forall nl, In nl ls -> check_layout nl = Ok tt.
Proof.
  unfold check_tr_hdr_map. destruct (_ && _); [discriminate|]. intros H.
  apply bind_ok in H as (u & H & _). apply mapM_unit. rewrite H. reflexivity.
Qed.

Lemma check_map_intro b ls : count_ok b ls -> (forall nl, In nl ls -> check_layout nl = Ok tt) ->
  check_tr_hdr_map b ls = Ok tt.
Proof.
  intros C H. unfold check_tr_hdr_map.
  assert (E : (1 <? bh_SEGY_rev_major_ver b) && negb (bh_max_num_add_tr_headers b =? 0)
     && negb (wrapu 64 (len ls - 1) =? wrapu 64 (bh_max_num_add_tr_headers b)) = false).
  { unfold count_ok in C. destruct C as [C|[C|C]]; [lia|lia|]. rewrite C, Z.eqb_refl. lia. }
  rewrite E. apply (proj2 (mapM_unit check_layout ls)) in H. destruct (mapM check_layout ls); cbn in *; congruence.
Qed.

(** ** Header blocks *)
Lemma wr_ibm_length p e v b : wr_ibm p e v = Ok b -> List.length b = 4%nat /\ bytes b.
Proof.
  unfold wr_ibm. intros H. apply bind_ok in H as (w & _ & H). injection H as <-.
  split; [apply wr_length|apply wr_bytes].
Qed.

Lemma wr_field_length p e t ov d : wr_field p e t ov = Ok d -> len d = width t /\ bytes d.
Proof.
  unfold wr_field. intros H. apply bind_ok in H as (v & _ & H).
  destruct t; try (injection H as <-; unfold len, wr_f32, wr_f64;
    first [rewrite wr_length; split; [reflexivity|apply wr_bytes]
          |rewrite wr24_length; split; [reflexivity|apply wr24_bytes]]).
  apply wr_ibm_length in H as [H1 H2]. unfold len. rewrite H1. split; [reflexivity|exact H2].
Qed.

Lemma nth_error_nat_some {A} (l : list A) i : (i < List.length l)%nat <-> nth_error l i <> None.
Proof. symmetry. apply nth_error_Some. Qed.

Lemma upd_nth buf off d buf' i : upd buf off d = Ok buf' ->
  nth_error buf' i = if (off <=? Z.of_nat i) && (Z.of_nat i <? off + len d)
                     then nth_error d (i - Z.to_nat off) else nth_error buf i.
Proof.
  unfold upd. destruct (_ && _) eqn:E; [|discriminate]. intros H; injection H as <-.
  apply andb_true_iff in E as [E1 E2]. apply Z.leb_le in E1, E2. unfold len in *.
  set (o := Z.to_nat off). assert (Ho : off = Z.of_nat o) by lia. clearbody o. subst off.
  assert (L1 : List.length (firstn o buf) = o) by (rewrite firstn_length; lia).
  destruct (Nat.lt_ge_cases i o) as [L|L].
  - rewrite nth_error_app1 by lia. rewrite nth_error_firstn'.
    replace (Nat.ltb i o) with true by (symmetry; apply Nat.ltb_lt; lia).
    replace (Z.of_nat o <=? Z.of_nat i) with false by lia. reflexivity.
  - replace (Z.of_nat o <=? Z.of_nat i) with true by lia. cbn [andb].
    rewrite nth_error_app2 by lia. rewrite L1.
    destruct (Z.ltb_spec (Z.of_nat i) (Z.of_nat o + Z.of_nat (List.length d))) as [L2|L2].
    + rewrite nth_error_app1 by lia. f_equal. 
    + rewrite nth_error_app2 by lia. rewrite nth_error_skipn'. f_equal. lia.
Qed.

Lemma nth_error_ext {A} (a b : list A) : (forall i, nth_error a i = nth_error b i) -> a = b.
Proof.
  revert b. induction a as [|x a IH]; intros [|y b] H; auto.
  - specialize (H 0%nat). discriminate.
  - specialize (H 0%nat). discriminate.
  - f_equal.
    + specialize (H 0%nat). cbn in H. congruence.
    + apply IH. intros i. exact (H (S i)).
Qed.

Lemma upd_slice_other buf off d buf' o n : upd buf off d = Ok buf' ->
  0 <= o -> (o + n <= off \/ off + len d <= o) -> slice o n buf' = slice o n buf.
Proof.
  intros H Ho Hd. apply nth_error_ext. intros i. rewrite !nth_error_slice.
  destruct (Nat.ltb_spec i (Z.to_nat n)) as [L|L]; [|reflexivity].
  rewrite (upd_nth _ _ _ _ _ H).
  replace ((off <=? Z.of_nat (Z.to_nat o + i)) && (Z.of_nat (Z.to_nat o + i) <? off + len d)) with false by lia.
  reflexivity.
Qed.

Lemma upd_bytes buf off d buf' : upd buf off d = Ok buf' -> bytes buf -> bytes d -> bytes buf'.
Proof.
  unfold upd. destruct (_ && _); [|discriminate]. intros H; injection H as <-. intros Hb Hd.
  apply bytes_app. split; [|apply bytes_app; split; [exact Hd|]].
  - unfold bytes in *. rewrite Forall_forall in *. intros x Hx. apply Hb. rewrite <- (firstn_skipn (Z.to_nat off) buf), in_app_iff. left; exact Hx.
  - unfold bytes in *. rewrite Forall_forall in *. intros x Hx. apply Hb. rewrite <- (firstn_skipn (Z.to_nat (off + len d)) buf), in_app_iff. right; exact Hx.
Qed.

Lemma wr_fields_spec p e h l : (forall en, In en l -> inside en) -> ForallOrdPairs apart l ->
  forall blk blk', wr_fields p e l h blk = Ok blk' ->
  len blk' = len blk /\ (bytes blk -> bytes blk') /\
  (forall en, In en l -> wr_field p e (e_type en) (hget h (e_name en))
                          = Ok (slice (e_off en) (width (e_type en)) blk')) /\
  (forall o n, 0 <= o -> (forall en, In en l -> o + n <= e_off en \/ e_off en + width (e_type en) <= o) ->
     slice o n blk' = slice o n blk).
Proof.
  induction l as [|a l IH]; intros Hin Hap blk blk' H; cbn [wr_fields] in H.
  - injection H as <-. repeat split; auto. intros ? [].
  - apply bind_ok in H as (d & Ed & H). apply bind_ok in H as (blk1 & Eu & H).
    inversion Hap as [|x l0 Ha Hap']; subst. rewrite Forall_forall in Ha.
    destruct (IH (fun en K => Hin en (or_intror K)) Hap' _ _ H) as (L & B & S & O).
    destruct (wr_field_length _ _ _ _ _ Ed) as [Ld Bd].
    assert (L1 := upd_length _ _ _ _ Eu).
    destruct (Hin a (or_introl eq_refl)) as [I1 I2].
    repeat split.
    + lia.
    + intros Hb. apply B. eapply upd_bytes; eauto.
    + intros en [<-|K].
      * rewrite (O (e_off a) (width (e_type a)) I1).
        -- rewrite <- Ld, (upd_slice_same _ _ _ _ Eu). exact Ed.
        -- intros en K. specialize (Ha en K). unfold apart in Ha. lia.
      * apply S, K.
    + intros o n Ho K. rewrite (O o n Ho) by (intros en Kn; apply K; right; exact Kn).
      apply (upd_slice_other _ _ _ _ _ _ Eu Ho). rewrite Ld.
      specialize (K a (or_introl eq_refl)). lia.
Qed.

Lemma wr_fields_ok p e h l : (forall en, In en l -> inside en) ->
  (forall en, In en l -> is_ok (wr_field p e (e_type en) (hget h (e_name en))) = true) ->
  forall blk, len blk = 240 -> is_ok (wr_fields p e l h blk) = true.
Proof.
  induction l as [|a l IH]; intros Hin Hok blk L; cbn [wr_fields]; [reflexivity|].
  assert (Ka := Hok a (or_introl eq_refl)).
  destruct (wr_field p e (e_type a) (hget h (e_name a))) as [d| |] eqn:Ed; try discriminate. cbn [bind].
  destruct (wr_field_length _ _ _ _ _ Ed) as [Ld _]. destruct (Hin a (or_introl eq_refl)) as [I1 I2].
  destruct (upd blk (e_off a) d) as [b1| |] eqn:Eu.
  - cbn [bind]. apply IH.
    + intros en K; apply Hin; right; exact K.
    + intros en K; apply Hok; right; exact K.
    + rewrite (upd_length _ _ _ _ Eu). exact L.
  - rewrite upd_ok in Eu by lia. discriminate.
  - rewrite upd_ok in Eu by lia. discriminate.
Qed.

(** ** Reading fields *)
Definition fval (p : platform) (e : endian) (t : vtype) (d : list Z) : value :=
  match rd_field p e t d with Ok (v, _) => v | _ => VInt 0 end.

(** A reader that looks at [n] bytes only. *)
Definition prefix_reader {A} (r : P A) (n : nat) : Prop :=
  forall d, List.length d = n -> exists v, forall c, r (d ++ c) = Ok (v, c).

Lemma pread_prefix n : prefix_reader (pread n) n.
Proof. intros d L. exists (le_dec d). intros c. apply pread_app, L. Qed.
Lemma pmap_prefix {A B} (f : A -> B) r n : prefix_reader r n -> prefix_reader (pmap f r) n.
Proof. intros H d L. destruct (H d L) as (v & K). exists (f v). intros c. apply pmap_ok, K. Qed.
Lemma rd_u_prefix e n : prefix_reader (rd_u e n) n.
Proof. apply (pmap_prefix (fun v => match e with Native => v | Swapped => swapb n v end)), pread_prefix. Qed.
Lemma rd_i_prefix e n : prefix_reader (rd_i e n) n.
Proof. apply pmap_prefix, rd_u_prefix. Qed.
Lemma pbind_prefix {A B} (r : P A) (f : A -> P B) n m : prefix_reader r n ->
  (forall a, prefix_reader (f a) m) -> prefix_reader (pbind r f) (n + m).
Proof.
  intros Hr Hf d L.
  destruct (Hr (firstn n d)) as (v & K); [rewrite firstn_length; lia|].
  destruct (Hf v (skipn n d)) as (w & K2); [rewrite skipn_length; lia|].
  exists w. intros c. rewrite <- (firstn_skipn n d), <- app_assoc.
  rewrite (pbind_ok _ _ _ _ _ (K _)). apply K2.
Qed.
Lemma pret_prefix {A} (a : A) : prefix_reader (pret a) 0.
Proof. intros d L. destruct d; [|discriminate]. exists a. reflexivity. Qed.
Lemma rd_16_8_prefix p : prefix_reader (rd_16_8 p) 3.
Proof.
  unfold rd_16_8. destruct (p_left_first p).
  - apply (pbind_prefix _ _ 2 1); [apply pread_prefix|]. intros a.
    apply (pbind_prefix _ _ 1 0); [apply pread_prefix|]. intros b. apply pret_prefix.
  - apply (pbind_prefix _ _ 1 2); [apply pread_prefix|]. intros a.
    apply (pbind_prefix _ _ 2 0); [apply pread_prefix|]. intros b. apply pret_prefix.
Qed.
Lemma rd_u24_prefix p e : prefix_reader (rd_u24 p e) 3.
Proof. apply (pbind_prefix _ _ 3 0); [apply rd_16_8_prefix|]. intros [a b]. apply pret_prefix. Qed.
Lemma rd_i24_prefix p e : prefix_reader (rd_i24 p e) 3.
Proof. apply (pbind_prefix _ _ 3 0); [apply rd_u24_prefix|]. intros a. apply pret_prefix. Qed.

Lemma rd_field_prefix p e t : prefix_reader (rd_field p e t) (Z.to_nat (width t)).
Proof.
  destruct t; cbn [rd_field width]; apply pmap_prefix;
    first [apply rd_u_prefix|apply rd_i_prefix|apply rd_u24_prefix|apply rd_i24_prefix|apply pmap_prefix, rd_u_prefix].
Qed.

Lemma rd_field_app p e t d c : len d = width t -> rd_field p e t (d ++ c) = Ok (fval p e t d, c).
Proof.
  intros L. destruct (rd_field_prefix p e t d) as (v & K); [unfold len in L; lia|].
  unfold fval. rewrite K. specialize (K []). rewrite app_nil_r in K. rewrite K. reflexivity.
Qed.

Lemma skipn_slice (off n : Z) (l : list Z) : 0 <= off -> 0 <= n ->
  skipn (Z.to_nat off) l = slice off n l ++ skipn (Z.to_nat (off + n)) l.
Proof.
  intros H1 H2. unfold slice. rewrite Z2Nat.inj_add by lia.
  rewrite <- skipn_skipn'. symmetry. apply firstn_skipn.
Qed.

Lemma rd_fields_ok p e blk l : len blk = 240 -> (forall en, In en l -> inside en) ->
  forall h0, exists h', rd_fields p e blk l h0 = Ok h' /\
   (forall k, ~ In k (names l) -> hget h' k = hget h0 k) /\
   (NoDup (names l) -> forall en, In en l ->
     hget h' (e_name en) = Some (fval p e (e_type en) (slice (e_off en) (width (e_type en)) blk))) /\
   (NoDup (hkeys h0) -> NoDup (hkeys h')) /\
   (forall k, In k (hkeys h') -> In k (hkeys h0) \/ In k (names l)).
Proof.
  intros L. induction l as [|a l IH]; intros Hin h0; cbn [rd_fields].
  - exists h0. split; [reflexivity|]. split; [auto|]. split; [intros _ ? []|]. split; auto.
  - destruct (Hin a (or_introl eq_refl)) as [I1 I2]. pose proof (width_pos (e_type a)).
    unfold at_off. replace ((0 <=? e_off a) && (e_off a <=? len blk)) with true by lia. cbn [bind].
    rewrite (skipn_slice (e_off a) (width (e_type a))) by lia.
    rewrite rd_field_app by (rewrite slice_length; lia). cbn [bind].
    set (v := fval p e (e_type a) (slice (e_off a) (width (e_type a)) blk)).
    destruct (IH (fun en K => Hin en (or_intror K)) (hset h0 (e_name a) v)) as (h' & E & O & S & N & KK).
    exists h'. split; [exact E|]. split; [|split; [|split]].
    + intros k K. cbn [names map In] in K. rewrite O by tauto. apply hget_hset_other. intros ->. tauto.
    + intros ND en K. cbn [names map] in ND. inversion ND as [|? ? N1 N2]; subst. destruct K as [<-|K].
      * rewrite O by exact N1. apply hget_hset_same.
      * apply S; auto.
    + intros Hn. apply N, hkeys_nodup, Hn.
    + intros k K. apply KK in K as [K|K]; [|right; right; exact K].
      destruct (hkeys_hset h0 (e_name a) v) as [E2|[E2 _]]; rewrite E2 in K; [left; exact K|].
      apply in_app_iff in K as [K|[<-|[]]]; [left; exact K|right; left; reflexivity].
Qed.

(** ** What integer fields hold *)
Lemma fval_int p e t f z ov d : int_field t = Some f -> p_left_first p = true ->
  match ov with Some v => get_int v | None => Ok 0 end = Ok z ->
  wr_field p e t ov = Ok d -> fval p e t d = VInt (f z).
Proof.
  intros Hf L Hz H. unfold wr_field in H. rewrite Hz in H. cbn [bind] in H.
  assert (E : forall c, rd_field p e t (d ++ c) = Ok (VInt (f z), c)).
  { intros c. destruct t; cbn [int_field] in Hf; try discriminate; injection Hf as <-; injection H as <-;
      cbn [rd_field]; eapply pmap_ok;
      first [ rewrite as_signed_wraps by lia; apply rd_i_wr
            | rewrite as_unsigned_wrapu; apply rd_u_wr
            | rewrite as_signed_wraps by lia; apply rd_i24_wr24, L
            | rewrite as_unsigned_wrapu; apply rd_u24_wr24, L ]. }
  specialize (E []). rewrite app_nil_r in E. unfold fval. rewrite E. reflexivity.
Qed.

Lemma given_int h k z : given h k = Some z ->
  match hget h k with Some v => get_int v | None => Ok 0 end = Ok z.
Proof.
  unfold given. destruct (hget h k) as [[z'|d]|]; intros H; try discriminate; injection H as ->; reflexivity.
Qed.

Lemma hdr_block_spec p e l h blk : safe_layout l -> hdr_block p e l h = Ok blk ->
  len blk = 240 /\ bytes blk /\
  (forall en, In en l -> wr_field p e (e_type en) (hget h (e_name en))
                          = Ok (slice (e_off en) (width (e_type en)) blk)) /\
  (forall i, 0 <= i < 240 -> ~ covered l i -> nth_error blk (Z.to_nat i) = Some 0).
Proof.
  intros S H. apply safe_ord in S as [S1 S2].
  destruct (wr_fields_spec p e h l S1 S2 _ _ H) as (L & B & F & O).
  assert (L0 : len (zeros TR_HEADER_SIZE) = 240) by reflexivity.
  split; [lia|]. split; [apply B; vm_compute; repeat constructor; discriminate|]. split; [exact F|].
  intros i Hi Hc.
  assert (K : slice i 1 blk = slice i 1 (zeros TR_HEADER_SIZE)).
  { apply O; [lia|]. intros en Hin. 
    destruct (Z.le_gt_cases (i + 1) (e_off en)); [left; lia|].
    destruct (Z.le_gt_cases (e_off en + width (e_type en)) i); [right; lia|].
    exfalso. apply Hc. exists en. split; [exact Hin|lia]. }
  assert (K0 : nth_error (slice i 1 blk) 0 = nth_error blk (Z.to_nat i)).
  { rewrite nth_error_slice. change (Nat.ltb 0 (Z.to_nat 1)) with true. cbv iota. f_equal. lia. }
  assert (K1 : nth_error (slice i 1 (zeros TR_HEADER_SIZE)) 0 = nth_error (zeros TR_HEADER_SIZE) (Z.to_nat i)).
  { rewrite nth_error_slice. change (Nat.ltb 0 (Z.to_nat 1)) with true. cbv iota. f_equal. lia. }
  rewrite <- K0, K, K1. unfold zeros. apply nth_error_repeat. change (Z.to_nat TR_HEADER_SIZE) with 240%nat. lia.
Qed.
