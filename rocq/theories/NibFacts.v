(** Composition of header writers and readers at half-byte granularity.

    [x] is the half byte already present in the byte under the cursor (no or
    one element). *)
From Verif Require Import BaseFacts Bcd BcdSpec BcdFacts BcdFacts2 Platform CodecSpec
  SegyTypes SegyCodec CodecFacts SegdTypes ISegd OSegd.

Definition adv (x ns : list Z) : nat := ((List.length x + List.length ns) / 2)%nat.

(** On a zeroed buffer [w] appends the half bytes [ns]. *)
Definition WN (x : list Z) (w : W) (ns : list Z) : Prop :=
  forall c m, bytes c -> nibs c = x ++ repeat 0 m -> (List.length ns <= m)%nat ->
  exists d c', w c = Ok (d, c') /\ bytes (d ++ c') /\
    List.length d = adv x ns /\
    nibs (d ++ c') = x ++ ns ++ repeat 0 (m - List.length ns).

(** [r] consumes the half bytes [ns] and returns [v]. *)
Definition RN {A} (x : list Z) (r : P A) (ns : list Z) (v : A) : Prop :=
  forall c rest, bytes c -> nibs c = x ++ ns ++ rest ->
  r c = Ok (v, skipn (adv x ns) c).

Lemma nibs_inj a b : bytes a -> bytes b -> nibs a = nibs b -> a = b.
Proof.
  revert b; induction a as [|x a IH]; intros [|y b] Ha Hb E; try discriminate; [reflexivity|].
  inversion Ha; inversion Hb; subst. cbn [nibs] in E. injection E as E1 E2 E3.
  f_equal; [|apply IH; assumption].
  rewrite (Z.div_mod x 16), (Z.div_mod y 16) by lia. lia.
Qed.

Lemma app_inj_len {A} (a b c d : list A) :
  a ++ b = c ++ d -> List.length a = List.length c -> a = c /\ b = d.
Proof.
  revert c; induction a as [|x a IH]; intros [|y c] E L; try discriminate L; [split; [reflexivity|exact E]|].
  cbn [app] in E. injection E as -> E. injection L as L. destruct (IH c E L) as [-> ->].
  split; reflexivity.
Qed.

Lemma even_adv x ns : Nat.even (List.length x + List.length ns) = true ->
  (2 * adv x ns = List.length x + List.length ns)%nat.
Proof.
  intros H. unfold adv. apply Nat.even_spec in H. destruct H as (k & E). rewrite E.
  replace (2 * k)%nat with (k * 2)%nat by lia. rewrite Nat.div_mul by lia. lia.
Qed.

Lemma adv_app x ns n2 : Nat.even (List.length x + List.length ns) = true ->
  adv x (ns ++ n2) = (adv x ns + adv [] n2)%nat.
Proof.
  intros H. pose proof (even_adv x ns H) as E. unfold adv at 1. rewrite app_length.
  rewrite Nat.add_assoc, <- E. change (adv [] n2) with (List.length n2 / 2)%nat.
  replace (2 * adv x ns + List.length n2)%nat with (List.length n2 + adv x ns * 2)%nat by lia.
  rewrite Nat.div_add by lia. lia.
Qed.

Lemma WN_even x w1 n1 w2 n2 :
  Nat.even (List.length x + List.length n1) = true ->
  WN x w1 n1 -> WN [] w2 n2 -> WN x (w1 ;; w2) (n1 ++ n2).
Proof.
  intros Ev H1 H2 c m Hb Hc Hm. rewrite app_length in Hm.
  destruct (H1 c m Hb Hc ltac:(lia)) as (d1 & c1 & E1 & B1 & L1 & N1).
  apply bytes_app in B1. destruct B1 as [B1 B1'].
  rewrite nibs_app in N1.
  assert (L : List.length (nibs d1) = List.length (x ++ n1)).
  { rewrite nibs_length, L1, app_length. apply even_adv. exact Ev. }
  rewrite app_assoc in N1. destruct (app_inj_len _ _ _ _ N1 L) as [Na Nb].
  destruct (H2 c1 (m - List.length n1)%nat B1' Nb ltac:(lia)) as (d2 & c2 & E2 & B2 & L2 & N2).
  exists (d1 ++ d2), c2. split; [|split; [|split]].
  - unfold wseq. rewrite E1. cbn [bind]. rewrite E2. reflexivity.
  - rewrite <- app_assoc. apply bytes_app. split; assumption.
  - rewrite app_length, L1, L2. symmetry. apply adv_app. exact Ev.
  - rewrite <- app_assoc, nibs_app, Na, N2. cbn [app]. rewrite <- !app_assoc.
    rewrite app_length. replace (m - List.length n1 - List.length n2)%nat
      with (m - (List.length n1 + List.length n2))%nat by lia. reflexivity.
Qed.

Lemma WN_half n w1 w2 n2 :
  WN [] w1 [n] -> WN [n] w2 n2 -> WN [] (w1 ;; w2) (n :: n2).
Proof.
  intros H1 H2 c m Hb Hc Hm. cbn [List.length] in Hm.
  destruct (H1 c m Hb Hc ltac:(cbn; lia)) as (d1 & c1 & E1 & B1 & L1 & N1).
  destruct d1; [|discriminate L1]. cbn [app List.length] in *.
  destruct (H2 c1 (m - 1)%nat B1 N1 ltac:(lia)) as (d2 & c2 & E2 & B2 & L2 & N2).
  exists d2, c2. split; [|split; [|split]]; auto.
  - unfold wseq. rewrite E1. cbn [bind]. rewrite E2. reflexivity.
  - cbn [List.length]. rewrite N2. cbn [app].
    replace (m - 1 - List.length n2)%nat with (m - S (List.length n2))%nat by lia. reflexivity.
Qed.

Lemma WN_ext x w w' ns : (forall c, w c = w' c) -> WN x w ns -> WN x w' ns.
Proof.
  intros E H c m Hb Hc Hm. destruct (H c m Hb Hc Hm) as (d & c' & K & R).
  exists d, c'. rewrite <- E. split; assumption.
Qed.

Lemma wseq_assoc a b c k : ((a ;; b) ;; c) k = (a ;; b ;; c) k.
Proof.
  unfold wseq. destruct (a k) as [[d1 c1]|e|]; cbn [bind]; try reflexivity.
  destruct (b c1) as [[d2 c2]|e|]; cbn [bind]; try reflexivity.
  destruct (c c2) as [[d3 c3]|e|]; cbn [bind]; try reflexivity.
  rewrite app_assoc. reflexivity.
Qed.

Lemma WN_assoc x a b c ns : WN x ((a ;; b) ;; c) ns -> WN x (a ;; b ;; c) ns.
Proof. apply WN_ext. intros k. apply wseq_assoc. Qed.

Lemma WN_let {A} x (o : outcome A) (a : A) f ns : o = Ok a -> WN x (f a) ns -> WN x (wlet o f) ns.
Proof. intros -> H. exact H. Qed.

Lemma WN_nil : WN [] wnil [].
Proof.
  intros c m Hb Hc Hm. exists [], c. cbn [app List.length] in *. rewrite Nat.sub_0_r. auto.
Qed.

Lemma repeat_skip {A} (x : A) n m : skipn n (repeat x m) = repeat x (m - n).
Proof.
  revert m; induction n as [|n IH]; intros [|m]; cbn; try reflexivity. apply IH.
Qed.

Lemma WN_put d : bytes d -> WN [] (wput d) (nibs d).
Proof.
  intros Hd c m Hb Hc Hm. cbn [app] in *. rewrite nibs_length in *.
  assert (L : (2 * List.length c = m)%nat).
  { rewrite <- nibs_length, Hc, repeat_length. reflexivity. }
  exists d, (skipn (List.length d) c). split; [|split; [|split]].
  - apply wput_ok. lia.
  - apply bytes_app. split; [exact Hd|]. apply bytes_skipn. exact Hb.
  - unfold adv. rewrite nibs_length. cbn [List.length Nat.add].
    rewrite Nat.mul_comm, Nat.div_mul by lia. reflexivity.
  - rewrite nibs_app, nibs_skipn, Hc, repeat_skip. reflexivity.
Qed.

Lemma repeat_split {A} (x : A) a b : (a <= b)%nat -> repeat x b = repeat x a ++ repeat x (b - a).
Proof. intros H. rewrite <- repeat_app. f_equal. lia. Qed.

Lemma WN_skip n : WN [] (wskip n) (repeat 0 (2 * n)).
Proof.
  intros c m Hb Hc Hm. cbn [app] in *. rewrite repeat_length in *.
  assert (L : (2 * List.length c = m)%nat).
  { rewrite <- nibs_length, Hc, repeat_length. reflexivity. }
  exists (firstn n c), (skipn n c). split; [|split; [|split]].
  - apply wskip_ok. lia.
  - rewrite firstn_skipn. exact Hb.
  - unfold adv. rewrite repeat_length, firstn_length. cbn [List.length Nat.add].
    rewrite Nat.mul_comm, Nat.div_mul by lia. lia.
  - rewrite firstn_skipn, Hc. apply repeat_split. lia.
Qed.

Lemma WN_skip1 t : WN [t] (wskip 1) [0].
Proof.
  intros c m Hb Hc Hm. cbn [List.length] in Hm.
  destruct c as [|b c]; [destruct m; discriminate|].
  exists [b], c. cbn [List.length app]. split; [reflexivity|]. split; [exact Hb|].
  split; [reflexivity|]. rewrite Hc. destruct m; [lia|].
  cbn [app repeat Nat.sub]. rewrite Nat.sub_0_r. reflexivity.
Qed.

Lemma WN_set a f e : (forall b, b / 16 = a -> b mod 16 = 0 -> f b = 16 * a + e) ->
  0 <= e < 16 -> WN [a] (wmod f ;; wskip 1) [e].
Proof.
  intros Hf He c m Hb Hc Hm. cbn [List.length] in Hm.
  destruct c as [|b c]; [destruct m; discriminate|].
  inversion Hb as [|? ? Hb0 Hb']; subst. destruct m as [|m]; [lia|].
  cbn [nibs app repeat] in Hc. injection Hc as H1 H2 H3.
  specialize (Hf b H1 H2). unfold is_byte in Hb0.
  exists [f b], c. cbn [app List.length]. split; [reflexivity|].
  split; [constructor; [unfold is_byte; dlia|exact Hb']|]. split; [reflexivity|].
  cbn [nibs app Nat.sub]. rewrite Nat.sub_0_r, H3, Hf. f_equal; [dlia|f_equal; dlia].
Qed.

(** [*buf = f(0)] into a fresh byte: only the high half is set. *)
Lemma WN_mod f a : f 0 = 16 * a -> 0 <= a < 16 -> WN [] (wmod f) [a].
Proof.
  intros Hf Ha c m Hb Hc Hm. cbn [List.length] in Hm.
  destruct c as [|b c]; [destruct m; [lia|discriminate]|].
  inversion Hb as [|? ? Hb0 Hb']; subst. destruct m as [|[|m]]; [lia|discriminate|].
  cbn [nibs app repeat] in Hc. injection Hc as H1 H2 H3. unfold is_byte in Hb0.
  assert (b = 0) by dlia. subst b.
  exists [], (f 0 :: c). cbn [app List.length]. split; [reflexivity|].
  split; [constructor; [unfold is_byte; lia|exact Hb']|]. split; [reflexivity|].
  cbn [nibs app Nat.sub repeat]. rewrite H3, Hf. f_equal; [dlia|f_equal; dlia].
Qed.

Lemma WN_bcd x vs v skip num : List.length x = lead skip ->
  0 < vs <= 8 -> 0 <= v < 2 ^ (8 * vs) -> (0 < num <= 12)%nat ->
  WN x (to_bcd vs v skip num) (digits num v).
Proof.
  intros Hx Hvs Hv Hn c m Hb Hc Hm. rewrite digits_length in *.
  assert (L : (2 * List.length c = List.length x + m)%nat).
  { rewrite <- nibs_length, Hc, app_length, repeat_length. reflexivity. }
  destruct (to_bcd_ok vs v skip num c) as (d & c' & E & L1 & L2 & N & B); auto; try lia.
  - intros -> b c0 ->. cbn [lead] in Hx. destruct x as [|a [|? ?]]; try discriminate Hx.
    destruct m as [|m]; [lia|]. cbn [nibs app repeat] in Hc. injection Hc as _ H _. exact H.
  - exists d, c'. split; [exact E|]. split; [exact B|]. split.
    + unfold adv. rewrite digits_length, L1, Hx. f_equal. lia.
    + rewrite N, Hc. rewrite firstn_app_exact by exact Hx. f_equal. f_equal.
      rewrite Hx in L. rewrite skipn_app, Hx.
      rewrite skipn_all2 by (rewrite Hx; pose proof (Nat.le_add_r (num + lead skip) ((num + lead skip) mod 2)); lia).
      cbn [app]. rewrite repeat_skip. unfold oddpad.
      pose proof (Nat.div_mod (num + lead skip) 2 ltac:(lia)) as D.
      pose proof (Nat.mod_upper_bound (num + lead skip) 2 ltac:(lia)) as D2.
      destruct (Nat.even (num + lead skip)) eqn:Ev.
      * cbn [app]. apply Nat.even_spec in Ev. destruct Ev as (k & Ek).
        f_equal. rewrite Ek in *. rewrite (Nat.mul_comm 2 k), Nat.mod_mul by lia. lia.
      * assert (Od : Nat.odd (num + lead skip) = true) by (unfold Nat.odd; rewrite Ev; reflexivity).
        apply Nat.odd_spec in Od. destruct Od as (k & Ek).
        assert (Em : ((num + lead skip) mod 2 = 1)%nat) by lia.
        rewrite Em. cbn [app]. change (0 :: repeat 0 ?n) with (repeat 0 (S n)). f_equal. lia.
Qed.

Lemma nibs_zeros n : nibs (repeat 0 n) = repeat 0 (2 * n).
Proof.
  induction n as [|n IH]; [reflexivity|]. replace (2 * S n)%nat with (S (S (2 * n))) by lia.
  cbn [repeat nibs]. rewrite IH. reflexivity.
Qed.

Lemma bytes_zeros n : bytes (repeat 0 n).
Proof. induction n; cbn; constructor; [unfold is_byte; lia|assumption]. Qed.

Lemma WN_run w ns n : WN [] w ns -> (List.length ns <= 2 * n)%nat ->
  exists b, wrun w (repeat 0 n) = Ok b /\ bytes b /\ List.length b = n /\
    nibs b = ns ++ repeat 0 (2 * n - List.length ns).
Proof.
  intros H L. destruct (H (repeat 0 n) (2 * n)%nat (bytes_zeros n) (nibs_zeros n) L)
    as (d & c' & E & B & _ & N).
  exists (d ++ c'). unfold wrun. rewrite E. cbn [bind]. split; [reflexivity|].
  split; [exact B|]. split; [|exact N].
  assert (K : List.length (nibs (d ++ c')) = (2 * n)%nat).
  { rewrite N. cbn [app]. rewrite app_length, repeat_length. lia. }
  rewrite nibs_length in K. lia.
Qed.

(** ** Readers *)

Lemma nibs_split c a rest : bytes c -> bytes a -> nibs c = nibs a ++ rest ->
  c = a ++ skipn (List.length a) c /\ nibs (skipn (List.length a) c) = rest.
Proof.
  intros Hc Ha E.
  assert (L : (2 * List.length c = 2 * List.length a + List.length rest)%nat).
  { rewrite <- !nibs_length, E, app_length. reflexivity. }
  assert (E' : nibs (firstn (List.length a) c) ++ nibs (skipn (List.length a) c) = nibs a ++ rest).
  { rewrite <- nibs_app, firstn_skipn. exact E. }
  apply app_inj_len in E'.
  2:{ rewrite !nibs_length, firstn_length. lia. }
  destruct E' as [E1 E2]. split; [|exact E2].
  apply nibs_inj in E1; [|apply bytes_firstn; exact Hc|exact Ha].
  rewrite <- E1 at 1. symmetry. apply firstn_skipn.
Qed.

Lemma RN_even {A B} x (r : P A) ns v (f : A -> P B) n2 v2 :
  Nat.even (List.length x + List.length ns) = true ->
  RN x r ns v -> RN [] (f v) n2 v2 -> RN x (pbind r f) (ns ++ n2) v2.
Proof.
  intros Ev H1 H2 c rest Hb Hc. rewrite <- app_assoc in Hc.
  unfold pbind. rewrite (H1 c _ Hb Hc).
  rewrite (H2 (skipn (adv x ns) c) rest).
  - rewrite skipn_skipn'. rewrite adv_app by exact Ev. reflexivity.
  - apply bytes_skipn. exact Hb.
  - rewrite nibs_skipn, Hc, even_adv by exact Ev. rewrite app_assoc.
    rewrite skipn_app_exact by apply app_length. reflexivity.
Qed.

Lemma RN_half {A B} (r : P A) n v (f : A -> P B) n2 v2 :
  RN [] r [n] v -> RN [n] (f v) n2 v2 -> RN [] (pbind r f) (n :: n2) v2.
Proof.
  intros H1 H2 c rest Hb Hc. unfold pbind. rewrite (H1 c _ Hb Hc).
  change (adv [] [n]) with 0%nat. cbn [skipn]. apply (H2 c rest Hb Hc).
Qed.

Lemma RN_ret {A} (v : A) : RN [] (pret v) [] v.
Proof. intros c rest Hb Hc. reflexivity. Qed.

Lemma RN_peek {B} a b (f : Z -> P B) n v :
  RN [] (f (16 * a + b)) (a :: b :: n) v -> RN [] (pbind rpeek f) (a :: b :: n) v.
Proof.
  intros H c rest Hb Hc. destruct c as [|y c]; [discriminate Hc|].
  unfold pbind, rpeek. cbn [nibs app] in Hc.
  assert (E : y = 16 * a + b).
  { injection Hc as E1 E2 _. rewrite (Z.div_mod y 16) by lia. lia. }
  rewrite E at 1. apply (H (y :: c) rest Hb). cbn [nibs app]. exact Hc.
Qed.

Lemma be_bytes_length n v : List.length (be_bytes n v) = n.
Proof. unfold be_bytes, le_bytes. rewrite rev_length, map_length, seq_length. reflexivity. Qed.
Lemma be_bytes_bytes n v : bytes (be_bytes n v).
Proof. rewrite <- wr_swapped. apply wr_bytes. Qed.

(** Any reader that is determined on [d ++ c]. *)
Lemma RN_app {A} (r : P A) d (v : A) : bytes d -> (forall c, r (d ++ c) = Ok (v, c)) ->
  RN [] r (nibs d) v.
Proof.
  intros Hd H c rest Hb Hc. cbn [app] in Hc.
  destruct (nibs_split c d rest Hb Hd Hc) as [E _].
  replace (adv [] (nibs d)) with (List.length d).
  2:{ unfold adv. rewrite nibs_length. cbn [List.length Nat.add].
      rewrite Nat.mul_comm, Nat.div_mul by lia. reflexivity. }
  rewrite E at 1. rewrite H. reflexivity.
Qed.

Lemma RN_u n v : RN [] (rd_u Swapped n) (nibs (be_bytes n v)) (wrapu (8 * Z.of_nat n) v).
Proof.
  apply RN_app; [apply be_bytes_bytes|]. intros c. rewrite <- wr_swapped. apply rd_u_wr.
Qed.
Lemma RN_i n v : RN [] (rd_i Swapped n) (nibs (be_bytes n v)) (wraps (8 * Z.of_nat n) v).
Proof.
  apply RN_app; [apply be_bytes_bytes|]. intros c. rewrite <- wr_swapped. apply rd_i_wr.
Qed.
Lemma RN_u24 p v : p_left_first p = true ->
  RN [] (rd_u24 p Swapped) (nibs (be_bytes 3 v)) (wrapu 24 v).
Proof.
  intros Hp. apply RN_app; [apply be_bytes_bytes|]. intros c. rewrite <- wr24_swapped.
  apply rd_u24_wr24. exact Hp.
Qed.
Lemma RN_i24 p v : p_left_first p = true ->
  RN [] (rd_i24 p Swapped) (nibs (be_bytes 3 v)) (wraps 24 v).
Proof.
  intros Hp. apply RN_app; [apply be_bytes_bytes|]. intros c. rewrite <- wr24_swapped.
  apply rd_i24_wr24. exact Hp.
Qed.

Lemma RN_r8_low a b : RN [a] r8 [b] (16 * a + b).
Proof.
  intros c rest Hb Hc. destruct c as [|y c]; [discriminate Hc|].
  cbn [nibs app] in Hc. injection Hc as E1 E2 _.
  unfold r8, rd_u. change (y :: c) with ([y] ++ c).
  rewrite (pbind_ok _ _ _ _ _ (pread_app 1 [y] c eq_refl)).
  inversion Hb as [|? ? Hy _]; subst. unfold is_byte in Hy.
  unfold pret. cbn [adv List.length Nat.add Nat.div Nat.divmod fst skipn app].
  f_equal. f_equal. cbn [le_dec]. unfold swapb. cbn [le_enc rev app le_dec].
  rewrite Z.mod_small by lia. rewrite (Z.div_mod y 16) at 1 by lia. lia.
Qed.

Lemma RN_skip n ns : List.length ns = (2 * n)%nat -> RN [] (pskip n) ns tt.
Proof.
  intros L c rest Hb Hc.
  assert (K : (2 * List.length c = List.length ns + List.length rest)%nat).
  { rewrite <- nibs_length, Hc. cbn [app]. apply app_length. }
  unfold adv. cbn [List.length Nat.add]. rewrite L, Nat.mul_comm, Nat.div_mul by lia.
  apply pskip_ok. lia.
Qed.

Lemma RN_skip_low x y : RN [x] (pskip 1) [y] tt.
Proof.
  intros c rest Hb Hc. destruct c as [|b c]; [discriminate Hc|]. reflexivity.
Qed.

Lemma RN_bcd x skip num ns : List.length x = lead skip -> List.length ns = num ->
  (0 < num)%nat -> RN x (from_bcd skip num) ns (pos_value ns).
Proof.
  intros Hx Hn H0 c rest Hb Hc.
  assert (K : (2 * List.length c = List.length x + (List.length ns + List.length rest))%nat).
  { rewrite <- nibs_length, Hc, !app_length. reflexivity. }
  rewrite from_bcd_ok by (auto; lia).
  f_equal. f_equal.
  - rewrite Hc, skipn_app_exact by exact Hx. rewrite firstn_app_exact by exact Hn. reflexivity.
  - unfold adv. rewrite Hx, Hn. f_equal. f_equal. lia.
Qed.

Lemma RN_ext {A} x (r r' : P A) ns v : (forall c, r c = r' c) -> RN x r ns v -> RN x r' ns v.
Proof. intros E H c rest Hb Hc. rewrite <- E. apply (H c rest Hb Hc). Qed.

Lemma RN_run {A} (r : P A) ns v b rest : RN [] r ns v -> bytes b -> nibs b = ns ++ rest ->
  exists c, r b = Ok (v, c).
Proof. intros H Hb E. eexists. apply (H b rest Hb E). Qed.
