(** Opening an arbitrary SEG-D file of revision below 3. *)
From Verif Require Import BaseFacts Bcd BcdSpec BcdFacts BcdFacts2 Platform CodecSpec CodecFacts Fp FpSpec TraceHdr
  SegyTypes SegyCodec ISegy SegdTypes SegdSpec SegdDecSpec ISegd OpenFacts ReadFacts2 NibFacts SegdHdrFacts
  SegdFileFacts SegdDecFacts.
Local Open Scope Z_scope.

Definition good_file (f : file) : Prop := bytes (fdata f) /\ 0 <= fpos f /\ len (fdata f) < 2 ^ 63.

(** [x] reads [n] bytes of [f]: never undefined, succeeds if they are there,
    and moves by [n]. *)
Definition reads {A} (x : outcome (A * file)) (f : file) (n : Z) (R : A -> Prop) : Prop :=
  x <> UB /\
  (forall a f', x = Ok (a, f') -> fdata f' = fdata f /\ fpos f' = fpos f + n /\ R a) /\
  (fpos f + n <= len (fdata f) -> exists r, x = Ok r).

Lemma reads_bind {A B} (x : outcome (A * file)) (k : A * file -> outcome (B * file)) f n m R R2 :
  good_file f -> 0 <= n -> 0 <= m -> reads x f n R ->
  (forall a f1, good_file f1 -> fdata f1 = fdata f -> fpos f1 = fpos f + n -> R a -> reads (k (a, f1)) f1 m R2) ->
  reads (bind x k) f (n + m) R2.
Proof.
  intros (Gb & Gp & Gl) Hn Hm (U & S & C) K.
  assert (K' : forall a f1, x = Ok (a, f1) -> fdata f1 = fdata f /\ fpos f1 = fpos f + n /\ reads (k (a, f1)) f1 m R2).
  { intros a f1 E. destruct (S a f1 E) as (E1 & E2 & Ra). split; [exact E1|]. split; [exact E2|].
    apply K; auto. unfold good_file. rewrite E1, E2. split; [exact Gb|]. split; [lia|exact Gl]. }
  destruct x as [[a f1]|e|]; [|split; [discriminate|split; [discriminate|]]|congruence].
  - destruct (K' a f1 eq_refl) as (E1 & E2 & U2 & S2 & C2). cbn [bind]. split; [exact U2|]. split.
    + intros b f' E. destruct (S2 b f' E) as (D1 & D2 & Rb). rewrite D1, D2, E1, E2. split; [reflexivity|]. split; [lia|exact Rb].
    + intros H. apply C2. rewrite E1, E2. lia.
  - intros H. destruct C as [r Cr]; [lia|discriminate].
Qed.

Lemma reads_ret {A} (a : A) f R : (R a : Prop) -> reads (Ok (a, f)) f 0 R.
Proof.
  intros Ra. split; [discriminate|]. split; [|intros _; eexists; reflexivity].
  intros b f' E. injection E as <- <-. split; [reflexivity|]. split; [lia|exact Ra].
Qed.
Lemma reads_weak {A} (x : outcome (A * file)) f n n' (R R' : A -> Prop) :
  reads x f n R -> n = n' -> (forall a, R a -> R' a) -> reads x f n' R'.
Proof.
  intros (U & S & C) <- H. split; [exact U|]. split; [|exact C]. intros a f' E. destruct (S a f' E) as (? & ? & ?). auto.
Qed.

Definition block_of (f : file) (b : list Z) : Prop :=
  b = slice (fpos f) 32 (fdata f) /\ bytes b /\ List.length b = 32%nat /\ fpos f + 32 <= len (fdata f).
Lemma reads_fread f : good_file f -> reads (fread 32 f) f 32 (block_of f).
Proof.
  intros (Gb & Gp & Gl). split; [apply fread_not_ub|]. split.
  - intros b f' E. pose proof (fread_bytes _ _ _ _ Gb E) as Bb.
    destruct (fread_ok 32 f b f' ltac:(lia) E Gp) as (L & S & D & P). split; [exact D|]. split; [exact P|].
    split; [exact S|]. split; [exact Bb|]. split; [unfold len in L; lia|].
    unfold fread in E. destruct (Z.leb_spec (fpos f + 32) (len (fdata f))) as [H|H]; [exact H|discriminate].
  - intros H. unfold fread. destruct (Z.leb_spec (fpos f + 32) (len (fdata f))) as [L|L]; [|lia].
    eexists. reflexivity.
Qed.

(** Pure steps. *)
Lemma reads_ok {A B} (a : A) (x : outcome A) (k : A -> outcome (B * file)) f n R :
  x = Ok a -> reads (k a) f n R -> reads (bind x k) f n R.
Proof. intros -> H. exact H. Qed.

Lemma blocks32_S b o n : blocks32 b o (S n) = slice o 32 b :: blocks32 b (o + 32) n.
Proof.
  unfold blocks32. cbn [seq map]. f_equal; [f_equal; lia|]. rewrite <- seq_shift, map_map. apply map_ext.
  intros i. f_equal. lia.
Qed.

Lemma read_blks_reads n : forall f, good_file f ->
  reads (read_blks n f) f (32 * Z.of_nat n) (fun bs => bs = blocks32 (fdata f) (fpos f) n).
Proof.
  induction n as [|n IH]; intros f G; cbn [read_blks].
  - apply reads_ret. reflexivity.
  - eapply reads_weak; [| |intros a H; exact H].
    + eapply (reads_bind _ _ f 32 (32 * Z.of_nat n + 0)); [exact G|lia|lia|apply reads_fread, G|].
      intros b f1 G1 D1 P1 (B & _). eapply reads_bind; [exact G1|lia|lia|apply IH, G1|].
      intros bs f2 G2 D2 P2 E. apply reads_ret. rewrite blocks32_S, B, E, D1, P1. reflexivity.
    + lia.
Qed.

Lemma read_ch_sets_reads p n : forall f, good_file f ->
  reads (read_ch_sets p false n f) f (32 * Z.of_nat n)
    (fun cs => Forall2 chset_of (blocks32 (fdata f) (fpos f) n) cs /\
               Forall (fun c => c_number_of_samples c = Some 0) cs).
Proof.
  induction n as [|n IH]; intros f G; cbn [read_ch_sets].
  - apply reads_ret. split; constructor.
  - eapply reads_weak; [| |intros a H; exact H].
    + eapply (reads_bind _ _ f (32 + 0) (32 * Z.of_nat n + 0)); [exact G|lia|lia| |].
      * unfold read_ch_set_hdr. eapply (reads_bind _ _ f 32 0); [exact G|lia|lia|apply reads_fread, G|].
        intros b f1 G1 D1 P1 (B & Bb & L & _).
        destruct (chset_dec p b Bb L) as (v & c & E & Hv & Hn).
        apply (reads_ok (v, c)); [exact E|]. apply reads_ret.
        instantiate (1 := fun c => chset_of (slice (fpos f) 32 (fdata f)) c /\ c_number_of_samples c = Some 0).
        rewrite <- B. split; [exact Hv|exact Hn].
      * intros c f1 G1 D1 P1 [Hc Hn]. eapply reads_bind; [exact G1|lia|lia|apply IH, G1|].
        intros cs f2 G2 D2 P2 [E N]. apply reads_ret. rewrite blocks32_S. split; [|constructor; auto].
        constructor; [exact Hc|]. rewrite D1, P1 in E. replace (fpos f + (32 + 0)) with (fpos f + 32) in E by lia. exact E.
    + lia.
Qed.

Definition scan_off (st : Z) (o : Z) (n : nat) (d : list Z) (ns : nat) : list (list (list Z)) :=
  map (fun i => blocks32 d (o + st * Z.of_nat i) ns) (seq 0 n).
Lemma scan_off_S st o n d ns : scan_off st o (S n) d ns = blocks32 d o ns :: scan_off st (o + st) n d ns.
Proof.
  unfold scan_off. cbn [seq map]. f_equal; [f_equal; lia|]. rewrite <- seq_shift, map_map. apply map_ext.
  intros i. f_equal. lia.
Qed.

Lemma read_scan_types_reads p ns skew n : 0 <= skew -> forall f, good_file f ->
  reads (read_scan_types p false ns skew n f) f (32 * (Z.of_nat n * (Z.of_nat ns + skew)))
    (fun ss => Forall2 (Forall2 chset_of)
       (scan_off (32 * (Z.of_nat ns + skew)) (fpos f) n (fdata f) ns) ss /\
       Forall (Forall (fun c => c_number_of_samples c = Some 0)) ss).
Proof.
  intros Hs. induction n as [|n IH]; intros f G; cbn [read_scan_types].
  - apply reads_ret. split; constructor.
  - eapply reads_weak; [| |intros a H; exact H].
    + eapply (reads_bind _ _ f (32 * Z.of_nat ns) (32 * skew + (32 * (Z.of_nat n * (Z.of_nat ns + skew)) + 0)));
        [exact G|lia|nia|apply read_ch_sets_reads, G|].
      intros cs f1 G1 D1 P1 [Ec En]. cbn beta iota.
      change (fseek_cur (skew * SKEW_BLOCK_SIZE) f1) with (fseek (fpos f1 + skew * 32) f1).
      unfold fseek. destruct ((0 <=? fpos f1 + skew * 32) && (fpos f1 + skew * 32 <? 2 ^ 63)) eqn:T.
      * cbn [bind]. apply andb_true_iff in T as [T1 T2].
        set (f2 := mkFile (fdata f1) (fpos f1 + skew * 32)).
        assert (G2 : good_file f2) by (unfold good_file, f2; cbn [fdata fpos]; split; [apply G1|]; split; [lia|apply G1]).
        assert (Q : reads (bind (read_scan_types p false ns skew n f2) (fun x => let (rest, f3) := x in Ok (cs :: rest, f3)))
                      f2 (32 * (Z.of_nat n * (Z.of_nat ns + skew)) + 0)
                      (fun ss => Forall2 (Forall2 chset_of) (scan_off (32 * (Z.of_nat ns + skew)) (fpos f) (S n) (fdata f) ns) ss /\
                                 Forall (Forall (fun c => c_number_of_samples c = Some 0)) ss)).
        { eapply reads_bind; [exact G2|nia|lia|apply IH, G2|]. intros ss f3 G3 D3 P3 [Es Ens]. apply reads_ret.
          rewrite scan_off_S. split; [|constructor; auto]. constructor; [exact Ec|].
          unfold f2 in Es. cbn [fdata fpos] in Es. rewrite D1, P1 in Es.
          replace (fpos f + 32 * (Z.of_nat ns + skew)) with (fpos f + 32 * Z.of_nat ns + skew * 32) by lia. exact Es. }
        destruct Q as (U & S & C). split; [exact U|]. split.
        -- intros a f' E. destruct (S a f' E) as (Q1 & Q2 & Q3). split; [exact Q1|]. split; [|exact Q3].
           rewrite Q2. unfold f2. cbn [fpos]. lia.
        -- intros H. apply C. unfold f2. cbn [fdata fpos]. lia.
      * split; [discriminate|]. split; [discriminate|]. intros H. exfalso.
        destruct G1 as (_ & G1p & G1l). apply andb_false_iff in T as [T|T]; nia.
    + lia.
Qed.

(** ** Further general headers *)

Lemma bset_in' m k b x : sorted m -> In x (bset m k b) -> x = (k, b) \/ (In x m /\ fst x <> k).
Proof.
  induction m as [|[k' b'] m IH]; cbn [bset sorted]; [cbn; intuition|]. intros [F S]. rewrite Forall_forall in F.
  destruct (Z.eqb_spec k k') as [->|N].
  - intros [<-|H]; [auto|]. right. split; [right; exact H|]. specialize (F x H). lia.
  - destruct (Z.ltb_spec k k') as [L|L].
    + intros [<-|H]; [auto|]. right. split; [exact H|]. destruct H as [<-|H]; [cbn; lia|]. specialize (F x H). lia.
    + intros [<-|H]; [right; split; [left; reflexivity|cbn; congruence]|].
      destruct (IH S H) as [->|[H1 H2]]; [auto|]. right. split; [right; exact H1|exact H2].
Qed.
Lemma bset_keys m k b j : In j (map fst (bset m k b)) <-> j = k \/ In j (map fst m).
Proof.
  induction m as [|[k' b'] m IH]; cbn [bset]; [cbn; intuition|].
  destruct (Z.eqb_spec k k') as [->|N]; [cbn; intuition|].
  destruct (k <? k'); [cbn; intuition|]. cbn [map In]. rewrite IH. intuition.
Qed.

Definition blk_inv (bl : list (list Z)) (m : blkmap) : Prop :=
  sorted m /\
  (forall kb, In kb m -> exists h x, snd kb = AN h /\ fst kb = gN_block_num h /\ last_with bl (fst kb) x /\ ghN_of x h) /\
  (forall x, In x bl -> In (byt x 18) (map fst m)).

Lemma blk_inv_step bl m x h : blk_inv bl m -> ghN_of x h -> blk_inv (bl ++ [x]) (bset m (gN_block_num h) (AN h)).
Proof.
  intros (S & I & K) Hx. assert (Kx : gN_block_num h = byt x 18) by (apply Hx).
  split; [apply bset_sorted, S|]. split.
  - intros kb Hkb. destruct (bset_in' _ _ _ _ S Hkb) as [->|[H1 H2]].
    + exists h, x. cbn [fst snd]. split; [reflexivity|]. split; [reflexivity|]. split; [|exact Hx].
      exists (List.length bl). split; [rewrite nth_error_app2, Nat.sub_diag by lia; reflexivity|].
      split; [symmetry; exact Kx|]. intros j y Hj Hn. exfalso.
      assert (Q : nth_error (bl ++ [x]) j <> None) by congruence. apply nth_error_Some in Q.
      rewrite app_length in Q. cbn in Q. lia.
    + destruct (I kb H1) as (h' & x' & E1 & E2 & (i & Li & Lk & Lj) & Hh). exists h', x'.
      split; [exact E1|]. split; [exact E2|]. split; [|exact Hh]. exists i.
      assert (Qi : (i < List.length bl)%nat) by (apply nth_error_Some; congruence).
      split; [rewrite nth_error_app1 by exact Qi; exact Li|]. split; [exact Lk|].
      intros j y Hj Hn. destruct (Nat.ltb_spec j (List.length bl)) as [Q|Q].
      * rewrite nth_error_app1 in Hn by exact Q. exact (Lj j y Hj Hn).
      * rewrite nth_error_app2 in Hn by exact Q. destruct (j - List.length bl)%nat as [|[|]]; cbn in Hn; try discriminate.
        injection Hn as <-. rewrite <- Kx. auto.
  - intros y Hy. rewrite bset_keys. apply in_app_iff in Hy as [Hy|[<-|[]]]; [right; exact (K y Hy)|left; auto].
Qed.

Lemma rd_gN_blocks_reads p n : p_left_first p = true -> forall f m bl, good_file f -> blk_inv bl m ->
  reads (rd_gN_blocks p n f m) f (32 * Z.of_nat n) (blk_inv (bl ++ blocks32 (fdata f) (fpos f) n)).
Proof.
  intros Hp. induction n as [|n IH]; intros f m bl G I; cbn [rd_gN_blocks].
  - apply reads_ret. cbn. rewrite app_nil_r. exact I.
  - eapply reads_weak; [| |intros a H; exact H].
    + eapply (reads_bind _ _ f 32 (32 * Z.of_nat n)); [exact G|lia|lia|apply reads_fread, G|].
      intros b f1 G1 D1 P1 (B & Bb & L & _). destruct (ghN_dec p b Hp Bb L) as (h & c & E & Hh).
      apply (reads_ok (h, c)); [exact E|].
      eapply reads_weak; [apply (IH f1 _ (bl ++ [b])); [exact G1|apply blk_inv_step; [exact I|exact Hh]]|reflexivity|].
      intros m' Hm'. rewrite blocks32_S, <- B. rewrite <- app_assoc, D1, P1 in Hm'. exact Hm'.
    + lia.
Qed.

(** ** The counts *)

Lemma nibs_firstn n l : nibs (firstn n l) = firstn (2 * n) (nibs l).
Proof.
  revert l; induction n as [|n IH]; intros l; [reflexivity|]. destruct l as [|x l]; [reflexivity|].
  replace (2 * S n)%nat with (S (S (2 * n))) by lia. cbn [firstn nibs]. rewrite IH. reflexivity.
Qed.
Lemma slice0 (d : list Z) : slice 0 32 d = firstn 32 d.
Proof. reflexivity. Qed.
Lemma dec_slice d i n : (i + n <= 64)%nat -> dec (slice 0 32 d) i n = dec d i n.
Proof.
  intros H. unfold dec. rewrite slice0, nibs_firstn, skipn_firstn_comm, firstn_firstn.
  change (2 * 32)%nat with 64%nat. replace (Nat.min n (64 - i)) with n by lia. reflexivity.
Qed.
Lemma nib_slice d i : (i < 64)%nat -> nib (slice 0 32 d) i = nib d i.
Proof.
  intros H. unfold nib. rewrite slice0, nibs_firstn. change (2 * 32)%nat with 64%nat.
  rewrite <- (firstn_skipn 64 (nibs d)) at 2.
  destruct (Nat.ltb_spec i (List.length (firstn 64 (nibs d)))) as [L|L].
  - rewrite app_nth1 by exact L. reflexivity.
  - rewrite nth_overflow by exact L. rewrite firstn_length in L.
    symmetry. apply nth_overflow. rewrite firstn_skipn. lia.
Qed.
Lemma nth_skipn' n i (l : list Z) : nth i (skipn n l) 0 = nth (n + i) l 0.
Proof.
  revert l; induction n as [|n IH]; intros l; [reflexivity|]. destruct l as [|x l]; [destruct i; reflexivity|].
  cbn [skipn Nat.add nth]. apply IH.
Qed.
Lemma byt_slice d o i : (0 <= o) -> (i < 32)%nat -> byt (slice o 32 d) i = byt d (Z.to_nat o + i).
Proof.
  intros Ho H. unfold byt, slice. change (Z.to_nat 32) with 32%nat.
  rewrite <- (nth_skipn' (Z.to_nat o) i d).
  rewrite <- (firstn_skipn 32 (skipn (Z.to_nat o) d)) at 2.
  destruct (Nat.ltb_spec i (List.length (firstn 32 (skipn (Z.to_nat o) d)))) as [L|L].
  - rewrite app_nth1 by exact L. reflexivity.
  - rewrite nth_overflow by exact L. rewrite firstn_length in L. symmetry. apply nth_overflow.
    rewrite firstn_skipn. lia.
Qed.
Lemma big_slice d o i n : (0 <= o) -> (i + n <= 32)%nat -> big (slice o 32 d) i n = big d (Z.to_nat o + i) n.
Proof.
  intros Ho H. unfold big, slice. change (Z.to_nat 32) with 32%nat.
  rewrite skipn_firstn_comm, firstn_firstn, skipn_skipn'. replace (Nat.min n (32 - i)) with n by lia. reflexivity.
Qed.

Lemma nibs_range b : bytes b -> Forall (fun d => 0 <= d < 16) (nibs b).
Proof.
  induction 1 as [|x b Hx Hb IH]; cbn [nibs]; [constructor|]. unfold is_byte in Hx.
  constructor; [split; [apply Z.div_pos; lia|apply Z.div_lt_upper_bound; lia]|].
  constructor; [apply Z.mod_pos_bound; lia|exact IH].
Qed.
Lemma nib_range b i : bytes b -> 0 <= nib b i < 16.
Proof.
  intros H. unfold nib. destruct (Nat.ltb_spec i (List.length (nibs b))) as [L|L]; [|rewrite nth_overflow by exact L; lia].
  pose proof (nibs_range b H) as F. rewrite Forall_forall in F. apply F, nth_In, L.
Qed.
Lemma dec2 b i : bytes b -> dec b i 2 = 10 * nib b i + nib b (S i) \/ (dec b i 2 = nib b i /\ nib b (S i) = 0).
Proof.
  intros H. unfold dec, nib. revert i. generalize (nibs b). intros l. clear.
  induction l as [|x l IH]; intros i; [destruct i; cbn; auto|].
  destruct i as [|i]; [|cbn [skipn nth]; apply IH]. destruct l as [|y l]; cbn; lia.
Qed.
Lemma dec2_range b i : bytes b -> 0 <= dec b i 2 <= 165.
Proof.
  intros H. pose proof (nib_range b i H). pose proof (nib_range b (S i) H).
  destruct (dec2 b i H) as [->|[-> _]]; lia.
Qed.
Lemma byt_nibs b k : bytes b -> (k < List.length b)%nat -> byt b k = 16 * nib b (2 * k) + nib b (2 * k + 1).
Proof.
  intros H L. rewrite high_nib by exact L. rewrite <- low_nib by exact L.
  change 15 with (Z.ones 4). rewrite Z.land_ones by lia. change (2 ^ 4) with 16. apply Z.div_mod. lia.
Qed.
Lemma esc_165 b k : bytes b -> (k < List.length b)%nat -> (dec b (2 * k) 2 =? 165) = (byt b k =? 255).
Proof.
  intros H L. pose proof (nib_range b (2 * k) H). pose proof (nib_range b (2 * k + 1) H) as R2.
  rewrite (byt_nibs b k H L). replace (2 * k + 1)%nat with (S (2 * k)) in * by lia.
  destruct (dec2 b (2 * k) H) as [E|[E Z0]]; rewrite E; apply eq_true_iff_eq; rewrite !Z.eqb_eq; lia.
Qed.

(** ** General headers *)

Definition gh_shown (b : list Z) (x : gh1 * gh2 * gh3 * blkmap) : Prop :=
  let '(g1, g2, g3, m) := x in
  gh1_of (slice 0 32 b) g1 /\
  (if add_of b =? 0 then g2 = gh2_zero /\ m = []
   else gh2_of (slice 32 32 b) g2 /\ g2_skew_blocks g2 = 0 /\ blk_inv (more_blocks b) m) /\
  32 <= len b /\ (add_of b <> 0 -> 64 <= len b).

Lemma general_reads p content s : p_left_first p = true -> bytes content -> len content < 2 ^ 63 ->
  old_rev content -> d_file s = open_in content -> d_g2 s = gh2_zero -> d_blocks s = [] ->
  reads (read_general_headers p s) (open_in content) (sets_at content) (gh_shown content).
Proof.
  intros Hp Hb Hl Ho Ef E2 Em. unfold read_general_headers, sets_at. rewrite Ef, E2, Em.
  assert (A : 0 <= add_of content < 16) by (apply nib_range; exact Hb).
  assert (G0 : good_file (open_in content)) by (unfold good_file, open_in; cbn [fdata fpos]; auto with zarith).
  replace (32 * (1 + add_of content)) with (32 + 32 * add_of content) by lia.
  eapply reads_bind; [exact G0|lia|lia|apply reads_fread, G0|].
  intros b1 f1 G1 D1 P1 (B1 & Bb1 & L1 & Q1). cbn [open_in fdata fpos] in *.
  destruct (gh1_dec b1 Bb1 L1) as (g1 & c1 & E1 & H1). apply (reads_ok (g1, c1)); [exact E1|]. cbn beta iota.
  assert (Ea : g1_add_blocks g1 = add_of content).
  { destruct H1 as (_ & _ & _ & _ & H1 & _). rewrite H1, B1. apply nib_slice. lia. }
  rewrite Ea. destruct (Z.eqb_spec (add_of content) 0) as [Z0|Nz].
  - rewrite Z0. apply reads_ret. unfold gh_shown. rewrite Z0. rewrite <- B1. cbn. split; [exact H1|]. auto with zarith.
  - replace (32 * add_of content) with (32 + (32 * (add_of content - 1) + 0)) by lia.
    eapply reads_bind; [exact G1|lia|lia|apply reads_fread, G1|].
    intros b2 f2 G2 D2 P2 (B2 & Bb2 & L2 & Q2). rewrite D1, P1 in B2, Q2. change (0 + 32) with 32 in *.
    destruct (rev_dec b2 Bb2 L2) as (cr & Er). eapply reads_ok; [exact Er|]. cbn beta iota.
    assert (Ex : byt b2 10 = byt content 42) by (rewrite B2; apply byt_slice; lia).
    destruct (Z.ltb_spec (byt b2 10) 3) as [M|M]; [|exfalso; destruct Ho as [Ho|Ho]; [contradiction|lia]].
    destruct (gh2_dec p gh2_zero b2 Hp Bb2 L2) as (g2 & c2 & Eg & H2 & Hs).
    apply (reads_ok (g2, c2)); [exact Eg|]. cbn beta iota.
    eapply reads_bind; [exact G2|lia|lia| |].
    + eapply reads_weak; [apply (rd_gN_blocks_reads p _ Hp f2 [] []); [exact G2|]|lia|intros a H; exact H].
      split; [constructor|]. split; [intros kb []|intros x []].
    + intros m f3 G3 D3 P3 Hm. apply reads_ret. unfold gh_shown. rewrite <- B1, <- B2.
      destruct (Z.eqb_spec (add_of content) 0); [contradiction|]. split; [exact H1|]. split.
      * split; [exact H2|]. split; [exact Hs|]. cbn [app] in Hm. rewrite D2, D1, P2, P1 in Hm. exact Hm.
      * cbn [fdata] in *. split; [lia|]. intros _. lia.
Qed.

(** ** Opening *)

Lemma reader_not_ub p fmt : d_sample_reader p fmt <> UB.
Proof.
  unfold d_sample_reader.
  repeat match goal with |- match ?x with _ => _ end <> _ => destruct x; try discriminate end.
Qed.

Definition known_formats : list Z := [8015; 8022; 8024; 8036; 8038; 8042; 8044; 8048; 8058; 8080; 9036; 9038; 9058; 9080].
Lemma reader_known' p fmt : In fmt known_formats -> exists r, d_sample_reader p fmt = Ok r.
Proof.
  intros I. cbn [In known_formats] in I. repeat (destruct I as [I|I]; [rewrite <- I; eexists; reflexivity|]). destruct I.
Qed.

Definition shown (b : list Z) (s : isegd) : Prop :=
  gh_shown b (d_g1 s, d_g2 s, d_g3 s, d_blocks s) /\
  Forall2 (Forall2 chset_of) (map (scan_blocks b) (seq 0 (Z.to_nat (scans_of b)))) (d_sets s) /\
  Forall (Forall (fun c => c_number_of_samples c = Some 0)) (d_sets s) /\
  d_extd s = blocks32 b (extds_at b) (Z.to_nat (extds_of b)) /\
  d_extl s = blocks32 b (extds_at b + 32 * extds_of b) (Z.to_nat (extls_of b)) /\
  fdata (d_file s) = b /\ fpos (d_file s) = traces_at b /\ d_eod s = len b /\
  d_chans s = fold_right Z.add 0 (map c_channels (concat (d_sets s))) /\ d_read s = 0.

Lemma big2_range b k : bytes b -> 0 <= big b k 2 < 65536.
Proof.
  intros H. destruct (Nat.leb_spec (k + 2) (List.length b)) as [L|L].
  - pose proof (big_range b k 2 H L) as R. exact R.
  - unfold big. pose proof (bytes_skipn k b H) as B.
    assert (Ls : (List.length (skipn k b) < 2)%nat) by (rewrite skipn_length; lia).
    destruct (skipn k b) as [|x [|y l]]; cbn; [lia| |cbn in Ls; lia]. inversion B; subst. unfold is_byte in *. lia.
Qed.
Lemma esc_range b i k : bytes b -> 0 <= esc_of b i (big b k 2) < 65536.
Proof.
  intros H. unfold esc_of. destruct (_ =? _); [destruct (two_of b); [apply big2_range, H|lia]|].
  pose proof (dec2_range b (2 * i) H). lia.
Qed.

Lemma counts b g1 g2 g3 m : bytes b -> gh_shown b (g1, g2, g3, m) ->
  g1_scan_types g1 = scans_of b /\ nsets_of g1 g2 = sets_of b /\ skew_of g1 g2 = skews_of b /\
  extended_of g1 g2 = extds_of b /\ external_of g1 g2 = extls_of b /\
  (old_rev b -> is_rev3 g1 g2 = false) /\ g1_format_code g1 = dec b 4 4.
Proof.
  intros Hb (H1 & H2 & L & L2).
  assert (Ln : (32 <= List.length b)%nat) by (unfold len in L; lia).
  destruct H1 as (_ & Hf & _ & _ & Ha & _ & _ & _ & _ & _ & _ & _ & _ & _ & _ & _ & _ & Hsc & Hcs & Hsk & Hxd & Hxl).
  rewrite dec_slice in Hf, Hsc, Hcs, Hsk, Hxd, Hxl by lia. rewrite nib_slice in Ha by lia. fold (add_of b) in Ha.
  assert (E2 : forall two zero : Z, (add_of b =? 0) = true -> zero = 0 -> zero = (if two_of b then two else 0)).
  { intros two zero E ->. unfold two_of. rewrite E. reflexivity. }
  split; [exact Hsc|]. split.
  { unfold nsets_of. rewrite Hcs. fold (sets_of b). pose proof (dec2_range b 56 Hb) as R. fold (sets_of b) in R.
    destruct (Z.eqb_spec (sets_of b) 1665); [lia|]. apply wrapu_small. lia. }
  assert (Sk : skew_of g1 g2 = skews_of b).
  { unfold skew_of, skews_of, esc_of. rewrite Hsk. change 58%nat with (2 * 29)%nat. rewrite (esc_165 b 29 Hb) by lia.
    destruct (byt b 29 =? 255); [|apply wrapu_small; pose proof (dec2_range b (2 * 29) Hb); lia].
    replace (g2_skew_blocks g2) with 0; [destruct (two_of b); reflexivity|].
    destruct (add_of b =? 0); [destruct H2 as [-> _]; reflexivity|symmetry; apply H2]. }
  assert (X : forall i k (v1 v2 : Z), (i < 32)%nat -> v1 = dec b (2 * i) 2 ->
      ((add_of b =? 0) = true -> v2 = 0) -> ((add_of b =? 0) = false -> v2 = big b k 2) ->
      wrapu 32 (if v1 =? 165 then v2 else v1) = esc_of b i (big b k 2)).
  { intros i k v1 v2 Hi -> Z0 Z1. pose proof (esc_range b i k Hb) as R.
    replace (if dec b (2 * i) 2 =? 165 then v2 else dec b (2 * i) 2) with (esc_of b i (big b k 2));
      [apply wrapu_small; lia|].
    unfold esc_of. rewrite (esc_165 b i Hb) by lia. destruct (byt b i =? 255); [|reflexivity].
    unfold two_of. destruct (add_of b =? 0); cbn [negb]; symmetry; auto. }
  split; [exact Sk|]. split; [|split; [|split]].
  - unfold extended_of, extds_of. apply X; [lia|exact Hxd| |]; intros E; rewrite E in H2.
    + destruct H2 as [-> _]. reflexivity.
    + destruct H2 as ((_ & _ & H2 & _) & _). rewrite H2. rewrite big_slice by lia. reflexivity.
  - unfold external_of, extls_of. apply X; [lia|exact Hxl| |]; intros E; rewrite E in H2.
    + destruct H2 as [-> _]. reflexivity.
    + destruct H2 as ((_ & _ & _ & H2 & _) & _). rewrite H2. rewrite big_slice by lia. reflexivity.
  - intros Ho. unfold is_rev3. rewrite Ha. destruct (add_of b =? 0) eqn:E; [reflexivity|].
    destruct H2 as ((_ & _ & _ & _ & H2 & _) & _). rewrite H2. rewrite byt_slice by lia.
    change (Z.to_nat 32 + 10)%nat with 42%nat. destruct Ho as [Ho|Ho]; [lia|].
    destruct (Z.ltb_spec (byt b 42) 3); [reflexivity|lia].
  - exact Hf.
Qed.

Lemma open_old p content ls : p_left_first p = true -> bytes content -> len content < 2 ^ 63 -> old_rev content ->
  isegd_open p content ls <> UB /\
  (forall s, isegd_open p content ls = Ok s -> shown content s /\ d_layouts s = ls) /\
  (traces_at content <= len content -> In (dec content 4 4) known_formats -> 24 * 65535 <= p_max_alloc p ->
   exists s, isegd_open p content ls = Ok s).
Proof.
  intros Hp Hb Hl Ho. unfold isegd_open, read_headers_before_traces.
  set (s0 := mkD (open_in content) gh1_zero gh2_zero gh3_zero [] [] [] [] ls (len content) 0 0).
  assert (Sr := dec2_range content 54 Hb). assert (Nr := dec2_range content 56 Hb).
  assert (Kr : 0 <= skews_of content).
  { unfold skews_of, esc_of. destruct (_ =? _); [destruct (two_of content); lia|]. apply dec2_range, Hb. }
  assert (Dr := esc_range content 30 37 Hb). assert (Lr := esc_range content 31 39 Hb).
  fold (extds_of content) in Dr. fold (extls_of content) in Lr.
  fold (scans_of content) in Sr. fold (sets_of content) in Nr.
  assert (Ar := nib_range content 22 Hb). fold (add_of content) in Ar.
  destruct (general_reads p content s0 Hp Hb Hl Ho eq_refl eq_refl eq_refl) as (U0 & S0 & C0).
  destruct (read_general_headers p s0) as [[[[[g1 g2] g3] m] f1]|e|];
    [|split; [discriminate|]; split; [discriminate|]; intros T; exfalso;
      destruct C0 as [? C0]; [|discriminate]; unfold traces_at, extds_at in T; cbn [open_in fpos fdata]; nia|congruence].
  destruct (S0 _ _ eq_refl) as (D1 & P1 & H1). clear S0 C0 U0. cbn [open_in fdata fpos] in D1, P1.
  destruct (counts content g1 g2 g3 m Hb H1) as (K1 & K2 & K3 & K4 & K5 & K6 & K7).
  cbn [bind]. rewrite (K6 Ho), K1, K2, K3, K4, K5, K7.
  assert (G1 : good_file f1).
  { unfold good_file. rewrite D1, P1. split; [exact Hb|]. split; [unfold sets_at; lia|exact Hl]. }
  destruct (d_sample_reader p (dec content 4 4)) as [rd|e|] eqn:Er;
    [|split; [discriminate|]; split; [discriminate|]; intros _ T _; exfalso;
      destruct (reader_known' p _ T) as [? T']; congruence|exfalso; exact (reader_not_ub _ _ Er)].
  cbn [bind].
  destruct (read_scan_types_reads p (Z.to_nat (sets_of content)) (skews_of content) (Z.to_nat (scans_of content)) Kr f1 G1)
    as (U2 & S2 & C2).
  rewrite D1, P1 in S2. rewrite !Z2Nat.id in S2, C2 by lia.
  destruct (read_scan_types p false (Z.to_nat (sets_of content)) (skews_of content) (Z.to_nat (scans_of content)) f1)
    as [[sets f2]|e|];
    [|split; [discriminate|]; split; [discriminate|]; intros T; exfalso;
      destruct C2 as [? C2]; [|discriminate]; rewrite D1, P1; unfold traces_at, extds_at in T; nia|congruence].
  destruct (S2 _ _ eq_refl) as (D2 & P2 & Hc & Hn). clear S2 C2 U2. cbn [bind].
  assert (G2 : good_file f2).
  { unfold good_file. rewrite D2, P2. split; [exact Hb|]. split; [unfold sets_at; nia|exact Hl]. }
  assert (Rz : forall n, 0 <= n < 65536 -> resize_to p (24 * n) <> UB /\ (24 * 65535 <= p_max_alloc p -> exists u, resize_to p (24 * n) = Ok u)).
  { intros n Hn'. unfold resize_to. rewrite wrapu_small by lia. destruct (Z.leb_spec (24 * n) (p_max_alloc p)).
    - split; [discriminate|]. intros _. eexists. reflexivity.
    - split; [discriminate|]. lia. }
  destruct (Rz _ Dr) as (Ud & Cd). destruct (Rz _ Lr) as (Ul & Cl).
  destruct (resize_to p (24 * extds_of content)) as [u|e|];
    [|split; [discriminate|]; split; [discriminate|]; intros _ _ T; destruct (Cd T); discriminate|congruence].
  cbn [bind].
  destruct (read_blks_reads (Z.to_nat (extds_of content)) f2 G2) as (U3 & S3 & C3).
  rewrite D2, P2 in S3. rewrite Z2Nat.id in S3, C3 by lia.
  destruct (read_blks (Z.to_nat (extds_of content)) f2) as [[extd f3]|e|];
    [|split; [discriminate|]; split; [discriminate|]; intros T; exfalso;
      destruct C3 as [? C3]; [|discriminate]; rewrite D2, P2; unfold traces_at, extds_at in T; nia|congruence].
  destruct (S3 _ _ eq_refl) as (D3 & P3 & Hd). clear S3 C3 U3. cbn [bind].
  assert (G3 : good_file f3).
  { unfold good_file. rewrite D3, P3. split; [exact Hb|]. split; [unfold sets_at; nia|exact Hl]. }
  destruct (resize_to p (24 * extls_of content)) as [u'|e|];
    [|split; [discriminate|]; split; [discriminate|]; intros _ _ T; destruct (Cl T); discriminate|congruence].
  cbn [bind].
  destruct (read_blks_reads (Z.to_nat (extls_of content)) f3 G3) as (U4 & S4 & C4).
  rewrite D3, P3 in S4. rewrite Z2Nat.id in S4, C4 by lia.
  destruct (read_blks (Z.to_nat (extls_of content)) f3) as [[extl f4]|e|];
    [|split; [discriminate|]; split; [discriminate|]; intros T; exfalso;
      destruct C4 as [? C4]; [|discriminate]; rewrite D3, P3; unfold traces_at, extds_at in T; nia|congruence].
  destruct (S4 _ _ eq_refl) as (D4 & P4 & He). clear S4 C4 U4. cbn [bind].
  split; [discriminate|]. split; [|intros _ _ _; eexists; reflexivity].
  intros s E. injection E as <-. split; [|reflexivity].
  unfold shown, extds_at, traces_at. cbn [d_g1 d_g2 d_g3 d_blocks d_sets d_extd d_extl d_file d_eod d_chans d_read d_layouts].
  split; [exact H1|]. split.
  { replace (map (scan_blocks content) (seq 0 (Z.to_nat (scans_of content)))) with
      (scan_off (32 * (sets_of content + skews_of content)) (sets_at content) (Z.to_nat (scans_of content)) content
         (Z.to_nat (sets_of content))); [exact Hc|].
    unfold scan_off, scan_blocks. apply map_ext. intros i. f_equal. nia. }
  split; [exact Hn|]. split; [exact Hd|]. split; [exact He|]. split; [exact D4|].
  split; [rewrite P4; unfold extds_at; lia|]. split; [reflexivity|]. split; reflexivity.
Qed.
