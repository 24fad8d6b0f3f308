(** Reading the headers of an arbitrary record of revision below 3 anywhere in
    a file, after other records. *)
From Verif Require Import BaseFacts Bcd BcdSpec BcdFacts BcdFacts2 Platform CodecSpec CodecFacts Fp FpSpec TraceHdr
  SegyTypes SegyCodec ISegy SegdTypes SegdSpec SegdDecSpec ISegd OpenFacts ReadFacts2 NibFacts SegdHdrFacts
  SegdFileFacts SegdDecFacts SegdOpenFacts.
Local Open Scope Z_scope.

(** What is left of a file. *)
Definition rest (f : file) : list Z := skipn (Z.to_nat (fpos f)) (fdata f).

Lemma rest_bytes f : good_file f -> bytes (rest f).
Proof. intros (B & _). apply bytes_skipn, B. Qed.
Lemma rest_slice f o n : 0 <= fpos f -> 0 <= o -> slice (fpos f + o) n (fdata f) = slice o n (rest f).
Proof.
  intros Hp Ho. unfold slice, rest. rewrite skipn_skipn'. f_equal. f_equal. lia.
Qed.
Lemma rest_blocks f o n : 0 <= fpos f -> 0 <= o -> blocks32 (fdata f) (fpos f + o) n = blocks32 (rest f) o n.
Proof.
  intros Hp Ho. unfold blocks32. apply map_ext. intros i. rewrite <- rest_slice by lia. f_equal. lia.
Qed.
Lemma rest_len f : fpos f <= len (fdata f) -> 0 <= fpos f -> len (rest f) = len (fdata f) - fpos f.
Proof. intros H H0. unfold rest, len in *. rewrite skipn_length. lia. Qed.

Definition gh_rec (b : list Z) (o : gh2) (bl : list (list Z)) (x : gh1 * gh2 * gh3 * blkmap) : Prop :=
  let '(g1, g2, g3, m) := x in
  gh1_of (slice 0 32 b) g1 /\
  (if add_of b =? 0 then g2 = o /\ blk_inv bl m
   else gh2_of (slice 32 32 b) g2 /\ g2_skew_blocks g2 = g2_skew_blocks o /\ blk_inv (bl ++ more_blocks b) m) /\
  32 <= len b /\ (add_of b <> 0 -> 64 <= len b).

Lemma general_rec p s bl : p_left_first p = true -> good_file (d_file s) -> old_rev (rest (d_file s)) ->
  blk_inv bl (d_blocks s) ->
  reads (read_general_headers p s) (d_file s) (sets_at (rest (d_file s))) (gh_rec (rest (d_file s)) (d_g2 s) bl).
Proof.
  intros Hp G0 Ho Hbl. unfold read_general_headers, sets_at. generalize dependent (d_blocks s). intros m0 Hbl.
  revert G0 Ho. generalize (d_file s) as f0. intros f0 G0 Ho.
  pose proof (rest_bytes f0 G0) as Hb. assert (P0 : 0 <= fpos f0) by (apply G0).
  assert (A : 0 <= add_of (rest f0) < 16) by (apply nib_range; exact Hb).
  replace (32 * (1 + add_of (rest f0))) with (32 + 32 * add_of (rest f0)) by lia.
  eapply reads_bind; [exact G0|lia|lia|apply reads_fread, G0|].
  intros b1 f1 G1 D1 P1 (B1 & Bb1 & L1 & Q1).
  replace (fpos f0) with (fpos f0 + 0) in B1 by lia. rewrite rest_slice in B1 by lia.
  destruct (gh1_dec b1 Bb1 L1) as (g1 & c1 & E1 & H1). apply (reads_ok (g1, c1)); [exact E1|]. cbn beta iota.
  assert (Ea : g1_add_blocks g1 = add_of (rest f0)).
  { destruct H1 as (_ & _ & _ & _ & H1 & _). rewrite H1, B1. apply nib_slice. lia. }
  pose proof (rest_len f0 ltac:(lia) P0) as Lr.
  rewrite Ea. destruct (Z.eqb_spec (add_of (rest f0)) 0) as [Z0|Nz].
  - rewrite Z0. apply reads_ret. unfold gh_rec. rewrite Z0. rewrite <- B1. cbn [Z.eqb]. split; [exact H1|].
    split; [split; [reflexivity|exact Hbl]|]. split; [lia|]. intros C. contradiction.
  - replace (32 * add_of (rest f0)) with (32 + (32 * (add_of (rest f0) - 1) + 0)) by lia.
    eapply reads_bind; [exact G1|lia|lia|apply reads_fread, G1|].
    intros b2 f2 G2 D2 P2 (B2 & Bb2 & L2 & Q2). rewrite D1, P1 in B2, Q2. rewrite rest_slice in B2 by lia.
    destruct (rev_dec b2 Bb2 L2) as (cr & Er). eapply reads_ok; [exact Er|]. cbn beta iota.
    assert (Ex : byt b2 10 = byt (rest f0) 42) by (rewrite B2; apply byt_slice; lia).
    destruct (Z.ltb_spec (byt b2 10) 3) as [M|M]; [|exfalso; destruct Ho as [Ho|Ho]; [contradiction|lia]].
    destruct (gh2_dec p (d_g2 s) b2 Hp Bb2 L2) as (g2 & c2 & Eg & H2 & Hs).
    apply (reads_ok (g2, c2)); [exact Eg|]. cbn beta iota.
    eapply reads_bind; [exact G2|lia|lia| |].
    + eapply reads_weak; [apply (rd_gN_blocks_reads p _ Hp f2 m0 bl); [exact G2|exact Hbl]|lia|intros a H; exact H].
    + intros m f3 G3 D3 P3 Hm. apply reads_ret. unfold gh_rec. rewrite <- B1, <- B2.
      destruct (Z.eqb_spec (add_of (rest f0)) 0); [contradiction|]. split; [exact H1|]. split.
      * split; [exact H2|]. split; [exact Hs|]. rewrite D2, D1, P2, P1 in Hm.
        replace (fpos f0 + 32 + 32) with (fpos f0 + 64) in Hm by lia. rewrite rest_blocks in Hm by lia. exact Hm.
      * split; [lia|]. intros _. lia.
Qed.

(** ** The counts: FF without a general header 2 takes what the reader has
    kept. *)
Definition esc_old (b : list Z) (i : nat) (two old : Z) : Z :=
  if byt b i =? 255 then (if two_of b then two else old) else dec b (2 * i) 2.

Definition g2_small (g : gh2) : Prop :=
  g2_major g < 3 /\ g2_skew_blocks g = 0 /\ 0 <= g2_extended_blocks g < 65536 /\ 0 <= g2_external_blocks g < 65536.

Definition skews_r (b : list Z) : Z := esc_old b 29 0 0.
Definition extds_r (b : list Z) (o : gh2) : Z := esc_old b 30 (big b 37 2) (g2_extended_blocks o).
Definition extls_r (b : list Z) (o : gh2) : Z := esc_old b 31 (big b 39 2) (g2_external_blocks o).
Definition extds_at_r (b : list Z) : Z := sets_at b + 32 * (scans_of b * (sets_of b + skews_r b)).
Definition traces_at_r (b : list Z) (o : gh2) : Z := extds_at_r b + 32 * (extds_r b o + extls_r b o).
Definition scan_blocks_r (b : list Z) (i : nat) : list (list Z) :=
  blocks32 b (sets_at b + 32 * (Z.of_nat i * (sets_of b + skews_r b))) (Z.to_nat (sets_of b)).

Lemma esc_old_range b i k old : bytes b -> 0 <= old < 65536 -> 0 <= esc_old b i (big b k 2) old < 65536.
Proof.
  intros H Ho. unfold esc_old. destruct (_ =? _); [destruct (two_of b); [apply big2_range, H|lia]|].
  pose proof (dec2_range b (2 * i) H). lia.
Qed.

Lemma counts_r b o bl g1 g2 g3 m : bytes b -> g2_small o -> gh_rec b o bl (g1, g2, g3, m) ->
  g1_scan_types g1 = scans_of b /\ nsets_of g1 g2 = sets_of b /\ skew_of g1 g2 = skews_r b /\
  extended_of g1 g2 = extds_r b o /\ external_of g1 g2 = extls_r b o /\
  (old_rev b -> is_rev3 g1 g2 = false /\ g2_small g2) /\ g1_format_code g1 = dec b 4 4.
Proof.
  intros Hb (So & Ss & Sd & Sl) (H1 & H2 & L & L2).
  assert (Ln : (32 <= List.length b)%nat) by (unfold len in L; lia).
  destruct H1 as (_ & Hf & _ & _ & Ha & _ & _ & _ & _ & _ & _ & _ & _ & _ & _ & _ & _ & Hsc & Hcs & Hsk & Hxd & Hxl).
  rewrite dec_slice in Hf, Hsc, Hcs, Hsk, Hxd, Hxl by lia. rewrite nib_slice in Ha by lia. fold (add_of b) in Ha.
  split; [exact Hsc|]. split.
  { unfold nsets_of. rewrite Hcs. fold (sets_of b). pose proof (dec2_range b 56 Hb) as R. fold (sets_of b) in R.
    destruct (Z.eqb_spec (sets_of b) 1665); [lia|]. apply wrapu_small. lia. }
  assert (Gs : g2_skew_blocks g2 = 0).
  { destruct (add_of b =? 0); [destruct H2 as [-> _]; exact Ss|]. destruct H2 as (_ & -> & _). exact Ss. }
  assert (Sk : skew_of g1 g2 = skews_r b).
  { unfold skew_of, skews_r, esc_old. rewrite Hsk. change 58%nat with (2 * 29)%nat. rewrite (esc_165 b 29 Hb) by lia.
    destruct (byt b 29 =? 255); [|apply wrapu_small; pose proof (dec2_range b (2 * 29) Hb); lia].
    rewrite Gs. destruct (two_of b); reflexivity. }
  assert (X : forall i k (v1 v2 old : Z), (i < 32)%nat -> 0 <= old < 65536 -> v1 = dec b (2 * i) 2 ->
      ((add_of b =? 0) = true -> v2 = old) -> ((add_of b =? 0) = false -> v2 = big b k 2) ->
      wrapu 32 (if v1 =? 165 then v2 else v1) = esc_old b i (big b k 2) old).
  { intros i k v1 v2 old Hi Hold -> Z0 Z1. pose proof (esc_old_range b i k old Hb Hold) as R.
    replace (if dec b (2 * i) 2 =? 165 then v2 else dec b (2 * i) 2) with (esc_old b i (big b k 2) old);
      [apply wrapu_small; lia|].
    unfold esc_old. rewrite (esc_165 b i Hb) by lia. destruct (byt b i =? 255); [|reflexivity].
    unfold two_of. destruct (add_of b =? 0); cbn [negb]; symmetry; auto. }
  split; [exact Sk|]. split; [|split; [|split]].
  - unfold extended_of, extds_r. apply X; [lia|exact Sd|exact Hxd| |]; intros E; rewrite E in H2.
    + destruct H2 as [-> _]. reflexivity.
    + destruct H2 as ((_ & _ & H2 & _) & _). rewrite H2. rewrite big_slice by lia. reflexivity.
  - unfold external_of, extls_r. apply X; [lia|exact Sl|exact Hxl| |]; intros E; rewrite E in H2.
    + destruct H2 as [-> _]. reflexivity.
    + destruct H2 as ((_ & _ & _ & H2 & _) & _). rewrite H2. rewrite big_slice by lia. reflexivity.
  - intros Ho. unfold is_rev3. rewrite Ha. destruct (add_of b =? 0) eqn:E.
    + split; [reflexivity|]. destruct H2 as [-> _]. unfold g2_small. auto.
    + destruct H2 as ((_ & _ & Hd & Hl & H2 & _) & _ & _). assert (M : g2_major g2 < 3).
      { rewrite H2. rewrite byt_slice by lia.
        change (Z.to_nat 32 + 10)%nat with 42%nat. destruct Ho as [Ho|Ho]; [lia|exact Ho]. }
      destruct (Z.ltb_spec (g2_major g2) 3); [|lia]. split; [reflexivity|].
      split; [exact M|]. split; [exact Gs|]. rewrite Hd, Hl, !big_slice by lia. split; apply big2_range, Hb.
  - exact Hf.
Qed.

(** ** The headers *)

Definition shown_r (b : list Z) (o : gh2) (bl : list (list Z)) (s : isegd) : Prop :=
  gh_rec b o bl (d_g1 s, d_g2 s, d_g3 s, d_blocks s) /\
  Forall2 (Forall2 chset_of) (map (scan_blocks_r b) (seq 0 (Z.to_nat (scans_of b)))) (d_sets s) /\
  Forall (Forall (fun c => c_number_of_samples c = Some 0)) (d_sets s) /\
  d_extd s = blocks32 b (extds_at_r b) (Z.to_nat (extds_r b o)) /\
  d_extl s = blocks32 b (extds_at_r b + 32 * extds_r b o) (Z.to_nat (extls_r b o)) /\
  d_chans s = fold_right Z.add 0 (map c_channels (concat (d_sets s))) /\ d_read s = 0 /\
  g2_small (d_g2 s) /\ In (g1_format_code (d_g1 s)) known_formats.

Lemma reader_known p fmt r : d_sample_reader p fmt = Ok r -> In fmt known_formats.
Proof.
  intros H. destruct (in_dec Z.eq_dec fmt known_formats) as [I|N]; [exact I|].
  exfalso. assert (K : forall k, In k known_formats -> fmt <> k) by (intros k Hk ->; exact (N Hk)).
  unfold d_sample_reader in H.
  repeat match type of H with match ?x with _ => _ end = _ =>
    destruct x; try discriminate; try (eapply K; [|reflexivity]; cbn [In known_formats]; tauto) end.
Qed.

Lemma headers_rec p s bl : p_left_first p = true -> good_file (d_file s) -> old_rev (rest (d_file s)) ->
  blk_inv bl (d_blocks s) -> g2_small (d_g2 s) ->
  let b := rest (d_file s) in
  read_headers_before_traces p s <> UB /\
  (forall s', read_headers_before_traces p s = Ok s' -> shown_r b (d_g2 s) bl s' /\
     d_layouts s' = d_layouts s /\ d_eod s' = d_eod s /\
     fdata (d_file s') = fdata (d_file s) /\ fpos (d_file s') = fpos (d_file s) + traces_at_r b (d_g2 s)) /\
  (traces_at_r b (d_g2 s) <= len b -> In (dec b 4 4) known_formats -> 24 * 65535 <= p_max_alloc p ->
   exists s', read_headers_before_traces p s = Ok s').
Proof.
  intros Hp G0 Ho Hbl Hg b. unfold read_headers_before_traces.
  pose proof (rest_bytes _ G0) as Hb. fold b in Hb, Ho.
  assert (Sr := dec2_range b 54 Hb). assert (Nr := dec2_range b 56 Hb).
  assert (Kr : 0 <= skews_r b).
  { unfold skews_r, esc_old. destruct (_ =? _); [destruct (two_of b); lia|]. apply dec2_range, Hb. }
  assert (Dr := esc_old_range b 30 37 (g2_extended_blocks (d_g2 s)) Hb ltac:(apply Hg)).
  assert (Lr := esc_old_range b 31 39 (g2_external_blocks (d_g2 s)) Hb ltac:(apply Hg)).
  fold (extds_r b (d_g2 s)) in Dr. fold (extls_r b (d_g2 s)) in Lr.
  fold (scans_of b) in Sr. fold (sets_of b) in Nr.
  assert (Ar := nib_range b 22 Hb). fold (add_of b) in Ar.
  assert (P0 : 0 <= fpos (d_file s)) by (apply G0).
  assert (Tl : traces_at_r b (d_g2 s) <= len b -> fpos (d_file s) + traces_at_r b (d_g2 s) <= len (fdata (d_file s))).
  { intros T. assert (L0 : 32 <= len b).
    { unfold traces_at_r, extds_at_r, sets_at in T. nia. }
    assert (fpos (d_file s) <= len (fdata (d_file s))).
    { unfold b, rest, len in L0. rewrite skipn_length in L0. unfold len. lia. }
    pose proof (rest_len (d_file s) ltac:(lia) P0) as R. fold b in R. lia. }
  destruct (general_rec p s bl Hp G0 Ho Hbl) as (U0 & S0 & C0). fold b in U0, S0, C0.
  destruct (read_general_headers p s) as [[[[[g1 g2] g3] m] f1]|e|];
    [|split; [discriminate|]; split; [discriminate|]; intros T; exfalso;
      specialize (Tl T); destruct C0 as [? C0]; [|discriminate]; unfold traces_at_r, extds_at_r in Tl; nia|congruence].
  destruct (S0 _ _ eq_refl) as (D1 & P1 & H1). clear S0 C0 U0.
  destruct (counts_r b (d_g2 s) bl g1 g2 g3 m Hb Hg H1) as (K1 & K2 & K3 & K4 & K5 & K6 & K7).
  destruct (K6 Ho) as [K6' K8].
  cbn [bind]. rewrite K6', K1, K2, K3, K4, K5, K7.
  assert (G1 : good_file f1).
  { unfold good_file. rewrite D1, P1. split; [apply G0|]. split; [unfold sets_at; lia|apply G0]. }
  destruct (d_sample_reader p (dec b 4 4)) as [rd|e|] eqn:Er;
    [|split; [discriminate|]; split; [discriminate|]; intros _ T _; exfalso;
      destruct (reader_known' p _ T) as [? T']; congruence|exfalso; exact (reader_not_ub _ _ Er)].
  cbn [bind].
  destruct (read_scan_types_reads p (Z.to_nat (sets_of b)) (skews_r b) (Z.to_nat (scans_of b)) Kr f1 G1)
    as (U2 & S2 & C2).
  rewrite D1, P1 in S2. rewrite !Z2Nat.id in S2, C2 by lia.
  destruct (read_scan_types p false (Z.to_nat (sets_of b)) (skews_r b) (Z.to_nat (scans_of b)) f1)
    as [[sets f2]|e|];
    [|split; [discriminate|]; split; [discriminate|]; intros T; exfalso; specialize (Tl T);
      destruct C2 as [? C2]; [|discriminate]; rewrite D1, P1; unfold traces_at_r, extds_at_r in Tl; nia|congruence].
  destruct (S2 _ _ eq_refl) as (D2 & P2 & Hc & Hn). clear S2 C2 U2. cbn [bind].
  assert (G2 : good_file f2).
  { unfold good_file. rewrite D2, P2. split; [apply G0|]. split; [unfold sets_at; nia|apply G0]. }
  assert (Rz : forall n, 0 <= n < 65536 -> resize_to p (24 * n) <> UB /\ (24 * 65535 <= p_max_alloc p -> exists u, resize_to p (24 * n) = Ok u)).
  { intros n Hn'. unfold resize_to. rewrite wrapu_small by lia. destruct (Z.leb_spec (24 * n) (p_max_alloc p)).
    - split; [discriminate|]. intros _. eexists. reflexivity.
    - split; [discriminate|]. lia. }
  destruct (Rz _ Dr) as (Ud & Cd). destruct (Rz _ Lr) as (Ul & Cl).
  destruct (resize_to p (24 * extds_r b (d_g2 s))) as [u|e|];
    [|split; [discriminate|]; split; [discriminate|]; intros _ _ T; destruct (Cd T); discriminate|congruence].
  cbn [bind].
  destruct (read_blks_reads (Z.to_nat (extds_r b (d_g2 s))) f2 G2) as (U3 & S3 & C3).
  rewrite D2, P2 in S3. rewrite Z2Nat.id in S3, C3 by lia.
  destruct (read_blks (Z.to_nat (extds_r b (d_g2 s))) f2) as [[extd f3]|e|];
    [|split; [discriminate|]; split; [discriminate|]; intros T; exfalso; specialize (Tl T);
      destruct C3 as [? C3]; [|discriminate]; rewrite D2, P2; unfold traces_at_r, extds_at_r in Tl; nia|congruence].
  destruct (S3 _ _ eq_refl) as (D3 & P3 & Hd). clear S3 C3 U3. cbn [bind].
  assert (G3 : good_file f3).
  { unfold good_file. rewrite D3, P3. split; [apply G0|]. split; [unfold sets_at; nia|apply G0]. }
  destruct (resize_to p (24 * extls_r b (d_g2 s))) as [u'|e|];
    [|split; [discriminate|]; split; [discriminate|]; intros _ _ T; destruct (Cl T); discriminate|congruence].
  cbn [bind].
  destruct (read_blks_reads (Z.to_nat (extls_r b (d_g2 s))) f3 G3) as (U4 & S4 & C4).
  rewrite D3, P3 in S4. rewrite Z2Nat.id in S4, C4 by lia.
  destruct (read_blks (Z.to_nat (extls_r b (d_g2 s))) f3) as [[extl f4]|e|];
    [|split; [discriminate|]; split; [discriminate|]; intros T; exfalso; specialize (Tl T);
      destruct C4 as [? C4]; [|discriminate]; rewrite D3, P3; unfold traces_at_r, extds_at_r in Tl; nia|congruence].
  destruct (S4 _ _ eq_refl) as (D4 & P4 & He). clear S4 C4 U4. cbn [bind].
  split; [discriminate|]. split; [|intros _ _ _; eexists; reflexivity].
  intros s' E. injection E as <-.
  unfold shown_r. cbn [d_g1 d_g2 d_g3 d_blocks d_sets d_extd d_extl d_file d_eod d_chans d_read d_layouts].
  assert (N0 : 0 <= sets_at b) by (unfold sets_at; lia).
  split; [split; [exact H1|split; [|split; [exact Hn|split; [|split; [|split; [reflexivity|split; [reflexivity|split; [exact K8|]]]]]]]]|].
  - replace (map (scan_blocks_r b) (seq 0 (Z.to_nat (scans_of b)))) with
      (scan_off (32 * (sets_of b + skews_r b)) (fpos (d_file s) + sets_at b) (Z.to_nat (scans_of b)) (fdata (d_file s))
         (Z.to_nat (sets_of b))); [exact Hc|].
    unfold scan_off, scan_blocks_r. apply map_ext. intros i.
    replace (fpos (d_file s) + sets_at b + 32 * (sets_of b + skews_r b) * Z.of_nat i) with
      (fpos (d_file s) + (sets_at b + 32 * (Z.of_nat i * (sets_of b + skews_r b)))) by ring.
    apply rest_blocks; nia.
  - rewrite Hd. rewrite <- (rest_blocks (d_file s)) by (unfold extds_at_r; nia). f_equal. unfold extds_at_r. lia.
  - rewrite He. rewrite <- (rest_blocks (d_file s)) by (unfold extds_at_r; nia).
    f_equal. unfold extds_at_r. lia.
  - rewrite K7. exact (reader_known p _ _ Er).
  - split; [reflexivity|]. split; [reflexivity|]. split; [congruence|].
    rewrite P4. unfold traces_at_r, extds_at_r. lia.
Qed.
