(** Proofs of the properties of arbitrary SEG-D files of revision below 3. *)
From Verif Require Import BaseFacts Bcd BcdSpec BcdFacts BcdFacts2 Platform CodecSpec CodecFacts Fp FpSpec TraceHdr
  SegyTypes SegyCodec ISegy SegdTypes SegdSpec SegdDecSpec ISegd OpenFacts ReadFacts2 NibFacts SegdHdrFacts
  SegdFileFacts SegdDecFacts SegdOpenFacts.
Local Open Scope Z_scope.

Lemma get_gN_inv (s : isegd) b : gh_shown b (d_g1 s, d_g2 s, d_g3 s, d_blocks s) -> old_rev b ->
  exists hs, get_gN s = Ok hs /\
    (forall h, In h hs -> exists x, last_with (more_blocks b) (gN_block_num h) x /\ ghN_of x h) /\
    (forall x, In x (more_blocks b) -> exists h, In h hs /\ gN_block_num h = byt x 18).
Proof.
  intros (H1 & H2 & L & L2) Ho.
  assert (Ha : g1_add_blocks (d_g1 s) = add_of b).
  { destruct H1 as (_ & _ & _ & _ & H1 & _). rewrite H1. apply nib_slice. lia. }
  unfold get_gN. rewrite Ha. destruct (Z.eqb_spec (add_of b) 0) as [Z0|Nz].
  - exists []. cbn [orb]. split; [reflexivity|]. split; [intros h []|].
    intros x Hx. unfold more_blocks in Hx. rewrite Z0 in Hx. destruct Hx.
  - destruct H2 as ((_ & _ & _ & _ & M & _) & _ & (S & I & K)).
    assert (Mj : g2_major (d_g2 s) < 3).
    { rewrite M, byt_slice by lia. destruct Ho as [Ho|Ho]; [contradiction|exact Ho]. }
    destruct (Z.ltb_spec 2 (g2_major (d_g2 s))) as [Q|Q]; [lia|]. cbn [orb].
    clear S. revert I K. generalize (d_blocks s). intros m I K.
    assert (X : exists hs, mapM (fun kb : Z * addblk => match snd kb with AN h => Ok h | A3 _ _ _ => UB end) m = Ok hs /\
      (forall h, In h hs -> In (gN_block_num h, AN h) m) /\ (forall k, In k (map fst m) -> exists h, In h hs /\ gN_block_num h = k)).
    { clear K. revert I. generalize (more_blocks b). intros bl I.
      induction m as [|kb m IH]; cbn [mapM]; [exists []; split; [reflexivity|]; split; [intros h []|intros k []]|].
      destruct IH as (hs & E & X1 & X2); [intros kb' Hkb; apply I; right; exact Hkb|].
      destruct (I kb (or_introl eq_refl)) as (h & x & E1 & E2 & _). rewrite E1. cbn [bind]. rewrite E. cbn [bind].
      exists (h :: hs). split; [reflexivity|]. split.
      - intros h' [<-|H]; [left; destruct kb; cbn in *; congruence|right; auto].
      - intros k [<-|H]; [exists h; split; [left; reflexivity|auto]|].
        destruct (X2 k H) as (h' & X3 & X4). exists h'. split; [right; exact X3|exact X4]. }
    destruct X as (hs & E & X1 & X2). exists hs. split; [exact E|]. split.
    + intros h Hh. destruct (I _ (X1 h Hh)) as (h' & x & E1 & E2 & E3 & E4). cbn [fst snd] in *.
      injection E1 as <-. exists x. split; [exact E3|exact E4].
    + intros x Hx. apply X2, K, Hx.
Qed.

Lemma headers_decoded p content ls s : p_left_first p = true -> bytes content -> len content < 2 ^ 63 ->
  old_rev content -> isegd_open p content ls = Ok s ->
  gh1_of (slice 0 32 content) (d_g1 s) /\
  (add_of content = 0 -> get_g2 s = None) /\
  (add_of content <> 0 -> exists g, get_g2 s = Some g /\ gh2_of (slice 32 32 content) g) /\
  (exists hs, get_gN s = Ok hs /\
    (forall h, In h hs -> exists x, last_with (more_blocks content) (gN_block_num h) x /\ ghN_of x h) /\
    (forall x, In x (more_blocks content) -> exists h, In h hs /\ gN_block_num h = byt x 18)) /\
  Forall2 (Forall2 chset_of) (map (scan_blocks content) (seq 0 (Z.to_nat (scans_of content)))) (d_sets s) /\
  d_extd s = blocks32 content (extds_at content) (Z.to_nat (extds_of content)) /\
  d_extl s = blocks32 content (extds_at content + 32 * extds_of content) (Z.to_nat (extls_of content)) /\
  fdata (d_file s) = content /\ fpos (d_file s) = traces_at content /\
  d_chans s = fold_right Z.add 0 (map c_channels (concat (d_sets s))) /\ d_read s = 0.
Proof.
  intros Hp Hb Hl Ho E. destruct (open_old p content ls Hp Hb Hl Ho) as (_ & S & _).
  destruct (S s E) as ((H1 & H2 & _ & H3 & H4 & H5 & H6 & _ & H7 & H8) & _). clear S.
  pose proof (get_gN_inv s content H1 Ho) as HN. destruct H1 as (G1 & G2 & _).
  assert (Ha : g1_add_blocks (d_g1 s) = add_of content).
  { destruct G1 as (_ & _ & _ & _ & G1 & _). rewrite G1. apply nib_slice. lia. }
  unfold get_g2. rewrite Ha. split; [exact G1|].
  destruct (Z.eqb_spec (add_of content) 0) as [Z0|Nz].
  - split; [reflexivity|]. split; [contradiction|]. auto 10.
  - split; [contradiction|]. split; [intros _; eexists; split; [reflexivity|apply G2]|]. auto 10.
Qed.

(** ** Traces without a sample count *)

Definition no_counts (s : isegd) : Prop := Forall (Forall (fun c => c_number_of_samples c = Some 0)) (d_sets s).

Lemma nth_1_in {A} (l : list A) i a : nth_1 l i = Ok a -> In a l.
Proof.
  unfold nth_1. destruct (_ && _); [|discriminate]. destruct (nth_error l _) eqn:E; [|discriminate].
  intros H. injection H as <-. exact (nth_error_In _ _ E).
Qed.

Lemma read_trace_empty p s t s' : no_counts s -> d_read_trace p s = Ok (t, s') ->
  (hget (t_hdr t) "SAMP_NUM" = None -> t_smp t = []) /\
  (d_chans s <> wrapu 64 (d_read s + 1) -> d_sets s' = d_sets s /\ d_chans s' = d_chans s /\ d_read s' = wrapu 64 (d_read s + 1)).
Proof.
  intros N H. unfold d_read_trace in H.
  destruct (fread TRACE_HEADER_SIZE (d_file s)) as [[buf f1]|e|]; [|discriminate|discriminate]. cbn [bind] in H.
  destruct (rd_trace_header p buf) as [[h0 c0]|e|]; [|discriminate|discriminate]. cbn [bind] in H.
  destruct (read_trace_header_ext p s h0 f1) as [[h f2]|e|]; [|discriminate|discriminate]. cbn [bind] in H.
  destruct (read_trace_samples p s h f2) as [[smp f3]|e|] eqn:E; [|discriminate|discriminate]. cbn [bind] in H.
  assert (T : t = mkTrace h smp).
  { destruct (_ =? _) in H; [|injection H as <- _; reflexivity].
    destruct (if has_record _ then _ else _) in H; cbn [bind] in H; try discriminate. injection H as <- _. reflexivity. }
  split.
  - intros Hn. rewrite T in *. cbn [t_hdr t_smp] in *. clear H T.
    unfold read_trace_samples in E.
    destruct (curr_ch_set s h) as [c|e|] eqn:Ec; [|discriminate|discriminate]. cbn [bind] in E.
    assert (Zc : c_number_of_samples c = Some 0).
    { unfold curr_ch_set in Ec. destruct (get_int (fst (hidx h "SCAN_TYPE_NUM"))); cbn [bind] in Ec; try discriminate.
      destruct (get_int (fst (hidx h "CH_SET_NUM"))); cbn [bind] in Ec; try discriminate.
      destruct (nth_1 (d_sets s) a) as [cs|e|] eqn:E1; cbn [bind] in Ec; try discriminate.
      apply nth_1_in in E1. apply nth_1_in in Ec. unfold no_counts in N. rewrite Forall_forall in N.
      specialize (N cs E1). rewrite Forall_forall in N. exact (N c Ec). }
    unfold samp_num_of in E. rewrite Hn, Zc in E. cbn [bind] in E.
    destruct (d_sample_reader p (g1_format_code (d_g1 s))) as [[bits rs]|e|]; [|discriminate|discriminate].
    cbn [bind] in E. destruct (resize_to p _); cbn [bind] in E; try discriminate.
    destruct (fread _ f2) as [[b f]|e|]; cbn [bind] in E; try discriminate.
    try (destruct (resize_to p _); cbn [bind] in E; try discriminate).
    cbn [Z.to_nat prep pret bind] in E. injection E as <- _. reflexivity.
  - intros Nc. destruct (Z.eqb_spec (d_chans s) (wrapu 64 (d_read s + 1))); [contradiction|].
    injection H as _ <-. cbn. auto.
Qed.

Lemma take_empty p n : forall s ts s', no_counts s -> 0 <= d_read s -> d_read s + Z.of_nat n <= d_chans s ->
  d_chans s < 2 ^ 64 -> d_take p n s = Ok (ts, s') ->
  Forall (fun t => hget (t_hdr t) "SAMP_NUM" = None -> t_smp t = []) ts.
Proof.
  induction n as [|n IH]; intros s ts s' N H0 H1 H2 E; cbn [d_take] in E.
  - injection E as <- _. constructor.
  - destruct (d_read_trace p s) as [[t s1]|e|] eqn:Et; [|discriminate|discriminate]. cbn [bind] in E.
    destruct (d_take p n s1) as [[ts1 s2]|e|] eqn:E1; [|discriminate|discriminate]. cbn [bind] in E.
    injection E as <- _. destruct (read_trace_empty p s t s1 N Et) as [T K].
    constructor; [exact T|]. destruct n as [|n]; [cbn in E1; injection E1 as <- _; constructor|].
    destruct K as (K1 & K2 & K3); [rewrite wrapu_small by lia; lia|].
    rewrite wrapu_small in K3 by lia.
    apply (IH s1 ts1 s2); [unfold no_counts; rewrite K1; exact N|lia|lia|lia|exact E1].
Qed.

Lemma no_count_no_samples p content ls s n ts s' : p_left_first p = true -> bytes content -> len content < 2 ^ 63 ->
  old_rev content -> isegd_open p content ls = Ok s ->
  Z.of_nat n <= d_chans s < 2 ^ 64 -> d_take p n s = Ok (ts, s') ->
  Forall (fun t => hget (t_hdr t) "SAMP_NUM" = None -> t_smp t = []) ts.
Proof.
  intros Hp Hb Hl Ho E Hn Et. destruct (open_old p content ls Hp Hb Hl Ho) as (_ & S & _).
  destruct (S s E) as ((_ & _ & N & _ & _ & _ & _ & _ & _ & R) & _).
  apply (take_empty p n s ts s' N); [lia|lia|lia|exact Et].
Qed.
