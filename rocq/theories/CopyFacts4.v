(** Lemmas for C62: opening the writer, and the whole file. *)
From Coq Require Import Reals.
From Verif Require Import BaseFacts Platform Fp FpSpec TraceHdr SegyTypes SegyCodec CodecSpec CodecFacts SampleFacts
     LayoutSpec LayoutFacts HdrFacts ISegy OSegy OpenFacts BinFacts WriterFacts RoundSpec ReaderFacts RoundFacts
     ReadSpec ReadFacts ReadFacts2 ReadFacts3 ReadFacts4 SegyDecSpec SegyDecFacts SegyDecFacts2 SegyDecFacts3 SegyDecFacts4 FileSpec FileFacts
     SegyEncSpec SegyEncFacts SegyEncFacts2 SegyEncFacts3 SegyEncFacts4 CopySpec CopyFacts CopyFacts2 CopyFacts3.
Local Open Scope Z_scope.

Lemma reads_writes p e fmt r : sample_reader p e fmt = Ok r -> exists w, sample_writer p e fmt = Ok w.
Proof.
  intros H. pose proof (reader_fmt _ _ _ _ H) as Sup. unfold supported in Sup. cbn [In] in Sup.
  repeat (destruct Sup as [<-|Sup]); try contradiction; eexists; reflexivity.
Qed.

Lemma resize_ok p n b : 0 <= n <= p_max_alloc p -> p_max_alloc p < 2 ^ 63 -> exists sb, resize_buf p n b = Ok sb.
Proof.
  intros H A. unfold resize_buf, resize_to. cbv zeta. rewrite wrapu_small by lia.
  replace (n <=? p_max_alloc p) with true by lia. cbn [bind]. eauto.
Qed.

Lemma write_bin_ok e b f : exists f', write_bin_header e b f = Ok f'.
Proof. unfold write_bin_header. rewrite bin_header_bytes_eq. cbn [bind]. 
  change (fseek TEXT_HEADER_SIZE f) with (Ok (mkFile (fdata f) TEXT_HEADER_SIZE)). cbn [bind]. eauto. Qed.

Lemma open12_ok p d t ts b e r : Forall (fun t => len t = 3200) (t :: ts) -> endian_of (bh_endianness b) = Ok e ->
  sample_reader p e (bh_format_code b) = Ok r ->
  exists b' bps f, open_12 p d (t :: ts) b = Ok (t :: ts, b', e, bps, f) /\ 1 <= bps <= 8 /\
    b' = set_ext_text_headers_num b (wraps 16 (wraps 32 (len (t :: ts) - 1))).
Proof.
  intros F E R. destruct (reads_writes _ _ _ _ R) as (w & W). pose proof (reader_fmt _ _ _ _ R) as Sup.
  destruct (bps_agree _ Sup) as (bps & _ & B & Hb). unfold open_12.
  replace (forallb is_3200 (t :: ts)) with true.
  2:{ symmetry. apply forallb_forall. intros x I. rewrite Forall_forall in F. unfold is_3200. apply Z.eqb_eq, F, I. }
  cbn [bind]. assert (N : (bh_format_code b =? 0) = false).
  { unfold supported in Sup. cbn [In] in Sup. lia. }
  rewrite N, E. cbn [bind]. destruct (write_bin_ok e b (write_text t empty_file)) as (f & ->). cbn [bind].
  change (bh_format_code (set_ext_text_headers_num b _)) with (bh_format_code b). rewrite W. cbn [bind]. rewrite B.
  eexists _, _, _. split; [reflexivity|]. split; [lia|reflexivity].
Qed.

Lemma same_major p b f : same_as p b (set_format_code bin_zero f) = true -> bh_SEGY_rev_major_ver b = 0.
Proof. unfold same_as. intros H. apply andb_prop in H as [H _]. apply bin_eqb_eq in H. rewrite H. reflexivity. Qed.

Lemma buf_ok p b bps : sane_alloc p -> 1 <= bps <= 8 -> exists sb, resize_buf p (wrapu 16 (bh_samp_per_tr b) * bps) [] = Ok sb.
Proof.
  intros (A1 & A2) H. pose proof (wrapu_bound 16 (bh_samp_per_tr b) ltac:(lia)) as W. apply resize_ok; [|exact A2].
  split; [nia|]. apply Z.le_trans with (2 ^ 19); [|exact A1]. change (2 ^ 19) with (2 ^ 16 * 8). nia.
Qed.

(** The writer of the same revision can be opened. *)
Lemma open_forward p b texts ls e r : sane_alloc p -> check_tr_hdr_map b ls = Ok tt ->
  texts <> [] -> Forall (fun t => len t = 3200) texts -> endian_of (bh_endianness b) = Ok e ->
  sample_reader p e (bh_format_code b) = Ok r ->
  exists s, w_open p (writer_for b texts) b ls = Ok s.
Proof.
  intros A Ck Nt F E R. destruct texts as [|t ts]; [congruence|]. clear Nt.
  assert (G1 : exists s, rev1_open p (t :: ts) b ls = Ok s).
  { unfold rev1_open. rewrite Ck. cbn [bind]. destruct (open12_ok p rev1_default_text t ts b e r F E R) as (b' & bps & f & -> & Hb & _).
    cbn [bind]. destruct (same_as _ _ _); [eauto|]. destruct (negb _); [|eauto].
    destruct (buf_ok p b' bps A Hb) as (sb & ->). cbn [bind]. eauto. }
  assert (G2 : exists s, rev2_open p (t :: ts) b [] ls = Ok s).
  { unfold rev2_open. rewrite Ck. cbn [bind]. replace (forallb is_3200 (t :: ts)) with true.
    2:{ symmetry. apply forallb_forall. intros x I. rewrite Forall_forall in F. unfold is_3200. apply Z.eqb_eq, F, I. }
    cbn [bind forallb]. destruct (open12_ok p rev2_default_text t ts b e r F E R) as (b' & bps & f & -> & Hb & _).
    cbn [bind]. destruct (same_as _ _ _); [eauto|]. destruct (negb (bh_fixed_tr_length _ =? 0)); [|eauto].
    destruct (buf_ok p b' bps A Hb) as (sb & ->). cbn [bind]. eauto. }
  assert (G0 : exists s, rev0_open p t b ls = Ok s).
  { inversion F as [|? ? F1 _]; subst. unfold rev0_open. rewrite Ck. cbn [bind].
    destruct t as [|x t]; [discriminate F1|]. unfold is_3200. replace (_ =? TEXT_HEADER_SIZE) with true by (symmetry; apply Z.eqb_eq, F1).
    cbn [bind]. pose proof (reader_fmt _ _ _ _ R) as Sup. assert (N : (bh_format_code b =? 0) = false).
    { unfold supported in Sup. cbn [In] in Sup. lia. }
    rewrite N, E. cbn [bind]. destruct (write_bin_ok e b (write_text (x :: t) empty_file)) as (f & ->). cbn [bind].
    destruct (reads_writes _ _ _ _ R) as (w & ->). cbn [bind]. destruct (bps_agree _ Sup) as (bps & _ & B & Hb). rewrite B.
    destruct (same_as _ _ _); [eauto|]. destruct (buf_ok p b (Z.of_nat bps) A ltac:(lia)) as (sb & ->). cbn [bind]. eauto. }
  unfold writer_for. destruct (bh_SEGY_rev_major_ver b) as [|q|q]; [exact G0| |exact G2].
  destruct q; [exact G2|exact G2|exact G1].
Qed.

Lemma given_for b texts : texts <> [] -> Forall (fun t => len t = 3200) texts ->
  given_texts (writer_for b texts) = match bh_SEGY_rev_major_ver b with 0 => [hd [] texts] | _ => texts end.
Proof.
  intros N F. destruct texts as [|t ts]; [congruence|]. inversion F as [|? ? F1 _]; subst.
  unfold writer_for. destruct (bh_SEGY_rev_major_ver b) as [|q|q]; cbn [given_texts hd].
  - destruct t; [discriminate F1|reflexivity].
  - destruct q; reflexivity.
  - reflexivity.
Qed.

Lemma with_fmt_id b d : bh_format_code b <> 0 -> with_fmt b d = b.
Proof. intros N. unfold with_fmt. destruct (Z.eqb_spec (bh_format_code b) 0); congruence. Qed.

(** The opened writer: what its file holds, and how it will write. *)
Lemma open_state p b texts ls s : texts <> [] -> Forall (fun t => len t = 3200) texts -> len texts <= 65536 ->
  bh_format_code b <> 0 -> bh_max_num_add_tr_headers b = 0 ->
  (bh_SEGY_rev_major_ver b = 0 -> len texts = 1 /\ ~ blank (writer_for b texts) b) ->
  w_open p (writer_for b texts) b ls = Ok s ->
  o_min s = MNone /\ o_add s = false /\ o_maps s = ls /\ o_good p s /\ bh_format_code (o_bh s) = bh_format_code b /\
  bh_num_of_trailer_stanza (o_bh s) = bh_num_of_trailer_stanza b /\
  o_var s = negb (same_length b) /\
  (o_var s = false -> len (o_sbuf s) = wrapu 64 (wrapu 16 (bh_samp_per_tr b) * o_bps s)) /\ at_end (o_file s) /\
  fdata (o_file s) = hd [] texts ++ bin_block (o_endian s) b ++ concat (tl texts) /\ bh_endianness (o_bh s) = bh_endianness b.
Proof.
  intros Nt F Lt Nf M0 Z0 H. destruct texts as [|t ts]; [congruence|]. inversion F as [|? ? F1 F2]; subst. cbn [hd tl].
  assert (FT : first_text t = t) by (apply first_text_id, F1).
  assert (FTs : map first_text ts = ts) by (apply first_texts_id, F2).
  assert (FI : forall d, with_fmt b d = b) by (intros d; apply with_fmt_id, Nf).
  assert (Hw : writer_for b (t :: ts) = match bh_SEGY_rev_major_ver b with 0 => W0 t | 1 => W1 (t :: ts) | _ => W2 (t :: ts) [] end) by reflexivity.
  unfold same_length. destruct (Z.eqb_spec (bh_SEGY_rev_major_ver b) 0) as [E0|E0].
  - destruct (Z0 E0) as (L1 & Nb). rewrite Hw, E0 in H. rewrite Hw, E0 in Nb. cbn [w_open] in H.
    pose proof (rev0_good _ _ _ _ _ H) as G.
    apply rev0_open_inv in H as (_ & t' & Ht & _ & Rd & Em & Ea & Ev & Eb & Md).
    assert (t' = t) as -> by (destruct Ht as [(-> & _)|(-> & _)]; [discriminate F1|reflexivity]).
    rewrite FI in Eb. rewrite Eb in *. destruct Rd as (D & _ & A & _ & _).
    assert (Mn : o_min s = MNone /\ resize_buf p (wrapu 16 (bh_samp_per_tr b) * o_bps s) [] = Ok (o_sbuf s)).
    { destruct Md as [Md|(_ & _ & Md)]; [exact Md|]. exfalso. apply Nb. unfold blank. cbn [dflt_fmt].
      replace (with_dflt (W0 t) b) with (with_fmt b 1) by reflexivity. rewrite FI, Md. reflexivity. }
    destruct Mn as (Mn & Rs). apply resize_buf_inv in Rs as (Rs & _).
    assert (ts = []) as -> by (rewrite len_cons in L1; destruct ts as [|a ts]; [reflexivity|]; rewrite len_cons in L1; pose proof (len_nonneg ts); lia).
    cbn [concat]. rewrite FT in D. rewrite orb_true_r. cbn [negb].
    repeat split; auto; apply G.
  - assert (Q : w_open p (writer_for b (t :: ts)) b ls = rev1_open p (t :: ts) b ls \/
                w_open p (writer_for b (t :: ts)) b ls = rev2_open p (t :: ts) b [] ls).
    { rewrite Hw. destruct (bh_SEGY_rev_major_ver b) as [|q|q]; [congruence| |right; reflexivity].
      destruct q; [right|right|left]; reflexivity. }
    clear Hw. rewrite H in Q.
    assert (X : o_good p s /\ ready s t b (concat ts) /\ o_maps s = ls /\ o_add s = false /\ o_bh s = set_ext_num b (t :: ts) /\
    ((o_min s <> MNone /\ o_sbuf s = [] /\ o_bh s = set_format_code bin_zero 5 /\ o_var s = true) \/
     (o_min s = MNone /\ bh_fixed_tr_length b <> 0 /\ o_var s = false /\
      resize_buf p (wrapu 16 (bh_samp_per_tr b) * o_bps s) [] = Ok (o_sbuf s)) \/
     (o_min s = MNone /\ bh_fixed_tr_length b = 0 /\ o_var s = true /\ o_sbuf s = []))).
    { destruct Q as [Q|Q]; symmetry in Q; (split; [first [exact (rev1_good _ _ _ _ _ Q)|exact (rev2_good _ _ _ _ _ _ Q)]|]).
      - apply rev1_open_inv in Q as (_ & t0 & tr & U & _ & Rd & Em & Ea & Eb & Md); [|exact Lt].
        destruct U as [(U & _)|(U & _)]; [discriminate|]. injection U as <- <-. rewrite FI, FT, FTs in *. auto.
      - apply rev2_open_inv in Q as (_ & _ & _ & t0 & tr & U & _ & Rd & Em & Ea & Eb & Md); [|exact Lt].
        destruct U as [(U & _)|(U & _)]; [discriminate|]. injection U as <- <-. rewrite FI, FT, FTs in *. rewrite M0 in Ea. auto. }
    clear Q H. destruct X as (G & (D & _ & A & _ & _) & Em & Ea & Eb & Md). rewrite orb_false_r, negb_involutive.
    assert (E1 : bh_format_code (o_bh s) = bh_format_code b) by (rewrite Eb; reflexivity).
    assert (E2 : bh_num_of_trailer_stanza (o_bh s) = bh_num_of_trailer_stanza b) by (rewrite Eb; reflexivity).
    assert (E3 : bh_endianness (o_bh s) = bh_endianness b) by (rewrite Eb; reflexivity).
    destruct Md as [(_ & _ & Md & _)|[(Mn & Fx & V & Rs)|(Mn & Fx & V & _)]].
    + exfalso. apply E0. transitivity (bh_SEGY_rev_major_ver (o_bh s)); [rewrite Eb; reflexivity|rewrite Md; reflexivity].
    + apply resize_buf_inv in Rs as (Rs & _). rewrite V. replace (bh_fixed_tr_length b =? 0) with false by lia.
      repeat split; auto; apply G.
    + rewrite V, Fx. repeat split; auto; try discriminate; apply G.
Qed.

Lemma concat_blocks c : forall bs pos, 0 <= pos -> blocks_at c pos bs -> concat bs = slice pos (3200 * len bs) c.
Proof.
  induction bs as [|b bs IH]; intros pos P H.
  - change (len (@nil (list Z))) with 0. reflexivity.
  - cbn [concat]. rewrite len_cons. pose proof (len_nonneg bs) as L0.
    destruct (H 0%nat b eq_refl) as (_ & E). replace (pos + 3200 * Z.of_nat 0) with pos in E by lia.
    rewrite (IH (pos + 3200)); [|lia|].
    + rewrite E, <- slice_cut by lia. f_equal. lia.
    + intros i x Hx. destruct (H (Datatypes.S i) x Hx) as (H1 & H2). split; [lia|]. rewrite H2. f_equal. lia.
Qed.
Lemma blocks_3200 c bs pos : 0 <= pos -> blocks_at c pos bs -> Forall (fun t => len t = 3200) bs.
Proof.
  intros P H. apply Forall_forall. intros x I. apply In_nth_error in I as (i & I). destruct (H i x I) as (L & ->).
  apply slice_length; lia.
Qed.

Lemma eod_end p content maps s : isegy_open p content maps = Ok s -> bh_num_of_trailer_stanza (i_bh s) = 0 ->
  i_eod s = len content.
Proof.
  intros H Z0. unfold isegy_open in H. pose proof (i_open_inv _ _ _ _ _ _ H) as (_ & _ & _ & _ & D & _).
  apply open_parts in H as (_ & _ & _ & f3 & f4 & f5 & X1 & X2 & X3).
  unfold read_trailer_stanzas in X3. rewrite Z0 in X3. change (0 =? -1) with false in X3. cbn [bind] in X3.
  change (sarith 32 (0 * TEXT_HEADER_SIZE)) with (@Ok Z 0) in X3. cbn [bind] in X3. apply bind_ok in X3 as (f6 & E6 & X3).
  apply bind_ok in X3 as ([st f7] & _ & X3). injection X3 as <- _ _.
  unfold fseek_end, fseek in E6. destruct (_ && _); [|discriminate]. injection E6 as <-. cbn [fpos]. rewrite Z.add_0_r. f_equal.
  apply ext_data in X1. cbn [fdata] in X1. destruct (_ =? 0); [injection X2 as _ <-; exact X1|].
  apply bind_ok in X2 as (f & Ef & X2). injection X2 as _ <-. unfold fseek in Ef. destruct (_ && _); [|discriminate].
  injection Ef as <-. exact X1.
Qed.

Lemma marker_same content b e : bytes content -> 3600 <= len content -> bh_endianness b = marker content ->
  endian_of (marker content) = Ok e -> slice 3296 4 content <> [1; 2; 3; 4] ->
  slice 3296 4 content = wr e 4 (bh_endianness b).
Proof.
  intros B L Em E N. destruct (four_bytes content B L) as (B4 & L4).
  pose proof (le_enc_dec _ B4) as Q. rewrite L4 in Q.
  assert (M : le_enc 4 (marker content) = slice 3296 4 content).
  { unfold marker. rewrite <- Q at 2. rewrite <- (le_enc_wrapu 4 (wraps _ _)). change (8 * Z.of_nat 4) with 32.
    rewrite wrapu_wraps by lia. change 32 with (8 * Z.of_nat 4). apply le_enc_wrapu. }
  rewrite Em. unfold endian_of in E. revert E N. rewrite <- M. generalize (marker content) as m. intros m.
  destruct (Z.eqb_spec m 16909060) as [->|N1]; [intros X _; injection X as <-; reflexivity|].
  destruct (Z.eqb_spec m 0) as [->|N2]; [cbn [orb]; intros X _; injection X as <-; reflexivity|].
  destruct (Z.eqb_spec m 67305985) as [->|N3]; cbn [orb]; intros X Y; [|discriminate].
  exfalso. apply Y. reflexivity.
Qed.

Lemma copy_file p content nm l ls s fuel ts s1 : sane_alloc p -> p_left_first p = true -> bytes content -> len content < 2 ^ 63 ->
  safe_layout l -> NoDup (names l) -> integers l -> short_count ((nm, l) :: ls) ->
  isegy_open p content ((nm, l) :: ls) = Ok s -> read_all p fuel s = Ok (ts, s1) ->
  (exists bs, i_text s = slice 0 3200 content :: bs /\ blocks_at content 3600 bs /\
    (0 <= bh_ext_text_headers_num (i_bh s) -> len bs = bh_ext_text_headers_num (i_bh s))) ->
  plain content (i_bh s) (i_text s) ->
  tidy p (ord (i_endian s)) (bh_format_code (i_bh s)) l content (i_cur s) ts ->
  exists s2 s3, w_open p (writer_for (i_bh s) (i_text s)) (i_bh s) ((nm, l) :: ls) = Ok s2 /\
    write_traces p s2 ts = Ok s3 /\ fdata (o_file s3) = content /\ rev2_close s3 = Ok (mkFile content (len content)).
Proof.
  intros A Hp B Ln Sf N Ints Sc O Ra (bs & Et & Bk & Nb) Pl Ti. pose proof A as (A1 & A2).
  destruct Pl as (P1 & P2 & P3 & P4 & P5 & P6 & P7 & P8 & P9 & P10).
  assert (Op : opened p content ((nm, l) :: ls) s) by (left; exact O).
  pose proof (opened_inv _ _ _ _ Op A2 Ln) as (I & Mp & Dt). pose proof (open_first _ _ _ _ Op) as Fi. rewrite P7 in Fi.
  pose proof (eod_end _ _ _ _ O P6) as Eo. pose proof (open_says _ _ _ _ B O) as (S1 & S2 & _).
  pose proof O as O'. unfold isegy_open in O'. pose proof (open_shape _ _ _ _ _ _ O') as (Sp & _).
  pose proof (i_open_inv _ _ _ _ _ _ O') as ((r & R) & Bps & En & _ & _ & _ & _ & _ & _ & _ & _ & Ck).
  apply open_parts in O' as (L & (cc & Fl) & Ee & _).
  pose proof (fill_endianness _ _ _ _ _ Fl) as Me. rewrite bh_endianness_set in Me.
  assert (Tx : Forall (fun t => len t = 3200) (i_text s)).
  { rewrite Et. constructor; [apply slice_length; lia|]. eapply blocks_3200; [|exact Bk]. lia. }
  assert (Nt : i_text s <> []) by (rewrite Et; discriminate).
  assert (Cb : check_tr_hdr_map (i_bh s) ((nm, l) :: ls) = Ok tt).
  { apply check_map_intro; [right; left; exact P5|]. apply (check_map_ok _ _ Ck). }
  destruct (open_forward p (i_bh s) (i_text s) ((nm, l) :: ls) _ _ A Cb Nt Tx En R) as (s2 & O2).
  pose proof (reader_fmt _ _ _ _ R) as Sup.
  assert (Nf : bh_format_code (i_bh s) <> 0) by (unfold supported in Sup; cbn [In] in Sup; lia).
  assert (Z0 : bh_SEGY_rev_major_ver (i_bh s) = 0 -> len (i_text s) = 1 /\ ~ blank (writer_for (i_bh s) (i_text s)) (i_bh s)).
  { intros E. destruct (P9 E) as (Q1 & Q2). split; [|exact Q2]. rewrite Et, len_cons, Nb by lia. lia. }
  pose proof (open_state p (i_bh s) (i_text s) _ s2 Nt Tx P10 Nf P5 Z0 O2) as (W1 & W2 & W3 & W4 & W5 & W6 & W7 & W8 & W9 & W10 & W11).
  pose proof W4 as (_ & Wb & We). rewrite W11, En in We. injection We as We.
  assert (Bp : o_bps s2 = sample_width (bh_format_code (i_bh s))).
  { rewrite <- W5. apply width_bps; [exact Wb|]. rewrite W5. exact Sup. }
  assert (Wr : 1 <= o_bps s2 <= 8).
  { rewrite W5 in Wb. destruct (bps_agree _ Sup) as (k & _ & Bk' & Hk). rewrite Bk' in Wb. injection Wb as <-. lia. }
  destruct (all_traces p Hp A2 fuel s ts s1 I) as (It & Ft); try (rewrite ?Dt, ?Mp; assumption).
  rewrite Mp, Dt, Eo in It.
  assert (Tn : tl (i_text s) = bs) by (rewrite Et; reflexivity).
  assert (Lt : len (i_text s) = 1 + len bs) by (rewrite Et; apply len_cons). pose proof (len_nonneg bs) as L0.
  assert (Pr : fdata (o_file s2) = slice 0 (i_cur s) content).
  { rewrite W10, Tn, (concat_blocks content bs 3600 ltac:(lia) Bk). replace (hd [] (i_text s)) with (slice 0 3200 content) by (rewrite Et; reflexivity).
    rewrite <- We. rewrite <- (bin_same content (i_endian s) B L (i_bh s)); try assumption.
    - change (slice 3600 (3200 * len bs) content) with (slice (3200 + 400) (3200 * len bs) content).
      rewrite <- (slice_cut 3200) by lia. change (slice 3200 (400 + 3200 * len bs) content) with (slice (0 + 3200) (400 + 3200 * len bs) content).
      rewrite <- (slice_cut 0) by lia. f_equal. lia.
    - destruct (Z.ltb_spec 1 (bh_SEGY_rev_major_ver (i_bh s))); [exact S2|]. apply zero_says; auto.
    - apply marker_same; auto. }
  destruct (copy_traces p nm l ls (i_bh s) content r (i_endian s) Hp A2 B Sf N Ints R P5 ts s2 (i_cur s) (len content)) as (s3 & Wt & D3 & A3 & B3 & Hn);
    try assumption; try congruence; try lia.
  { intros V. rewrite W8 by exact V. rewrite W7 in V. rewrite P8 by (destruct (same_length _); [reflexivity|discriminate]).
    rewrite (as_unsigned_wrapu 2). change (8 * Z.of_nat 2) with 16. pose proof (wrapu_bound 16 (bh_samp_per_tr (i_bh s)) ltac:(lia)).
    apply wrapu_small. nia. }
  exists s2, s3. split; [exact O2|]. split; [exact Wt|].
  assert (D : fdata (o_file s3) = content).
  { rewrite D3, Pr. replace (i_cur s) with (0 + i_cur s) at 2 by lia. rewrite <- slice_cut by lia.
    replace (i_cur s + (len content - i_cur s)) with (len content) by lia. unfold slice, len. rewrite Nat2Z.id. cbn [Z.to_nat skipn]. apply firstn_all. }
  split; [exact D|]. unfold rev2_close. rewrite B3, W6, P6. unfold fseek_end, fseek. rewrite D, Z.add_0_r.
  replace ((0 <=? len content) && (len content <? 2 ^ 63)) with true by (pose proof (len_nonneg content); lia). reflexivity.
Qed.
