(** Lemmas about reading traces back (C16-C18). *)
From Verif Require Import BaseFacts Platform Fp TraceHdr SegyTypes SegyCodec CodecFacts SampleFacts
     HdrFacts ISegy OSegy OpenFacts CodecSpec LayoutSpec LayoutFacts BinFacts WriterFacts RoundSpec.

Lemma fread_app a b c f : fdata f = a ++ b ++ c -> fpos f = len a ->
  fread (len b) f = Ok (b, mkFile (fdata f) (len a + len b)).
Proof.
  intros D P. unfold fread. destruct (Z.eqb_spec (len b) 0) as [Z0|N0].
  - apply len_0 in Z0. subst b. destruct f as [d q]. cbn [fdata fpos] in *. rewrite P.
    unfold len at 2. cbn. rewrite Z.add_0_r. reflexivity.
  - rewrite P, D, !len_app. pose proof (len_nonneg c).
    replace (len a + len b <=? len a + (len b + len c)) with true by lia.
    rewrite slice_mid. reflexivity.
Qed.

Lemma sample_reader_prefix p e fmt r n : sample_reader p e fmt = Ok r ->
  bytes_per_sample fmt = Some (Z.of_nat n) -> prefix_reader r n.
Proof.
  intros H B. destruct (fmt_cases fmt) as [Hin|[Hr _]]; [|rewrite Hr in H; discriminate].
  unfold supported in Hin. cbn [In] in Hin.
  repeat (destruct Hin as [<-|Hin]); try contradiction;
    cbn [sample_reader bytes_per_sample] in *; injection H as <-; injection B as B;
    apply (Nat2Z.inj _ _) in B || (replace n with (Z.to_nat (Z.of_nat n)) by apply Nat2Z.id; rewrite <- B);
    first [apply rd_u_prefix | apply pmap_prefix; first [apply rd_u_prefix|apply rd_i_prefix|apply rd_u24_prefix|apply rd_i24_prefix]].
Qed.

Lemma prep_back (w : Z -> outcome (list Z)) (r : P Z) n : prefix_reader r n ->
  forall ds encs, mapM w ds = Ok encs -> Forall (fun x => List.length x = n) encs ->
  exists ds', (forall rest, prep r (List.length ds) (concat encs ++ rest) = Ok (ds', rest)) /\
    Forall2 (fun d d' => exists bs, w d = Ok bs /\ forall rest, r (bs ++ rest) = Ok (d', rest)) ds ds'.
Proof.
  intros Hr. induction ds as [|d ds IH]; intros encs M F; cbn [mapM] in M.
  - injection M as <-. exists []. split; [reflexivity|constructor].
  - apply bind_ok in M as (bs & E & M). apply bind_ok in M as (encs' & M & H). injection H as <-.
    inversion F as [|? ? F1 F2]; subst. destruct (Hr bs eq_refl) as (d' & K).
    destruct (IH _ M F2) as (ds' & P & Q).
    exists (d' :: ds'). split; [|constructor; [exists bs; auto|exact Q]].
    intros rest. cbn [List.length prep concat]. rewrite <- app_assoc.
    rewrite (pbind_ok _ _ _ _ _ (K _)), (pbind_ok _ _ _ _ _ (P _)). reflexivity.
Qed.

(** Header block back. *)
Lemma block_back p e l h hb : safe_layout l -> NoDup (names l) -> p_left_first p = true ->
  hdr_block p e l h = Ok hb ->
  exists h', rd_fields p e hb l [] = Ok h' /\ header_back p e l h h'.
Proof.
  intros S ND LF H. destruct (hdr_block_spec p e l h hb S H) as (L & B & F & _).
  destruct (rd_fields_ok p e hb l L (proj1 S) []) as (h' & E & O & V & _ & _).
  exists h'. split; [exact E|]. split; [|split].
  - intros en f z Hin Hf Hg. rewrite (V ND en Hin). f_equal.
    eapply fval_int; [exact Hf|exact LF|apply given_int; exact Hg|apply F, Hin].
  - intros en Hin. exists (slice (e_off en) (width (e_type en)) hb),
      (fval p e (e_type en) (slice (e_off en) (width (e_type en)) hb)).
    split; [apply F, Hin|]. split; [|apply (V ND en Hin)].
    intros rest. apply rd_field_app. destruct (proj1 S en Hin). apply slice_length; pose proof (width_pos (e_type en)); lia.
  - intros k K. rewrite (O k K). reflexivity.
Qed.

(** The parts of the reader that never change. *)
Definition same_reader (s s' : isegy) : Prop :=
  i_bh s' = i_bh s /\ i_maps s' = i_maps s /\ i_text s' = i_text s /\ i_stanzas s' = i_stanzas s /\
  i_endian s' = i_endian s /\ i_bps s' = i_bps s /\ i_spt s' = i_spt s /\ i_first s' = i_first s /\
  i_eod s' = i_eod s /\ fdata (i_file s') = fdata (i_file s).
Lemma same_reader_refl s : same_reader s s.
Proof. repeat split. Qed.
Lemma same_reader_trans a b c : same_reader a b -> same_reader b c -> same_reader a c.
Proof. unfold same_reader. intuition congruence. Qed.

(** The number of samples the reader will take is that of the trace. *)
Definition length_known (p : platform) (s : isegy) (l : layout) (t : trace) : Prop :=
  if is_fixed (i_bh s) then i_bufsz s = len (t_smp t) * i_bps s
  else counted l t /\ len (t_smp t) * i_bps s <= p_max_alloc p /\ len (t_smp t) * i_bps s < 2 ^ 64.

Section OneTrace.
Variables (p : platform) (nm : string) (l : layout) (ls : layouts) (w : Z -> outcome (list Z)).
Variables (s : isegy) (t : trace) (a c hb : list Z) (encs : list (list Z)).
Hypothesis Hm : i_maps s = (nm, l) :: ls.
Hypothesis HS : safe_layout l.
Hypothesis HN : NoDup (names l).
Hypothesis HL : p_left_first p = true.
Hypothesis Hadd : bh_max_num_add_tr_headers (i_bh s) = 0.
Hypothesis Hw : sample_writer p (i_endian s) (bh_format_code (i_bh s)) = Ok w.
Hypothesis Hb : bytes_per_sample (bh_format_code (i_bh s)) = Some (i_bps s).
Hypothesis Hhb : hdr_block p (i_endian s) l (t_hdr t) = Ok hb.
Hypothesis He : mapM w (t_smp t) = Ok encs.
Hypothesis Hd : fdata (i_file s) = a ++ (hb ++ concat encs) ++ c.
Hypothesis Hp : fpos (i_file s) = len a.

Lemma read_one : length_known p s l t ->
  exists t' s', read_trace p s = Ok (t', s') /\
    trace_back p (i_endian s) (bh_format_code (i_bh s)) l t t' /\ same_reader s s' /\
    fpos (i_file s') = len (a ++ (hb ++ concat encs)) /\ i_cur s' = fpos (i_file s') /\
    (is_fixed (i_bh s) = true -> i_bufsz s' = i_bufsz s).
Proof.
  intros K.
  destruct (block_back _ _ _ _ _ HS HN HL Hhb) as (h' & Eh & BH).
  destruct (hdr_block_spec _ _ _ _ _ HS Hhb) as (Lb & _).
  pose proof (writer_fmt _ _ _ _ Hw) as Sup.
  destruct (bps_agree _ Sup) as (n & B1 & B2 & Hn). rewrite Hb in B1. injection B1 as Bn.
  destruct (supported_ok p (i_endian s) _ Sup) as [Or _].
  destruct (sample_reader p (i_endian s) (bh_format_code (i_bh s))) as [r| |] eqn:Er; try discriminate.
  assert (F : Forall (fun x => List.length x = n) encs).
  { destruct (encs_len _ _ _ _ _ _ _ Hw B2 He) as [F _]. rewrite Nat2Z.id in F. exact F. }
  rewrite Bn in Hb. destruct (prep_back w r n (sample_reader_prefix _ _ _ _ _ Er Hb) _ _ He F) as (ds & P1 & P2).
  assert (Le : len (concat encs) = len (t_smp t) * i_bps s).
  { rewrite Bn. apply mapM_length in He. clear - F He. unfold len in *. rewrite <- He. clear He.
    induction F as [|x xs Hx _ IH]; cbn [concat List.length]; [reflexivity|]. rewrite app_length. lia. }
  assert (FB : Forall2 (sample_back p (i_endian s) (bh_format_code (i_bh s))) (t_smp t) ds).
  { clear - P2 Er Hw. induction P2 as [|x y lx ly (bs & W & R) _ IH]; constructor; auto.
    exists w, r, bs. auto. }
  assert (RH : read_trc_header p s = Ok (h', mkFile (fdata (i_file s)) (len a + len hb))).
  { unfold read_trc_header. rewrite Hadd. change (sarith 32 (0 + 1)) with (Ok 1). cbn [bind].
    rewrite Hm. cbn [rd_headers]. change (1 <=? 0) with false. cbv iota.
    change TR_HEADER_SIZE with 240. rewrite <- Lb at 1.
    rewrite (fread_app a hb (concat encs ++ c) (i_file s)); [|rewrite Hd, <- !app_assoc; reflexivity|exact Hp].
    cbn [bind]. rewrite Eh. cbn [bind]. destruct ls as [|[? ?] ?]; reflexivity. }
  assert (RS : forall sz, sz = len (concat encs) ->
     read_smpls p s sz (mkFile (fdata (i_file s)) (len a + len hb))
     = Ok (ds, mkFile (fdata (i_file s)) (len a + len hb + len (concat encs)))).
  { intros sz ->. unfold read_smpls.
    rewrite (fread_app (a ++ hb) (concat encs) c); cbn [fdata fpos];
      [|rewrite Hd, <- !app_assoc; reflexivity|rewrite len_app; reflexivity].
    cbn [bind]. rewrite Er. cbn [bind]. rewrite Le, Z.div_mul by lia. rewrite len_to_nat.
    specialize (P1 []). rewrite app_nil_r in P1. rewrite P1. cbn [bind]. rewrite len_app. reflexivity. }
  unfold read_trace. rewrite RH. cbn [bind]. unfold length_known in K.
  destruct (is_fixed (i_bh s)).
  - rewrite RS by (rewrite K, Le; reflexivity). cbn [bind].
    eexists. eexists. split; [reflexivity|]. split; [split; [exact BH|exact FB]|].
    split; [repeat split|]. cbn [i_set i_file i_cur i_bufsz fpos]. rewrite !len_app.
    split; [lia|]. auto.
  - destruct K as ((G & en & f & Hin & En & Hf & Ff) & Ka & K64).
    assert (V : hget h' "SAMP_NUM" = Some (VInt (len (t_smp t)))).
    { rewrite <- En. rewrite (proj1 BH en f (len (t_smp t)) Hin Hf); [rewrite Ff; reflexivity|].
      rewrite En. exact G. }
    unfold hidx. rewrite V. cbn [get_int bind].
    pose proof (len_nonneg (t_smp t)) as N0.
    assert (N1 : len (t_smp t) < 2 ^ 64) by nia.
    rewrite (wrapu_small 64 (len (t_smp t))) by lia.
    rewrite (wrapu_small 64 (len (t_smp t) * i_bps s)) by nia.
    replace (if i_bufsz s =? len (t_smp t) * i_bps s then Ok (len (t_smp t) * i_bps s)
             else resize_to p (len (t_smp t) * i_bps s)) with (Ok (len (t_smp t) * i_bps s)).
    2:{ destruct (_ =? _); [reflexivity|]. unfold resize_to. cbv zeta. rewrite wrapu_small by nia.
        replace (_ <=? _) with true by lia. reflexivity. }
    cbn [bind]. rewrite RS by (rewrite Le; reflexivity). cbn [bind].
    eexists. eexists. split; [reflexivity|]. split; [split; [exact BH|exact FB]|].
    split; [repeat split|]. cbn [i_set i_file i_cur i_bufsz fpos]. rewrite !len_app.
    split; [lia|]. split; [lia|]. discriminate.
Qed.
End OneTrace.

(** Every trace of a sequence of exactly filled records. *)
Definition exact_record (p : platform) (e : endian) (fmt : Z) (l : layout) (t : trace) (r : list Z) : Prop :=
  exists hb w encs, r = hb ++ concat encs /\ hdr_block p e l (t_hdr t) = Ok hb /\
    sample_writer p e fmt = Ok w /\ mapM w (t_smp t) = Ok encs.

Lemma read_records p nm l ls : safe_layout l -> NoDup (names l) -> p_left_first p = true ->
  forall ts recs s a,
  i_maps s = (nm, l) :: ls -> bh_max_num_add_tr_headers (i_bh s) = 0 ->
  bytes_per_sample (bh_format_code (i_bh s)) = Some (i_bps s) ->
  Forall2 (exact_record p (i_endian s) (bh_format_code (i_bh s)) l) ts recs ->
  fdata (i_file s) = a ++ concat recs -> fpos (i_file s) = len a -> i_cur s = len a ->
  i_eod s = len (fdata (i_file s)) ->
  (forall t, In t ts -> length_known p s l t) ->
  exists ts' s', read_all p (List.length ts) s = Ok (ts', s') /\ has_trace s' = false /\
    Forall2 (trace_back p (i_endian s) (bh_format_code (i_bh s)) l) ts ts' /\ same_reader s s'.
Proof.
  intros HS HN HL. induction ts as [|t ts IH]; intros recs s a Hm Hadd Hb FR Hd Hp Hc Heod K.
  - inversion FR; subst. cbn [concat] in Hd. rewrite app_nil_r in Hd.
    exists [], s. cbn [List.length read_all]. unfold has_trace. rewrite Hc, Heod, Hd, Z.eqb_refl. cbn [negb].
    repeat split; auto.
  - inversion FR as [|? r ? recs' (hb & w & encs & -> & Hhb & Hw & He) FR']; subst.
    cbn [concat] in Hd.
    destruct (read_one p nm l ls w s t a (concat recs') hb encs Hm HS HN HL Hadd Hw Hb Hhb He Hd Hp
                (K t (or_introl eq_refl))) as (t' & s1 & R & TB & SR & P1 & C1 & BF).
    pose proof SR as (S1 & S2 & S3 & S4 & S5 & S6 & S7 & S8 & S9 & S10).
    destruct (IH recs' s1 (a ++ (hb ++ concat encs))) as (ts' & s2 & R2 & HT & FB & SR2).
    + congruence.
    + rewrite S1. exact Hadd.
    + rewrite S1, S6. exact Hb.
    + rewrite S1, S5. exact FR'.
    + rewrite S10, Hd, <- !app_assoc. reflexivity.
    + exact P1.
    + rewrite C1. exact P1.
    + rewrite S9, S10. exact Heod.
    + intros t0 H0. specialize (K t0 (or_intror H0)). unfold length_known in *. rewrite S1, S6.
      destruct (is_fixed (i_bh s)); [rewrite BF by reflexivity; exact K|exact K].
    + exists (t' :: ts'), s2. cbn [List.length read_all].
      assert (HT1 : has_trace s = true).
      { unfold has_trace. rewrite Hc, Heod, Hd, !len_app.
        destruct (hdr_block_spec _ _ _ _ _ HS Hhb) as (Lb & _).
        pose proof (len_nonneg (concat encs)). pose proof (len_nonneg (concat recs')).
        destruct (Z.eqb_spec (len a) (len a + (len hb + len (concat encs) + len (concat recs')))); [lia|reflexivity]. }
      rewrite HT1, R. cbn [bind]. rewrite R2. cbn [bind]. split; [reflexivity|]. split; [exact HT|].
      split; [|eapply same_reader_trans; eassumption].
      constructor; [exact TB|]. rewrite S1, S5 in FB. exact FB.
Qed.

(** ** Opening a file with the preamble of a writer *)
Lemma wr_marker e m : marker_ok m -> endian_of m = Ok e ->
  wraps 32 (le_dec (wr e 4 m)) = m.
Proof. intros [-> | ->] H; injection H as <-; vm_compute; reflexivity. Qed.

Lemma read_blocks_ok exts : forall fuel f a c acc, Forall (fun t => len t = 3200) exts ->
  fdata f = a ++ concat exts ++ c -> fpos f = len a -> (List.length exts <= fuel)%nat -> len exts < 2 ^ 31 ->
  read_blocks fuel (len exts) f acc = Ok (acc ++ exts, mkFile (fdata f) (len a + len (concat exts))).
Proof.
  induction exts as [|x exts IH]; intros fuel f a c acc FA Hd Hp Hf Hn.
  - destruct fuel; cbn [read_blocks len List.length]; change (Z.of_nat 0 =? 0) with true; cbv iota;
      rewrite app_nil_r; destruct f as [d q]; cbn [fdata fpos concat] in *; rewrite Hp;
      change (len []) with 0; rewrite Z.add_0_r; reflexivity.
  - inversion FA as [|? ? F1 F2]; subst. destruct fuel as [|fuel]; [cbn in Hf; lia|].
    cbn [read_blocks]. rewrite len_cons in *. pose proof (len_nonneg exts).
    destruct (Z.eqb_spec (1 + len exts) 0); [lia|]. change TEXT_HEADER_SIZE with 3200. rewrite <- F1.
    cbn [concat] in Hd.
    rewrite (fread_app a x (concat exts ++ c)); [|rewrite Hd, <- app_assoc; reflexivity|exact Hp].
    cbn [bind]. rewrite sarith_ok by (unfold in_i; change (32 - 1) with 31; lia). cbn [bind].
    replace (1 + len exts - 1) with (len exts) by lia.
    rewrite (IH fuel _ (a ++ x) c); cbn [fdata fpos].
    + cbn [concat]. rewrite <- app_assoc, !len_app. cbn [app]. do 3 f_equal. lia.
    + exact F2.
    + rewrite Hd, <- !app_assoc. reflexivity.
    + rewrite len_app. reflexivity.
    + cbn in Hf. lia.
    + lia.
Qed.

Lemma concat_len_3200 exts : Forall (fun t : list Z => len t = 3200) exts -> len (concat exts) = 3200 * len exts.
Proof. induction 1 as [|x l Hx _ IH]; cbn [concat]; [reflexivity|]. rewrite len_app, len_cons, Hx, IH. lia. Qed.

Lemma read_ext_ok exts f a c acc : Forall (fun t => len t = 3200) exts ->
  fdata f = a ++ concat exts ++ c -> fpos f = len a -> len exts < 2 ^ 31 ->
  read_ext_text_headers (len exts) f acc = Ok (acc ++ exts, mkFile (fdata f) (len a + len (concat exts))).
Proof.
  intros FA Hd Hp Hn. unfold read_ext_text_headers. pose proof (len_nonneg exts).
  destruct (Z.eqb_spec (len exts) 0) as [Z0|N0].
  - apply len_0 in Z0. subst. rewrite app_nil_r. destruct f as [d q]. cbn [fdata fpos concat] in *. rewrite Hp.
    change (len []) with 0. rewrite Z.add_0_r. reflexivity.
  - destruct (Z.eqb_spec (len exts) (-1)); [lia|].
    eapply read_blocks_ok; eauto. unfold file_fuel. rewrite Hd, !app_length.
    pose proof (concat_len_3200 _ FA) as K. unfold len in K. lia.
Qed.

(** Number of samples the binary header declares. *)
Definition declared (b : bin_hdr) : Z :=
  if bh_ext_samp_per_tr b =? 0 then wrapu 16 (bh_samp_per_tr b) else bh_ext_samp_per_tr b.

Lemma seen_eqs b : bh_endianness (seen b) = bh_endianness b /\ bh_format_code (seen b) = bh_format_code b /\
  bh_ext_text_headers_num (seen b) = bh_ext_text_headers_num b /\ bh_samp_per_tr (seen b) = bh_samp_per_tr b /\
  bh_ext_samp_per_tr (seen b) = bh_ext_samp_per_tr b /\ bh_fixed_tr_length (seen b) = bh_fixed_tr_length b /\
  bh_SEGY_rev_major_ver (seen b) = bh_SEGY_rev_major_ver b.
Proof. unfold seen. destruct (1 <? _); repeat split. Qed.

Lemma open_preamble p e b txt exts body maps : len txt = 3200 -> Forall (fun t => len t = 3200) exts ->
  bin_ok b = true -> marker_ok (bh_endianness b) -> endian_of (bh_endianness b) = Ok e ->
  check_tr_hdr_map bin_zero maps = Ok tt -> In (bh_format_code b) supported ->
  bh_ext_text_headers_num b = len exts ->
  (1 < bh_SEGY_rev_major_ver b -> bh_num_of_trailer_stanza b = 0 /\
     (bh_byte_off_of_first_tr b = 0 \/ bh_byte_off_of_first_tr b = 3600 + 3200 * len exts)) ->
  let content := txt ++ bin_block e b ++ concat exts ++ body in
  len content < 2 ^ 63 ->
  forall bps, bytes_per_sample (bh_format_code b) = Some bps ->
  0 <= declared b -> declared b * bps < 2 ^ 31 -> declared b * bps <= p_max_alloc p ->
  exists r, isegy_open p content maps = Ok r /\ i_bh r = seen b /\ i_text r = txt :: exts /\
    i_stanzas r = [] /\ i_endian r = e /\ i_bps r = bps /\ i_spt r = declared b /\
    i_bufsz r = declared b * bps /\ i_maps r = maps /\
    i_file r = mkFile content (3600 + 3200 * len exts) /\ i_first r = 3600 + 3200 * len exts /\
    i_cur r = 3600 + 3200 * len exts /\ i_eod r = len content.
Proof.
  intros Lt FA Ok_b Mk Ee Ck Sup En R2 content Lc bps Hb D0 D1 D2.
  assert (F1 : fread TEXT_HEADER_SIZE (open_in content) = Ok (txt, mkFile content 3200)).
  { pose proof (fread_app [] txt (bin_block e b ++ concat exts ++ body) (open_in content) eq_refl eq_refl) as K.
    rewrite Lt in K. exact K. }
  assert (F2 : fread BIN_HEADER_SIZE (mkFile content 3200) = Ok (bin_block e b, mkFile content 3600)).
  { pose proof (fread_app txt (bin_block e b) (concat exts ++ body) (mkFile content 3200) eq_refl (eq_sym Lt)) as K.
    rewrite len_bin_block, Lt in K. exact K. }
  unfold isegy_open, i_open. rewrite Ck. cbn [bind]. rewrite F1. cbn [bind]. rewrite F2. cbn [bind].
  cbv zeta. rewrite bin_block_marker, wr_marker by assumption.
  rewrite bh_endianness_set, Ee. cbn [bind].
  destruct (fill_bin_block e b (set_endianness bin_zero (bh_endianness b)) Ok_b eq_refl) as (c & Ec); [repeat split|].
  rewrite Ec. cbn [bind].
  destruct (seen_eqs b) as (Q1 & Q2 & Q3 & Q4 & Q5 & Q6 & Q7).
  rewrite Q2, Q3, Q4, Q5. fold (declared b).
  destruct (supported_ok p e _ Sup) as [Or _]. destruct (sample_reader p e (bh_format_code b)) as [rd| |]; try discriminate.
  cbn [bind]. rewrite Hb. rewrite En.
  assert (Ln : len exts < 2 ^ 31).
  { rewrite <- En. assert (K : in_i 16 (bh_ext_text_headers_num b) = true).
    { unfold bin_ok, bin_types, bin_fields in Ok_b. cbn [combine forallb fst snd in_ity] in Ok_b.
      rewrite !andb_true_iff in Ok_b. tauto. }
    unfold in_i in K. change (16 - 1) with 15 in K. lia. }
  assert (Lx : len (concat exts) = 3200 * len exts) by apply concat_len_3200, FA.
  pose proof (read_ext_ok exts (mkFile content 3600) (txt ++ bin_block e b) body [txt] FA) as RX.
  cbn [fdata fpos] in RX. rewrite len_app, Lt, len_bin_block, Lx in RX.
  change (3200 + 400) with 3600 in RX. rewrite RX; [|unfold content; rewrite <- !app_assoc; reflexivity|reflexivity|exact Ln].
  cbn [bind fpos]. set (first := 3600 + 3200 * len exts).
  assert (Hfirst : 0 <= first <= len content).
  { unfold content. rewrite !len_app, Lt, len_bin_block, Lx. pose proof (len_nonneg exts). pose proof (len_nonneg body). unfold first. lia. }
  assert (Seek : forall q, 0 <= q <= len content -> forall f, fseek q f = Ok (mkFile (fdata f) q)).
  { intros q Hq f. unfold fseek. replace (_ && _) with true by lia. reflexivity. }
  assert (B8 : (if bh_byte_off_of_first_tr (seen b) =? 0 then Ok (first, mkFile content first)
       else let* f4 := fseek (wraps 64 (bh_byte_off_of_first_tr (seen b))) (mkFile content first) in
            Ok (wraps 64 (bh_byte_off_of_first_tr (seen b)), f4)) = Ok (first, mkFile content first)).
  { destruct (Z.eqb_spec (bh_byte_off_of_first_tr (seen b)) 0) as [|N]; [reflexivity|].
    assert (E : bh_byte_off_of_first_tr (seen b) = first).
    { unfold seen in *. destruct (Z.ltb_spec 1 (bh_SEGY_rev_major_ver b)) as [M|M]; [|cbn in N; congruence].
      destruct (R2 M) as [_ [K|K]]; [congruence|exact K]. }
    rewrite E, wraps_id by (try lia; unfold in_i; change (64 - 1) with 63; lia).
    rewrite Seek by exact Hfirst. reflexivity. }
  rewrite B8. cbn [bind].
  assert (TS : read_trailer_stanzas e (seen b) bps (declared b) (mkFile content first)
               = Ok (len content, [], mkFile content (len content))).
  { assert (E : bh_num_of_trailer_stanza (seen b) = 0).
    { unfold seen. destruct (Z.ltb_spec 1 (bh_SEGY_rev_major_ver b)) as [M|M]; [apply (R2 M)|reflexivity]. }
    unfold read_trailer_stanzas. rewrite E. cbv zeta. change (0 =? -1) with false. cbv iota.
    change (sarith 32 (0 * TEXT_HEADER_SIZE)) with (Ok 0). cbn [bind]. unfold fseek_end. cbn [fdata].
    rewrite Z.add_0_r, Seek by lia. cbn [bind fdata]. unfold file_fuel. cbn [read_blocks].
    change (0 =? 0) with true. cbv iota. cbn [bind fpos]. reflexivity. }
  rewrite TS. cbn [bind]. rewrite Seek by exact Hfirst. cbn [bind fdata].
  destruct (bps_agree _ Sup) as (n & B1 & _ & Hn). rewrite Hb in B1. injection B1 as ->.
  rewrite sarith_ok by (unfold in_i; change (32 - 1) with 31; nia). cbn [bind].
  unfold resize_to. cbv zeta. rewrite wrapu_small by nia. replace (_ <=? _) with true by lia. cbn [bind].
  eexists. split; [reflexivity|]. cbn [i_bh i_text i_stanzas i_endian i_bps i_spt i_bufsz i_maps i_file i_first i_cur i_eod].
  repeat split.
Qed.

(** Whatever follows, an opened file shows the binary header in it. *)
Lemma open_start p txt blk rest maps r : len txt = 3200 -> len blk = 400 ->
  isegy_open p (txt ++ blk ++ rest) maps = Ok r ->
  exists e, endian_of (wraps 32 (le_dec (slice 96 4 blk))) = Ok e /\ i_endian r = e /\
    exists c, fill_bin_header e (set_endianness bin_zero (wraps 32 (le_dec (slice 96 4 blk)))) blk = Ok (i_bh r, c).
Proof.
  intros Lt Lb H. set (content := txt ++ blk ++ rest) in *.
  assert (F1 : fread TEXT_HEADER_SIZE (open_in content) = Ok (txt, mkFile content 3200)).
  { pose proof (fread_app [] txt (blk ++ rest) (open_in content) eq_refl eq_refl) as K. rewrite Lt in K. exact K. }
  assert (F2 : fread BIN_HEADER_SIZE (mkFile content 3200) = Ok (blk, mkFile content 3600)).
  { pose proof (fread_app txt blk rest (mkFile content 3200) eq_refl (eq_sym Lt)) as K. rewrite Lb, Lt in K. exact K. }
  unfold isegy_open, i_open in H. apply bind_ok in H as (u & _ & H). rewrite F1 in H. cbn [bind] in H.
  rewrite F2 in H. cbn [bind] in H. cbv zeta in H. rewrite bh_endianness_set in H.
  apply bind_ok in H as (e & Ee & H). exists e. split; [exact Ee|].
  apply bind_ok in H as (b & Eb & H). apply bind_ok in Eb as ([b' c] & Ec & Eb). injection Eb as ->.
  apply bind_ok in H as (rd & _ & H). destruct (bytes_per_sample _); [|discriminate].
  apply bind_ok in H as ([texts f3] & _ & H). apply bind_ok in H as ([first f4] & _ & H).
  apply bind_ok in H as ([[eod st] f5] & _ & H). apply bind_ok in H as (f6 & _ & H).
  apply bind_ok in H as (n & _ & H). apply bind_ok in H as (sz & _ & H). injection H as <-.
  cbn [i_endian i_bh]. split; [reflexivity|]. exists c. exact Ec.
Qed.
