(** Writer followed by reader (C16-C18). *)
From Verif Require Import BaseFacts Platform Fp TraceHdr SegyTypes SegyCodec CodecFacts SampleFacts
     HdrFacts ISegy OSegy OpenFacts CodecSpec LayoutSpec LayoutFacts BinFacts WriterFacts RoundSpec ReaderFacts.

Lemma seen_back b : bin_back b (seen b).
Proof. unfold bin_back, seen. destruct (Z.leb_spec (bh_SEGY_rev_major_ver b) 1), (Z.ltb_spec 1 (bh_SEGY_rev_major_ver b)); try lia; split; reflexivity. Qed.

Lemma stored_exact p s sb t r smp nm l ls : o_good p s -> add_count s = 0%nat -> o_maps s = (nm, l) :: ls ->
  stored p s sb t r smp -> len sb <= p_max_alloc p ->
  (o_var s = true -> given (t_hdr t) "SAMP_NUM" = Some (len (t_smp t))) ->
  (o_var s = false -> len sb = len (t_smp t) * o_bps s) ->
  exact_record p (o_endian s) (bh_format_code (o_bh s)) l t r /\
  len smp = len (t_smp t) * o_bps s /\ len smp <= p_max_alloc p /\ len smp < 2 ^ 64 \/
  exact_record p (o_endian s) (bh_format_code (o_bh s)) l t r /\
  len smp = len sb /\ len smp = len (t_smp t) * o_bps s.
Proof.
  intros (_ & Bps & _) A M (hb & ab & -> & L1 & L2 & Hm & sb1 & Hv & Hf) Ls Kv Kf.
  rewrite M in Hm. destruct Hm as [Eh Ea]. rewrite A in Ea. injection Ea as <-. cbn [app].
  apply fill_samples_inv in Hf as (w & encs & W & E & S & Lsm & Lc).
  destruct (encs_len _ _ _ _ _ _ _ W Bps E) as (F & Le & B1).
  assert (X : len sb1 = len (t_smp t) * o_bps s -> smp = concat encs).
  { intros K. rewrite S. rewrite skipn_all2; [apply app_nil_r|]. unfold len in *. lia. }
  assert (Y : smp = concat encs -> exact_record p (o_endian s) (bh_format_code (o_bh s)) l t (hb ++ smp)).
  { intros K. exists hb, w, encs. rewrite K. auto. }
  destruct (o_var s).
  - left. unfold var_buf in Hv. apply bind_ok in Hv as (v & Ev & Hv). apply bind_ok in Hv as (n & En & Hv).
    assert (n = len (t_smp t)) as ->.
    { specialize (Kv eq_refl). unfold given, get_req in *. destruct (hget (t_hdr t) "SAMP_NUM") as [x|]; [|discriminate].
      injection Ev as ->. destruct v; [|discriminate]. injection En as ->. injection Kv as ->. reflexivity. }
    unfold sarith in Hv. destruct (in_i 64 _) eqn:I; [|discriminate]. cbn [bind] in Hv. cbv zeta in Hv.
    unfold in_i in I. change (64 - 1) with 63 in I. pose proof (len_nonneg (t_smp t)).
    rewrite wrapu_small in Hv by nia.
    assert (L : len sb1 = len (t_smp t) * o_bps s /\ len sb1 <= p_max_alloc p).
    { destruct (Z.eqb_spec (len (t_smp t) * o_bps s) (len sb)) as [K|K].
      - injection Hv as <-. lia.
      - apply resize_buf_inv in Hv as [V1 V2]. rewrite wrapu_small in V1, V2 by nia. lia. }
    destruct L as [L L']. split; [apply Y, X, L|]. split; [congruence|]. lia.
  - right. subst sb1. specialize (Kf eq_refl). split; [apply Y, X, Kf|]. split; [exact Lsm|congruence].
Qed.

Lemma stored_all_exact p s nm l ls : o_good p s -> add_count s = 0%nat -> o_maps s = (nm, l) :: ls ->
  forall ts sb recs, stored_all p s sb ts recs -> len sb <= p_max_alloc p ->
  (forall t, In t ts -> o_var s = true -> given (t_hdr t) "SAMP_NUM" = Some (len (t_smp t))) ->
  (forall t, In t ts -> o_var s = false -> len sb = len (t_smp t) * o_bps s) ->
  Forall2 (exact_record p (o_endian s) (bh_format_code (o_bh s)) l) ts recs /\
  (forall t, In t ts -> len (t_smp t) * o_bps s <= p_max_alloc p).
Proof.
  intros G A M. induction ts as [|t ts IH]; intros sb recs H Ls Kv Kf; destruct recs as [|r recs]; try contradiction.
  - split; [constructor|intros ? []].
  - destruct H as (smp & S & H).
    destruct (stored_exact _ _ _ _ _ _ _ _ _ G A M S Ls (Kv t (or_introl eq_refl)) (Kf t (or_introl eq_refl)))
      as [(E & L & La & _)|(E & L & L')].
    + destruct (IH smp recs H La) as [I1 I2].
      * intros t0 H0. apply Kv. right; exact H0.
      * intros t0 H0 V. rewrite L. rewrite <- (Kf t (or_introl eq_refl) V). apply Kf; [right; exact H0|exact V].
      * split; [constructor; assumption|]. intros t0 [<-|H0]; [lia|auto].
    + destruct (IH smp recs H) as [I1 I2].
      * lia.
      * intros t0 H0. apply Kv. right; exact H0.
      * intros t0 H0 V. rewrite L. apply Kf; [right; exact H0|exact V].
      * split; [constructor; assumption|]. intros t0 [<-|H0]; [lia|auto].
Qed.

Lemma add_count_max b : bh_max_num_add_tr_headers b <= 1 -> Z.to_nat (bh_max_num_add_tr_headers b - 1) = 0%nat.
Proof. lia. Qed.

(** The file header [b] as the writer left it, the writer configuration [s]. *)
Lemma round_core p s b txt exts ts recs nm l ls content :
  sane_alloc p -> p_left_first p = true -> safe_layout l -> NoDup (names l) ->
  o_good p s -> add_count s = 0%nat -> o_maps s = (nm, l) :: ls -> check_tr_hdr_map bin_zero (o_maps s) = Ok tt ->
  stored_all p s (o_sbuf s) ts recs -> len (o_sbuf s) <= p_max_alloc p ->
  content = txt ++ bin_block (o_endian s) b ++ concat exts ++ concat recs -> len content < 2 ^ 63 ->
  len txt = 3200 -> Forall (fun t => len t = 3200) exts ->
  bin_ok b = true -> marker_ok (bh_endianness b) -> endian_of (bh_endianness b) = Ok (o_endian s) ->
  bh_format_code b = bh_format_code (o_bh s) -> bh_ext_text_headers_num b = len exts ->
  (1 < bh_SEGY_rev_major_ver b -> bh_max_num_add_tr_headers b = 0 /\ bh_num_of_trailer_stanza b = 0 /\
     (bh_byte_off_of_first_tr b = 0 \/ bh_byte_off_of_first_tr b = 3600 + 3200 * len exts)) ->
  bh_ext_samp_per_tr b = 0 \/ bh_ext_samp_per_tr b = wrapu 16 (bh_samp_per_tr b) ->
  (forall t, In t ts -> o_var s = true -> given (t_hdr t) "SAMP_NUM" = Some (len (t_smp t))) ->
  (forall t, In t ts -> o_var s = false -> len (o_sbuf s) = len (t_smp t) * o_bps s) ->
  (forall t, In t ts -> if is_fixed b then len (t_smp t) = wrapu 16 (bh_samp_per_tr b) else counted l t) ->
  exists r ts' r', isegy_open p content (o_maps s) = Ok r /\ i_bh r = seen b /\ i_text r = txt :: exts /\
    read_all p (List.length ts) r = Ok (ts', r') /\ has_trace r' = false /\
    Forall2 (trace_back p (o_endian s) (bh_format_code b) l) ts ts'.
Proof.
  intros HA HL HS HN G A M Ck SA Lsb EC Lc Lt FX Ok_b Mk Ee Ef En R2 Ex Kv Kf Kr.
  destruct (stored_all_exact _ _ _ _ _ G A M _ _ _ SA Lsb Kv Kf) as [FR Al].
  destruct G as ((w & W) & Bps & _).
  pose proof (writer_fmt _ _ _ _ W) as Sup. destruct (bps_agree _ Sup) as (n & B1 & B2 & Hn).
  rewrite Bps in B2. injection B2 as B2. rewrite <- Ef in *. clear Ef.
  assert (Dc : declared b = wrapu 16 (bh_samp_per_tr b)).
  { unfold declared. destruct (Z.eqb_spec (bh_ext_samp_per_tr b) 0); [reflexivity|]. destruct Ex; congruence. }
  pose proof (wrapu_bound 16 (bh_samp_per_tr b) ltac:(lia)) as Db. rewrite <- Dc in Db.
  destruct HA as [HA1 HA2].
  assert (R2' : 1 < bh_SEGY_rev_major_ver b -> bh_num_of_trailer_stanza b = 0 /\
     (bh_byte_off_of_first_tr b = 0 \/ bh_byte_off_of_first_tr b = 3600 + 3200 * len exts)).
  { intros H. destruct (R2 H) as (_ & X & Y). auto. }
  assert (Lc' : len (txt ++ bin_block (o_endian s) b ++ concat exts ++ concat recs) < 2 ^ 63) by (rewrite <- EC; exact Lc).
  destruct (open_preamble p (o_endian s) b txt exts (concat recs) (o_maps s) Lt FX Ok_b Mk Ee Ck Sup En R2' Lc' (Z.of_nat n) B1)
    as (r & Eo & I1 & I2 & I3 & I4 & I5 & I6 & I7 & I8 & I9 & I10 & I11 & I12); [nia|nia|nia|].
  destruct (seen_eqs b) as (Q1 & Q2 & Q3 & Q4 & Q5 & Q6 & Q7).
  assert (Hd : fdata (i_file r) = (txt ++ bin_block (o_endian s) b ++ concat exts) ++ concat recs).
  { rewrite I9. cbn [fdata]. rewrite <- !app_assoc. reflexivity. }
  assert (La : len (txt ++ bin_block (o_endian s) b ++ concat exts) = 3600 + 3200 * len exts).
  { rewrite !len_app, Lt, len_bin_block, concat_len_3200 by exact FX. lia. }
  destruct (read_records p nm l ls HS HN HL ts recs r (txt ++ bin_block (o_endian s) b ++ concat exts))
    as (ts' & r' & Ra & HT & FB & _).
  - congruence.
  - rewrite I1. unfold seen. destruct (Z.ltb_spec 1 (bh_SEGY_rev_major_ver b)) as [H|H]; [apply (R2 H)|reflexivity].
  - rewrite I1, Q2, I5. exact B1.
  - rewrite I1, Q2, I4. exact FR.
  - exact Hd.
  - rewrite I9, La. reflexivity.
  - rewrite I11, La. reflexivity.
  - rewrite I12, I9. reflexivity.
  - intros t Ht. specialize (Kr t Ht). specialize (Al t Ht). unfold length_known. rewrite I1, I7, I5, Dc.
    replace (is_fixed (seen b)) with (is_fixed b) by (unfold is_fixed; rewrite Q6, Q7; reflexivity).
    rewrite B2 in Al. pose proof (len_nonneg (t_smp t)).
    destruct (is_fixed b); [rewrite Kr; reflexivity|]. split; [exact Kr|]. split; [exact Al|lia].
  - exists r, ts', r'. rewrite EC. split; [exact Eo|]. split; [exact I1|]. split; [exact I2|]. split; [exact Ra|].
    split; [exact HT|]. rewrite I4, I1, Q2 in FB. exact FB.
Qed.

(** ** Headers *)
Lemma with_fmt_eqs b d : let b' := with_fmt b d in
  bh_endianness b' = bh_endianness b /\ bh_SEGY_rev_major_ver b' = bh_SEGY_rev_major_ver b /\
  bh_samp_per_tr b' = bh_samp_per_tr b /\ bh_ext_samp_per_tr b' = bh_ext_samp_per_tr b /\
  bh_ext_text_headers_num b' = bh_ext_text_headers_num b /\ bh_fixed_tr_length b' = bh_fixed_tr_length b /\
  bh_max_num_add_tr_headers b' = bh_max_num_add_tr_headers b /\
  bh_num_of_trailer_stanza b' = bh_num_of_trailer_stanza b /\
  bh_byte_off_of_first_tr b' = bh_byte_off_of_first_tr b.
Proof. cbv zeta. unfold with_fmt. destruct (_ =? 0); repeat split. Qed.

Lemma with_fmt_ok b d : bin_ok b = true -> in_i 16 d = true -> bin_ok (with_fmt b d) = true.
Proof.
  intros H D. unfold with_fmt. destruct (_ =? 0); [|exact H]. revert H.
  unfold bin_ok, bin_types, bin_fields, set_format_code. 
  cbn [combine forallb fst snd in_ity bh_job_id bh_line_num bh_reel_num bh_tr_per_ens bh_aux_per_ens bh_samp_int bh_samp_int_orig bh_samp_per_tr bh_samp_per_tr_orig bh_format_code bh_ens_fold bh_sort_code bh_vert_sum_code bh_sw_freq_at_start bh_sw_freq_at_end bh_sw_length bh_sw_type_code bh_sw_ch_tr_num bh_taper_at_start bh_taper_at_end bh_taper_type bh_corr_traces bh_bin_gain_recov bh_amp_recov_meth bh_measure_system bh_impulse_sig_pol bh_vib_pol_code bh_ext_tr_per_ens bh_ext_aux_per_ens bh_ext_samp_per_tr bh_ext_samp_int bh_ext_samp_int_orig bh_ext_samp_per_tr_orig bh_ext_ens_fold bh_endianness bh_SEGY_rev_major_ver bh_SEGY_rev_minor_ver bh_fixed_tr_length bh_ext_text_headers_num bh_max_num_add_tr_headers bh_time_basis_code bh_num_of_tr_in_file bh_byte_off_of_first_tr bh_num_of_trailer_stanza].
  intros H. rewrite D.
  repeat match type of H with ?x && ?r = true => apply andb_prop in H as [? H];
    match goal with K : x = true |- _ => first [rewrite K | clear K] end; cbn [andb] end. reflexivity.
Qed.

Lemma set_ext_id b ts : bh_ext_text_headers_num b = len ts - 1 -> in_i 16 (bh_ext_text_headers_num b) = true ->
  set_ext_num b ts = b.
Proof.
  intros E I. unfold set_ext_num. rewrite <- E.
  rewrite (wraps_id 32), wraps_id; [destruct b; reflexivity|lia|exact I|lia|].
  unfold in_i in *. change (16 - 1) with 15 in I. change (32 - 1) with 31. lia.
Qed.

Lemma bin_ok_ext b : bin_ok b = true -> in_i 16 (bh_ext_text_headers_num b) = true.
Proof.
  unfold bin_ok, bin_types, bin_fields. cbn [combine forallb fst snd in_ity]. intros H.
  repeat (apply andb_prop in H as [? H]). assumption.
Qed.

Lemma completed_ok fmt x si : In fmt [1; 5] -> in_i 16 x = true -> in_i 16 si = true ->
  bin_ok (set_samp_int (set_samp_per_tr (set_format_code bin_zero fmt) x) si) = true.
Proof.
  intros Hf Hx Hs. unfold bin_ok. cbn. rewrite Hx, Hs. destruct Hf as [<-|[<-|[]]]; reflexivity.
Qed.

Lemma check_zero b ls : check_tr_hdr_map b ls = Ok tt -> check_tr_hdr_map bin_zero ls = Ok tt.
Proof.
  intros H. apply check_map_intro; [left; vm_compute; discriminate|]. apply (check_map_ok b ls H).
Qed.

(** The size of the buffer once the first trace completed the header. *)
Lemma completed_buf p s h b sb : sane_alloc p -> 1 <= o_bps s -> completed p s h b sb ->
  len sb = wrapu 16 (bh_samp_per_tr b) * o_bps s /\ len sb <= p_max_alloc p.
Proof.
  intros [_ HA] B (n & si & _ & Ln & _ & -> & I & R). apply resize_buf_inv in R as [R1 R2].
  unfold in_i in I. change (64 - 1) with 63 in I.
  assert (N0 : 0 <= n).
  { destruct (Z.le_gt_cases 0 n) as [H|H]; [exact H|exfalso].
    assert (wrapu 64 (n * o_bps s) = n * o_bps s + 2 ^ 64).
    { unfold wrapu. symmetry. apply (Z.mod_unique _ _ (-1)); [left|]; nia. }
    nia. }
  cbn [set_samp_int set_samp_per_tr bh_samp_per_tr]. rewrite wrapu_wraps, (wrapu_small 16) by lia.
  rewrite wrapu_small in R1, R2 by nia. lia.
Qed.

Lemma good_min p s s1 si x : o_good p s -> same_cfg s s1 -> o_bh s1 = set_samp_int (set_samp_per_tr (o_bh s) x) si ->
  o_good p s1.
Proof.
  intros (G1 & G2 & G3) (_ & _ & _ & C4 & C5 & _) E. unfold o_good. rewrite E, C4, C5.
  cbn [set_samp_int set_samp_per_tr bh_format_code bh_endianness]. auto.
Qed.

Lemma good_bps p s : o_good p s -> 1 <= o_bps s <= 8.
Proof.
  intros ((w & W) & B & _). destruct (bps_agree _ (writer_fmt _ _ _ _ W)) as (n & _ & B2 & Hn).
  rewrite B in B2. injection B2 as ->. lia.
Qed.

Lemma first_texts_id tr : Forall (fun t => len t = 3200) tr -> map first_text tr = tr.
Proof. induction 1 as [|x xs Hx _ IH]; cbn [map]; [reflexivity|]. rewrite first_text_id, IH by exact Hx. reflexivity. Qed.

Section Rev12.
Variables (p : platform) (bh : bin_hdr) (nm : string) (l : layout) (ls : layouts) (ts : list trace) (s sN : osegy).
Variables (t0 : list Z) (tr : list (list Z)).
Hypothesis HA : sane_alloc p.
Hypothesis HL : p_left_first p = true.
Hypothesis HS : safe_layout l.
Hypothesis HN : NoDup (names l).
Hypothesis Hok : bin_ok bh = true.
Hypothesis Hmk : marker_ok (bh_endianness bh).
Hypothesis Hext : bh_ext_samp_per_tr bh = 0 \/ bh_ext_samp_per_tr bh = wrapu 16 (bh_samp_per_tr bh).
Hypothesis Hnum : bh_ext_text_headers_num bh = len tr.
Hypothesis Hr2 : 1 < bh_SEGY_rev_major_ver bh -> bh_max_num_add_tr_headers bh = 0 /\ bh_num_of_trailer_stanza bh = 0 /\
     (bh_byte_off_of_first_tr bh = 0 \/ bh_byte_off_of_first_tr bh = 3600 + 3200 * len tr).
Hypothesis Hck : check_tr_hdr_map bh ((nm, l) :: ls) = Ok tt.
Hypothesis G : o_good p s.
Hypothesis Hready : ready s (first_text t0) (with_fmt bh 5) (concat (map first_text tr)).
Hypothesis Hmaps : o_maps s = (nm, l) :: ls.
Hypothesis Hadd : o_add s = negb (bh_max_num_add_tr_headers bh =? 0) \/ o_add s = false.
Hypothesis Hadd1 : o_add s = true -> bh_max_num_add_tr_headers bh <= 1.
Hypothesis Hbh : o_bh s = set_ext_num (with_fmt bh 5) (t0 :: tr).
Hypothesis Hmode : (o_min s <> MNone /\ o_sbuf s = [] /\ o_bh s = set_format_code bin_zero 5 /\ o_var s = true) \/
     (o_min s = MNone /\ bh_fixed_tr_length bh <> 0 /\ o_var s = false /\
      resize_buf p (wrapu 16 (bh_samp_per_tr bh) * o_bps s) [] = Ok (o_sbuf s)) \/
     (o_min s = MNone /\ bh_fixed_tr_length bh = 0 /\ o_var s = true /\ o_sbuf s = []).
Hypothesis Htr : Forall (fun t => len t = 3200) tr.
Hypothesis Hw : write_traces p s ts = Ok sN.
Hypothesis Hlen : len (fdata (o_file sN)) < 2 ^ 63.
Hypothesis Hcount : bh_fixed_tr_length bh = 0 -> forall t, In t ts -> counted l t.
Hypothesis Hfix : bh_fixed_tr_length bh <> 0 \/ bh_SEGY_rev_major_ver bh = 0 ->
  forall t, In t ts -> len (t_smp t) = wrapu 16 (bh_samp_per_tr (o_bh sN)).

Lemma rev12_core : exists r ts' r', isegy_open p (fdata (o_file sN)) ((nm, l) :: ls) = Ok r /\
    bin_back (o_bh sN) (i_bh r) /\ i_text r = first_text t0 :: tr /\
    read_all p (List.length ts) r = Ok (ts', r') /\ has_trace r' = false /\
    Forall2 (trace_back p (o_endian s) (bh_format_code (o_bh s)) l) ts ts'.
Proof.
  pose proof (good_bps _ _ G) as Bp.
  destruct (with_fmt_eqs bh 5) as (Q1 & Q2 & Q3 & Q4 & Q5 & Q6 & Q7 & Q8 & Q9).
  pose proof (with_fmt_ok bh 5 Hok eq_refl) as Ok5.
  assert (Eb : o_bh s = with_fmt bh 5).
  { rewrite Hbh. apply set_ext_id; [rewrite Q5, len_cons; lia|apply bin_ok_ext; exact Ok5]. }
  assert (Lt0 : len (first_text t0) = 3200) by apply Hready.
  assert (MX : map first_text tr = tr).
  { apply first_texts_id, Htr. }
  assert (AC0 : forall s1, same_cfg s s1 -> bh_max_num_add_tr_headers (o_bh s1) = bh_max_num_add_tr_headers bh ->
     add_count s1 = 0%nat).
  { intros s1 (_ & _ & _ & _ & _ & _ & _ & C8 & _) E. unfold add_count. rewrite C8, E. destruct (o_add s) eqn:EA; [|reflexivity].
    specialize (Hadd1 eq_refl). lia. }
  destruct (write_all p s _ _ _ _ _ Hready Hw) as (s1 & recs & C1 & C & B & A & SA & D).
  rewrite MX in D.
  destruct D as [(Mo & -> & D)|(t & ts1 & Mo & Et & Cm & D)].
  - assert (Fx : is_fixed (with_fmt bh 5) = true <-> bh_fixed_tr_length bh <> 0 \/ bh_SEGY_rev_major_ver bh = 0).
    { unfold is_fixed. rewrite Q2, Q6. lia. }
    destruct (round_core p s (with_fmt bh 5) (first_text t0) tr ts recs nm l ls (fdata (o_file sN)))
      as (r & ts' & r' & R1 & R2 & R3 & R4 & R5 & R6); auto.
    + apply AC0; [apply same_cfg_refl|]. rewrite Eb. exact Q7.
    + rewrite Hmaps. eapply check_zero; exact Hck.
    + destruct HA as [H _]. destruct Hmode as [(_ & K & _)|[(_ & _ & _ & K)|(_ & _ & _ & K)]];
        [rewrite K; change (len []) with 0; clear - H; lia|apply resize_buf_inv in K; clear - K; lia|rewrite K; change (len []) with 0; clear - H; lia].
    + rewrite Q1. exact Hmk.
    + destruct G as (_ & _ & G3). rewrite Eb in G3. exact G3.
    + rewrite Eb. reflexivity.
    + rewrite Q5. exact Hnum.
    + rewrite Q2, Q7, Q8, Q9. exact Hr2.
    + rewrite Q4, Q3. exact Hext.
    + intros t Ht V. apply Hcount; [|exact Ht].
      destruct Hmode as [(_ & _ & K & _)|[(_ & _ & K & _)|(_ & K & _)]]; [|congruence|exact K].
      rewrite <- Q6, <- Eb, K. reflexivity.
    + intros t Ht V. destruct Hmode as [(_ & _ & _ & K)|[(_ & Nz & _ & K)|(_ & _ & K & _)]]; [congruence| |congruence].
      apply resize_buf_inv in K as [K _]. rewrite K. rewrite (Hfix (or_introl Nz) t Ht), B, Eb, Q3.
      pose proof (wrapu_bound 16 (bh_samp_per_tr bh) ltac:(lia)). apply wrapu_small. nia.
    + intros t Ht. destruct (is_fixed (with_fmt bh 5)) eqn:EF.
      * rewrite (Hfix (proj1 Fx eq_refl) t Ht), B, Eb. reflexivity.
      * apply Hcount; [|exact Ht]. unfold is_fixed in EF. rewrite Q6, Q2 in EF. lia.
    + exists r, ts', r'. rewrite Hmaps in R1. rewrite B, Eb, R2.
      split; [exact R1|]. split; [apply seen_back|]. auto.
  - pose proof Cm as (n & si & Gn & Ln & Hsi & E1 & I64 & Rb).
    assert (Eb0 : o_bh s = set_format_code bin_zero 5).
    { destruct Hmode as [(_ & _ & K & _)|[(K & _)|(K & _)]]; [exact K|contradiction|contradiction]. }
    assert (Vr : o_var s = true).
    { destruct Hmode as [(_ & _ & _ & K)|[(K & _)|(K & _)]]; [exact K|contradiction|contradiction]. }
    assert (F0 : bh_fixed_tr_length bh = 0) by (rewrite <- Q6, <- Eb, Eb0; reflexivity).
    assert (M0 : bh_SEGY_rev_major_ver bh = 0) by (rewrite <- Q2, <- Eb, Eb0; reflexivity).
    assert (A0 : bh_max_num_add_tr_headers bh = 0) by (rewrite <- Q7, <- Eb, Eb0; reflexivity).
    assert (T0 : tr = []).
    { apply len_0. rewrite <- Hnum, <- Q5, <- Eb, Eb0. reflexivity. }
    pose proof C1 as (C11 & _ & _ & C14 & C15 & _ & _ & _ & C19).
    destruct (round_core p s1 (o_bh s1) (first_text t0) tr ts recs nm l ls (fdata (o_file sN)))
      as (r & ts' & r' & R1 & R2 & R3 & R4 & R5 & R6); auto.
    + eapply good_min; eassumption.
    + apply AC0; [exact C1|]. rewrite E1, Eb0, A0. reflexivity.
    + congruence.
    + rewrite C11, Hmaps. eapply check_zero; exact Hck.
    + apply completed_buf in Cm; [apply Cm|exact HA|exact (proj1 Bp)].
    + rewrite D, T0, C14. reflexivity.
    + rewrite E1, Eb0. apply completed_ok; [right; left; reflexivity|apply wraps_range; reflexivity|exact Hsi].
    + rewrite E1, Eb0. left. reflexivity.
    + destruct (good_min _ _ _ _ _ G C1 E1) as (_ & _ & G3). exact G3.
    + rewrite E1, Eb0, T0. reflexivity.
    + intros X. exfalso. rewrite E1, Eb0 in X. discriminate X.
    + left. rewrite E1, Eb0. reflexivity.
    + intros t1 Ht _. apply (Hcount F0 t1 Ht).
    + intros t1 _ V. congruence.
    + intros t1 Ht. replace (is_fixed (o_bh s1)) with true by (rewrite E1, Eb0; reflexivity).
      rewrite (Hfix (or_intror M0) t1 Ht), B. reflexivity.
    + exists r, ts', r'. rewrite C11, Hmaps in R1. rewrite B, R2. rewrite C14 in R6.
      assert (bh_format_code (o_bh s1) = bh_format_code (o_bh s)) as <- by (rewrite E1; reflexivity).
      split; [exact R1|]. split; [apply seen_back|]. auto.
Qed.
End Rev12.
