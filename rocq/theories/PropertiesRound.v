(** C15-C18, C84, C87: binary headers and whole SEG-Y files. *)
From Verif Require Import BaseFacts Platform Fp TraceHdr SegyTypes SegyCodec CodecFacts SampleFacts
     HdrFacts ISegy OSegy OpenFacts CodecSpec LayoutSpec LayoutFacts BinFacts WriterFacts RoundSpec ReaderFacts
     RoundFacts PropertiesCodec PropertiesLayout.

(** C15.  The block every SEG-Y writer stores at offset 3200 for a header [b]
    in its byte order: 400 bytes, those that belong to no member are zero, and
    a file with this block opens with the same header. *)
Theorem C15_binary_header_round_trip : forall e b,
  endian_of (bh_endianness b) = Ok e -> bin_ok b = true ->
  exists blk, bin_header_bytes e b = Ok blk /\
    len blk = 400 /\ slice 100 200 blk = zeros 200 /\ slice 332 68 blk = zeros 68 /\
    (marker_ok (bh_endianness b) -> forall p txt rest maps r, len txt = 3200 ->
       isegy_open p (txt ++ blk ++ rest) maps = Ok r -> bin_back b (i_bh r) /\ i_endian r = e).
Proof.
  intros e b Ee Hok. exists (bin_block e b). split; [apply bin_header_bytes_eq|].
  split; [apply len_bin_block|].
  assert (L1 := len_chunks1 e b). assert (L2 := len_chunks2 e b).
  assert (Lw : len (wr e 4 (bh_endianness b)) = 4) by (unfold len; rewrite wr_length; reflexivity).
  split; [|split].
  - unfold bin_block. rewrite (app_assoc (concat (chunks1 e b))).
    pose proof (slice_mid (concat (chunks1 e b) ++ wr e 4 (bh_endianness b)) (zeros 200) (concat (chunks2 e b) ++ zeros 68)) as K.
    rewrite len_app, L1, Lw in K. exact K.
  - unfold bin_block. rewrite !app_assoc.
    pose proof (slice_mid ((((concat (chunks1 e b) ++ wr e 4 (bh_endianness b)) ++ zeros 200) ++ concat (chunks2 e b))) (zeros 68) []) as K.
    rewrite !len_app, L1, Lw, L2, app_nil_r in K. exact K.
  - intros Mk p txt rest maps r Lt H.
    apply open_start in H as (e' & E1 & E2 & c & E3); [|exact Lt|apply len_bin_block].
    rewrite bin_block_marker, wr_marker in E1, E3 by assumption.
    rewrite Ee in E1. injection E1 as <-.
    destruct (fill_bin_block e b (set_endianness bin_zero (bh_endianness b)) Hok eq_refl) as (c' & Ec); [repeat split|].
    rewrite Ec in E3. injection E3 as <- _. split; [apply seen_back|exact E2].
Qed.
Print Assumptions C15_binary_header_round_trip.

(** C84, refuted: the third marker, 0x04030201, is never returned: a file written with it
    opens (if at all) in the other byte order. *)
Theorem C84_read_back_refuted : forall e b, bh_endianness b = 67305985 ->
  endian_of (bh_endianness b) = Ok e ->
  exists blk, bin_header_bytes e b = Ok blk /\
    forall p txt rest maps r, len txt = 3200 -> isegy_open p (txt ++ blk ++ rest) maps = Ok r ->
      e = Swapped /\ i_endian r = Native /\ bh_endianness (i_bh r) = 16909060.
Proof.
  intros e b Hm He. exists (bin_block e b). split; [apply bin_header_bytes_eq|].
  rewrite Hm in He. injection He as <-.
  intros p txt rest maps r Lt H.
  apply open_start in H as (e' & E1 & E2 & c & E3); [|exact Lt|apply len_bin_block].
  rewrite bin_block_marker, Hm in E1, E3.
  change (wraps 32 (le_dec (wr Swapped 4 67305985))) with 16909060 in E1, E3.
  injection E1 as <-. split; [reflexivity|]. split; [exact E2|]. apply fill_endianness in E3. exact E3.
Qed.
Print Assumptions C84_read_back_refuted.

Definition bin_example : bin_hdr :=
  set_samp_per_tr (set_endianness (set_format_code bin_zero 6) 16909060) (-3).
Example C15_case : endian_of (bh_endianness bin_example) = Ok Native /\ bin_ok bin_example = true /\
  marker_ok (bh_endianness bin_example) /\
  match bin_header_bytes Native bin_example with
  | Ok blk => is_ok (isegy_open plat_example (zeros 3200 ++ blk ++ []) default_trace_header)
  | _ => false end = true /\
  match bin_header_bytes Swapped (set_endianness bin_example 67305985) with
  | Ok blk => is_ok (isegy_open plat_example (zeros 3200 ++ blk ++ []) default_trace_header)
  | _ => true end = false.
Proof. vm_compute. repeat split. right. reflexivity. Qed.

(** C16.  Revision 0: every trace has the declared number of samples; the
    header is of revision 0 and announces no extended text headers, which the
    format does not have. *)
Theorem C16_rev0_file_round_trip : forall p txt bh nm l ls ts s sN,
  sane_alloc p -> p_left_first p = true -> safe_layout l -> NoDup (names l) ->
  bin_ok bh = true -> marker_ok (bh_endianness bh) ->
  bh_SEGY_rev_major_ver bh = 0 -> bh_ext_text_headers_num bh = 0 ->
  (bh_ext_samp_per_tr bh = 0 \/ bh_ext_samp_per_tr bh = bh_samp_per_tr bh mod 2 ^ 16) ->
  rev0_open p txt bh ((nm, l) :: ls) = Ok s -> write_traces p s ts = Ok sN ->
  (forall t, In t ts -> len (t_smp t) = bh_samp_per_tr (o_bh sN) mod 2 ^ 16) ->
  len (fdata (o_file sN)) < 2 ^ 63 ->
  exists r ts' r', isegy_open p (fdata (o_file sN)) ((nm, l) :: ls) = Ok r /\
    bin_back (o_bh sN) (i_bh r) /\ (txt <> [] -> i_text r = [txt]) /\
    read_all p (List.length ts) r = Ok (ts', r') /\ has_trace r' = false /\
    Forall2 (trace_back p (o_endian s) (bh_format_code (o_bh s)) l) ts ts'.
Proof.
  intros p txt bh nm l ls ts s sN HA HL HS HN Hok Hmk M0 X0 Hext Ho Hw Hf Hlen.
  pose proof (rev0_good _ _ _ _ _ Ho) as G. pose proof (good_bps _ _ G) as Bp.
  apply rev0_open_inv in Ho as (Ck & t & Ht & Etx & Rd & Em & Ea & Ev & Eb & Md).
  destruct (with_fmt_eqs bh 1) as (Q1 & Q2 & Q3 & Q4 & Q5 & Q6 & Q7 & Q8 & Q9). cbv zeta in *.
  rewrite <- Eb in Q1, Q2, Q3, Q4, Q5, Q6, Q7, Q8, Q9.
  assert (Okb : bin_ok (o_bh s) = true) by (rewrite Eb; apply with_fmt_ok; [exact Hok|reflexivity]).
  assert (Lt : len (first_text t) = 3200) by apply Rd.
  assert (TX : txt <> [] -> [first_text t] = [txt]).
  { intros N. destruct Ht as [[K _]|[<- K]]; [contradiction|]. rewrite first_text_id by exact K. reflexivity. }
  destruct (write_all p s _ _ _ _ _ Rd Hw) as (s1 & recs & C1 & C & B & A & SA & D).
  assert (AC : forall s1, same_cfg s s1 -> add_count s1 = 0%nat).
  { intros x (_ & _ & _ & _ & _ & _ & _ & C8 & _). unfold add_count. rewrite C8, Ea. reflexivity. }
  destruct D as [(Mo & -> & D)|(t1 & ts1 & Mo & Et & Cm & D)].
  - destruct (round_core p s (o_bh s) (first_text t) [] ts recs nm l ls (fdata (o_file sN)))
      as (r & ts' & r' & R1 & R2 & R3 & R4 & R5 & R6); auto.
    + rewrite Em. eapply check_zero; exact Ck.
    + destruct HA as [H _]. destruct Md as [(_ & K)|(_ & K & _)]; [apply resize_buf_inv in K; clear - K; lia|].
      rewrite K. change (len []) with 0. clear - H. lia.
    + rewrite Q1. exact Hmk.
    + apply G.
    + rewrite Q5. exact X0.
    + rewrite Q2, M0. intros X. discriminate X.
    + rewrite Q4, Q3. exact Hext.
    + intros x _ V. congruence.
    + intros x Hx _. destruct Md as [(_ & K)|(K & _)].
      * apply resize_buf_inv in K as [K _]. rewrite K, (Hf x Hx), B, Q3.
        pose proof (wrapu_bound 16 (bh_samp_per_tr bh) ltac:(lia)). apply wrapu_small. unfold wrapu in *. nia.
      * destruct Mo as [Mo|Mo]; [contradiction|]. subst ts. destruct Hx.
    + intros x Hx. replace (is_fixed (o_bh s)) with true by (unfold is_fixed; rewrite Q2, M0; lia).
      rewrite (Hf x Hx), B. reflexivity.
    + exists r, ts', r'. rewrite Em in R1. rewrite B, R2, R3. split; [exact R1|]. split; [apply seen_back|]. auto.
  - pose proof Cm as (n & si & Gn & Ln & Hsi & E1 & I64 & Rb).
    assert (Eb0 : o_bh s = set_format_code bin_zero 1) by (destruct Md as [(K & _)|(_ & _ & K)]; [contradiction|exact K]).
    pose proof C1 as (C11 & _ & _ & C14 & C15 & _ & _ & _ & C19).
    pose proof (completed_buf p s _ _ _ HA (proj1 Bp) Cm) as [Lb1 Lb2].
    destruct (round_core p s1 (o_bh s1) (first_text t) [] ts recs nm l ls (fdata (o_file sN)))
      as (r & ts' & r' & R1 & R2 & R3 & R4 & R5 & R6); auto.
    + eapply good_min; eassumption.
    + congruence.
    + rewrite C11, Em. eapply check_zero; exact Ck.
    + rewrite D, C14. reflexivity.
    + rewrite E1, Eb0. apply completed_ok; [left; reflexivity|apply wraps_range; reflexivity|exact Hsi].
    + rewrite E1, Eb0. left. reflexivity.
    + destruct (good_min _ _ _ _ _ G C1 E1) as (_ & _ & G3). exact G3.
    + rewrite E1, Eb0. reflexivity.
    + intros X. exfalso. rewrite E1, Eb0 in X. discriminate X.
    + left. rewrite E1, Eb0. reflexivity.
    + intros x _ V. congruence.
    + intros x Hx _. rewrite Lb1, (Hf x Hx), B, C15. reflexivity.
    + intros x Hx. replace (is_fixed (o_bh s1)) with true by (rewrite E1, Eb0; reflexivity).
      rewrite (Hf x Hx), B. reflexivity.
    + exists r, ts', r'. rewrite C11, Em in R1. rewrite B, R2, R3. rewrite C14 in R6.
      assert (bh_format_code (o_bh s1) = bh_format_code (o_bh s)) as <- by (rewrite E1; reflexivity).
      split; [exact R1|]. split; [apply seen_back|]. auto.
Qed.
Print Assumptions C16_rev0_file_round_trip.

(** Two traces of two doubles each, a 24-bit and a 64-bit header field. *)
Definition two_samples : bin_hdr := set_samp_per_tr (set_format_code bin_zero 6) 2.
Definition trace_a : trace := mkTrace [("B"%string, VInt 70000); ("D"%string, VInt (-5))] [4607182418800017408; 1].
Definition trace_b : trace := mkTrace [("A"%string, VInt 40000)] [2; 9223372036854775809].
Definition maps_example : layouts := [("SEG00000"%string, lay_example)].
Definition show (t : trace) := (map (hget (t_hdr t)) ["A"; "B"; "C"; "D"]%string, t_smp t).

Example C16_case : sane_alloc plat_example /\ safe_layout lay_example /\ NoDup (names lay_example) /\
  bin_ok two_samples = true /\
  (let* s := rev0_open plat_example (repeat 64 (Z.to_nat 3200)) two_samples maps_example in
   let* sN := write_traces plat_example s [trace_a; trace_b] in
   let* r := isegy_open plat_example (fdata (o_file sN)) maps_example in
   let* (ts, r') := read_all plat_example 2 r in
   Ok (map show ts, has_trace r', i_text r, bh_samp_per_tr (i_bh r)))
  = Ok ([([Some (VInt 0); Some (VInt 70000); Some (VInt 0); Some (VInt (-5))], [4607182418800017408; 1]);
         ([Some (VInt (-25536)); Some (VInt 0); Some (VInt 0); Some (VInt 0)], [2; 9223372036854775809])],
        false, [repeat 64 (Z.to_nat 3200)], 2).
Proof.
  split; [split; vm_compute; [discriminate|reflexivity]|]. split; [apply lay_example_safe|].
  split; [apply lay_example_safe|]. split; vm_compute; reflexivity.
Qed.

(** C17.  Revision 1, fixed and variable length, with announced extended text
    headers.  A header without a revision number (in particular the default
    one) makes the reader assume fixed length, so then all traces must have
    the declared length. *)
Theorem C17_rev1_file_round_trip : forall p txts bh nm l ls ts s sN,
  sane_alloc p -> p_left_first p = true -> safe_layout l -> NoDup (names l) ->
  bin_ok bh = true -> marker_ok (bh_endianness bh) ->
  bh_SEGY_rev_major_ver bh <= 1 -> bh_ext_text_headers_num bh = len (tl txts) ->
  (bh_ext_samp_per_tr bh = 0 \/ bh_ext_samp_per_tr bh = bh_samp_per_tr bh mod 2 ^ 16) ->
  rev1_open p txts bh ((nm, l) :: ls) = Ok s -> write_traces p s ts = Ok sN ->
  (bh_fixed_tr_length bh = 0 -> forall t, In t ts -> counted l t) ->
  (bh_fixed_tr_length bh <> 0 \/ bh_SEGY_rev_major_ver bh = 0 ->
     forall t, In t ts -> len (t_smp t) = bh_samp_per_tr (o_bh sN) mod 2 ^ 16) ->
  len (fdata (o_file sN)) < 2 ^ 63 ->
  exists r ts' r', isegy_open p (fdata (o_file sN)) ((nm, l) :: ls) = Ok r /\
    bin_back (o_bh sN) (i_bh r) /\ (txts <> [] -> i_text r = txts) /\
    read_all p (List.length ts) r = Ok (ts', r') /\ has_trace r' = false /\
    Forall2 (trace_back p (o_endian s) (bh_format_code (o_bh s)) l) ts ts'.
Proof.
  intros p txts bh nm l ls ts s sN HA HL HS HN Hok Hmk M1 X1 Hext Ho Hw Hc Hf Hlen.
  pose proof (rev1_good _ _ _ _ _ Ho) as G.
  assert (Ln : len txts <= 65536).
  { pose proof (bin_ok_ext _ Hok) as K. unfold in_i in K. change (16 - 1) with 15 in K. rewrite X1 in K.
    destruct txts; [vm_compute; discriminate|]. cbn [tl] in K. rewrite len_cons. clear - K. lia. }
  apply rev1_open_inv in Ho as (Ck & t0 & tr & U & Etx & Rd & Em & Ea & Eb & Md); [|exact Ln].
  cbv zeta in *.
  assert (T : tr = tl txts /\ Forall (fun t => len t = 3200) tr /\ (txts <> [] -> first_text t0 :: tr = txts)).
  { destruct U as [[-> U]|[-> [_ U]]].
    - injection U as _ U. subst tr. repeat split; [constructor|congruence].
    - inversion U; subst. repeat split; [assumption|]. rewrite first_text_id by assumption. reflexivity. }
  destruct T as (T1 & T2 & T3).
  destruct (rev12_core p bh nm l ls ts s sN t0 tr) as (r & ts' & r' & R1 & R2 & R3 & R4 & R5 & R6); auto.
  - congruence.
  - intros X. exfalso. clear - X M1. lia.
  - rewrite Ea. discriminate.
  - exists r, ts', r'. rewrite R3. auto 10.
Qed.
Print Assumptions C17_rev1_file_round_trip.

(** Variable length, one extended text header. *)
Definition lay_num : layout := [(0, ("A"%string, I16)); (114, ("SAMP_NUM"%string, I16)); (116, ("SAMP_INT"%string, I16))].
Definition maps_num : layouts := [("SEG00000"%string, lay_num)].
Lemma lay_num_safe : safe_layout lay_num /\ NoDup (names lay_num).
Proof.
  split.
  - apply (check_layout_safe "SEG00000" lay_num); try reflexivity.
    + intros en H. cbn in H. repeat destruct H as [<-|H]; try contradiction; reflexivity.
    + cbn. lia.
  - cbn. repeat constructor; cbn; intuition discriminate.
Qed.
Definition set_rev (b : bin_hdr) (major fixed ext : Z) : bin_hdr :=
  mkBin (bh_job_id b) (bh_line_num b) (bh_reel_num b) (bh_tr_per_ens b) (bh_aux_per_ens b) (bh_samp_int b) (bh_samp_int_orig b) (bh_samp_per_tr b) (bh_samp_per_tr_orig b) (bh_format_code b) (bh_ens_fold b) (bh_sort_code b) (bh_vert_sum_code b) (bh_sw_freq_at_start b) (bh_sw_freq_at_end b) (bh_sw_length b) (bh_sw_type_code b) (bh_sw_ch_tr_num b) (bh_taper_at_start b) (bh_taper_at_end b) (bh_taper_type b) (bh_corr_traces b) (bh_bin_gain_recov b) (bh_amp_recov_meth b) (bh_measure_system b) (bh_impulse_sig_pol b) (bh_vib_pol_code b) (bh_ext_tr_per_ens b) (bh_ext_aux_per_ens b) (bh_ext_samp_per_tr b) (bh_ext_samp_int b) (bh_ext_samp_int_orig b) (bh_ext_samp_per_tr_orig b) (bh_ext_ens_fold b) (bh_endianness b) major (bh_SEGY_rev_minor_ver b) fixed ext (bh_max_num_add_tr_headers b) (bh_time_basis_code b) (bh_num_of_tr_in_file b) (bh_byte_off_of_first_tr b) (bh_num_of_trailer_stanza b).
Definition set_add (b : bin_hdr) (add stanzas : Z) : bin_hdr :=
  mkBin (bh_job_id b) (bh_line_num b) (bh_reel_num b) (bh_tr_per_ens b) (bh_aux_per_ens b) (bh_samp_int b) (bh_samp_int_orig b) (bh_samp_per_tr b) (bh_samp_per_tr_orig b) (bh_format_code b) (bh_ens_fold b) (bh_sort_code b) (bh_vert_sum_code b) (bh_sw_freq_at_start b) (bh_sw_freq_at_end b) (bh_sw_length b) (bh_sw_type_code b) (bh_sw_ch_tr_num b) (bh_taper_at_start b) (bh_taper_at_end b) (bh_taper_type b) (bh_corr_traces b) (bh_bin_gain_recov b) (bh_amp_recov_meth b) (bh_measure_system b) (bh_impulse_sig_pol b) (bh_vib_pol_code b) (bh_ext_tr_per_ens b) (bh_ext_aux_per_ens b) (bh_ext_samp_per_tr b) (bh_ext_samp_int b) (bh_ext_samp_int_orig b) (bh_ext_samp_per_tr_orig b) (bh_ext_ens_fold b) (bh_endianness b) (bh_SEGY_rev_major_ver b) (bh_SEGY_rev_minor_ver b) (bh_fixed_tr_length b) (bh_ext_text_headers_num b) add (bh_time_basis_code b) (bh_num_of_tr_in_file b) (bh_byte_off_of_first_tr b) stanzas.
Definition var_trace (smp : list Z) : trace :=
  mkTrace [("A"%string, VInt 3); ("SAMP_NUM"%string, VInt (len smp)); ("SAMP_INT"%string, VInt 4)] smp.
Definition show_num (t : trace) := (map (hget (t_hdr t)) ["A"; "SAMP_NUM"]%string, t_smp t).
Definition text_example (c : Z) : list Z := repeat c (Z.to_nat 3200).

Example C17_case : bin_ok (set_rev two_samples 1 0 1) = true /\
  safe_layout lay_num /\ NoDup (names lay_num) /\ counted lay_num (var_trace [7; 8; 9]) /\
  (let* s := rev1_open plat_example [text_example 65; text_example 66] (set_rev two_samples 1 0 1) maps_num in
   let* sN := write_traces plat_example s [var_trace [7; 8; 9]; var_trace []; var_trace [5]] in
   let* r := isegy_open plat_example (fdata (o_file sN)) maps_num in
   let* (ts, r') := read_all plat_example 3 r in
   Ok (map show_num ts, has_trace r', i_text r))
  = Ok ([([Some (VInt 3); Some (VInt 3)], [7; 8; 9]); ([Some (VInt 3); Some (VInt 0)], []);
         ([Some (VInt 3); Some (VInt 1)], [5])], false, [text_example 65; text_example 66]).
Proof.
  split; [vm_compute; reflexivity|]. split; [apply lay_num_safe|]. split; [apply lay_num_safe|]. split.
  - split; [reflexivity|]. exists (114, ("SAMP_NUM"%string, I16)), (as_signed 2).
    split; [right; left; reflexivity|]. repeat split.
  - vm_compute. reflexivity.
Qed.

(** C87, refuted: with the default header the traces of a variable-length file do not come
    back: the second trace, longer than the first, is misread. *)
Theorem C87_default_header_refuted : 
  Forall (counted lay_num) [var_trace [7]; var_trace [7; 8]] /\
  exists s sN, rev1_open plat_example [] bin_zero maps_num = Ok s /\
    write_traces plat_example s [var_trace [7]; var_trace [7; 8]] = Ok sN /\
    exists r, isegy_open plat_example (fdata (o_file sN)) maps_num = Ok r /\
      read_all plat_example 5 r = Throw EIO.
Proof.
  split.
  { assert (C : forall smp, len smp <= 100 -> counted lay_num (var_trace smp)).
    { intros smp H. split; [reflexivity|]. exists (114, ("SAMP_NUM"%string, I16)), (as_signed 2).
      split; [right; left; reflexivity|]. split; [reflexivity|]. split; [reflexivity|].
      cbn [var_trace t_smp]. rewrite as_signed_wraps by lia. change (8 * Z.of_nat 2) with 16.
      apply wraps_id; [lia|]. pose proof (len_nonneg smp). unfold in_i. change (16 - 1) with 15. lia. }
    repeat constructor; try apply C; vm_compute; discriminate. }
  assert (K : (let* s := rev1_open plat_example [] bin_zero maps_num in
               let* sN := write_traces plat_example s [var_trace [7]; var_trace [7; 8]] in
               let* r := isegy_open plat_example (fdata (o_file sN)) maps_num in
               Ok (read_all plat_example 5 r)) = Ok (Throw EIO)) by (vm_compute; reflexivity).
  apply bind_ok in K as (s & E1 & K). apply bind_ok in K as (sN & E2 & K). apply bind_ok in K as (r & E3 & K).
  injection K as K. exists s, sN. split; [exact E1|]. split; [exact E2|]. exists r. auto.
Qed.
Print Assumptions C87_default_header_refuted.

(** C87, refuted: extended text headers that the caller did not announce are written but the
    stored count stays 0: the reader takes them for trace data. *)
Theorem C87_unannounced_text_headers_refuted :
  exists s sN, rev1_open plat_example [text_example 65; text_example 66] (set_rev two_samples 1 1 0) maps_num = Ok s /\
    write_traces plat_example s [var_trace [7; 8]] = Ok sN /\
    bh_ext_text_headers_num (o_bh sN) = 1 /\
    exists r, isegy_open plat_example (fdata (o_file sN)) maps_num = Ok r /\
      bh_ext_text_headers_num (i_bh r) = 0 /\ i_text r = [text_example 65] /\ i_first r = 3600.
Proof.
  assert (K : (let* s := rev1_open plat_example [text_example 65; text_example 66] (set_rev two_samples 1 1 0) maps_num in
               let* sN := write_traces plat_example s [var_trace [7; 8]] in
               let* r := isegy_open plat_example (fdata (o_file sN)) maps_num in
               Ok (bh_ext_text_headers_num (o_bh sN), bh_ext_text_headers_num (i_bh r), i_text r, i_first r))
              = Ok (1, 0, [text_example 65], 3600)) by (vm_compute; reflexivity).
  apply bind_ok in K as (s & E1 & K). apply bind_ok in K as (sN & E2 & K). apply bind_ok in K as (r & E3 & K).
  injection K as K1 K2 K3 K4. exists s, sN. split; [exact E1|]. split; [exact E2|]. split; [exact K1|]. exists r. auto.
Qed.
Print Assumptions C87_unannounced_text_headers_refuted.

(** C18.  Revision 2 without additional trace headers and without trailer
    stanzas; the file after the destructor ran. *)
Theorem C18_rev2_file_round_trip_partial : forall p txts bh st nm l ls ts s sN f,
  sane_alloc p -> p_left_first p = true -> safe_layout l -> NoDup (names l) ->
  bin_ok bh = true -> marker_ok (bh_endianness bh) ->
  bh_ext_text_headers_num bh = len (tl txts) ->
  bh_max_num_add_tr_headers bh = 0 -> bh_num_of_trailer_stanza bh = 0 ->
  (bh_byte_off_of_first_tr bh = 0 \/ bh_byte_off_of_first_tr bh = 3600 + 3200 * len (tl txts)) ->
  (bh_ext_samp_per_tr bh = 0 \/ bh_ext_samp_per_tr bh = bh_samp_per_tr bh mod 2 ^ 16) ->
  rev2_open p txts bh st ((nm, l) :: ls) = Ok s -> write_traces p s ts = Ok sN -> rev2_close sN = Ok f ->
  (bh_fixed_tr_length bh = 0 -> forall t, In t ts -> counted l t) ->
  (bh_fixed_tr_length bh <> 0 \/ bh_SEGY_rev_major_ver bh = 0 ->
     forall t, In t ts -> len (t_smp t) = bh_samp_per_tr (o_bh sN) mod 2 ^ 16) ->
  len (fdata f) < 2 ^ 63 ->
  exists r ts' r', isegy_open p (fdata f) ((nm, l) :: ls) = Ok r /\
    bin_back (o_bh sN) (i_bh r) /\ (txts <> [] -> i_text r = txts) /\
    read_all p (List.length ts) r = Ok (ts', r') /\ has_trace r' = false /\
    Forall2 (trace_back p (o_endian s) (bh_format_code (o_bh s)) l) ts ts'.
Proof.
  intros p txts bh st nm l ls ts s sN f HA HL HS HN Hok Hmk X1 A0 S0 BO Hext Ho Hw Hcl Hc Hf Hlen.
  pose proof (rev2_good _ _ _ _ _ _ Ho) as G.
  assert (Ln : len txts <= 65536).
  { pose proof (bin_ok_ext _ Hok) as K. unfold in_i in K. change (16 - 1) with 15 in K. rewrite X1 in K.
    destruct txts; [vm_compute; discriminate|]. cbn [tl] in K. rewrite len_cons. clear - K. lia. }
  apply rev2_open_inv in Ho as (Ck & _ & _ & t0 & tr & U & Etx & Rd & Em & Ea & Eb & Md); [|exact Ln].
  cbv zeta in *.
  assert (T : tr = tl txts /\ Forall (fun t => len t = 3200) tr /\ (txts <> [] -> first_text t0 :: tr = txts)).
  { destruct U as [[-> U]|[-> [_ U]]].
    - injection U as _ U. subst tr. repeat split; [constructor|congruence].
    - inversion U; subst. repeat split; [assumption|]. rewrite first_text_id by assumption. reflexivity. }
  destruct T as (T1 & T2 & T3).
  assert (Ef : fdata f = fdata (o_file sN)).
  { assert (Z0 : bh_num_of_trailer_stanza (o_bh sN) = 0).
    { destruct (write_all p s _ _ _ _ _ Rd Hw) as (s1 & recs & _ & _ & B & _ & _ & D). rewrite B.
      destruct (with_fmt_eqs bh 5) as (_ & _ & _ & _ & _ & _ & _ & Q8 & _). cbv zeta in Q8.
      assert (K : bh_num_of_trailer_stanza (o_bh s) = 0) by (rewrite Eb; unfold set_ext_num; cbn; congruence).
      destruct D as [(_ & -> & _)|(t1 & ts1 & _ & _ & (n & si & _ & _ & _ & E1 & _) & _)]; [exact K|].
      rewrite E1. exact K. }
    unfold rev2_close in Hcl. apply bind_ok in Hcl as (f1 & E1 & Hcl). rewrite Z0 in Hcl. injection Hcl as <-.
    apply fseek_end_inv in E1. apply E1. }
  rewrite Ef in *.
  destruct (rev12_core p bh nm l ls ts s sN t0 tr) as (r & ts' & r' & R1 & R2 & R3 & R4 & R5 & R6); auto.
  - congruence.
  - intros _. rewrite T1. auto.
  - rewrite Ea, A0. discriminate.
  - exists r, ts', r'. rewrite R3. auto 10.
Qed.
Print Assumptions C18_rev2_file_round_trip_partial.

Example C18_case : bin_ok (set_rev two_samples 2 0 1) = true /\
  (let* s := rev2_open plat_example [text_example 65; text_example 66] (set_rev two_samples 2 0 1) [] maps_num in
   let* sN := write_traces plat_example s [var_trace [7; 8; 9]; var_trace [5]] in
   let* f := rev2_close sN in
   let* r := isegy_open plat_example (fdata f) maps_num in
   let* (ts, r') := read_all plat_example 2 r in
   Ok (map show_num ts, has_trace r', i_text r))
  = Ok ([([Some (VInt 3); Some (VInt 3)], [7; 8; 9]); ([Some (VInt 3); Some (VInt 1)], [5])],
        false, [text_example 65; text_example 66]).
Proof. split; vm_compute; reflexivity. Qed.

(** One additional trace header announced and described by a second layout:
    the writer stores no block for it, the reader expects one. *)
Definition maps_two : layouts := [("SEG00000"%string, lay_num); ("SEG00001"%string, [(0, ("X"%string, I32))])].
Theorem C18_additional_headers_refuted :
  exists s sN f, rev2_open plat_example [] (set_add (set_rev two_samples 2 1 0) 1 0) [] maps_two = Ok s /\
    write_traces plat_example s [var_trace [7; 8]] = Ok sN /\ rev2_close sN = Ok f /\
    exists r, isegy_open plat_example (fdata f) maps_two = Ok r /\ read_trace plat_example r = Throw EIO.
Proof.
  assert (K : (let* s := rev2_open plat_example [] (set_add (set_rev two_samples 2 1 0) 1 0) [] maps_two in
               let* sN := write_traces plat_example s [var_trace [7; 8]] in
               let* f := rev2_close sN in
               let* r := isegy_open plat_example (fdata f) maps_two in
               Ok (is_ok (read_trace plat_example r), match read_trace plat_example r with Throw EIO => true | _ => false end)) = Ok (false, true)) by (vm_compute; reflexivity).
  apply bind_ok in K as (s & E1 & K). apply bind_ok in K as (sN & E2 & K). apply bind_ok in K as (f & E3 & K).
  apply bind_ok in K as (r & E4 & K). injection K as _ K.
  exists s, sN, f. split; [exact E1|]. split; [exact E2|]. split; [exact E3|]. exists r. split; [exact E4|].
  destruct (read_trace plat_example r) as [?|[]|]; congruence.
Qed.
Print Assumptions C18_additional_headers_refuted.

(** A trailer stanza announced and given: the file the destructor leaves
    cannot be opened. *)
Theorem C18_trailer_stanza_refuted :
  exists s sN f, rev2_open plat_example [] (set_add (set_rev two_samples 2 1 0) 0 1) [text_example 67] maps_num = Ok s /\
    write_traces plat_example s [var_trace [7; 8]] = Ok sN /\ rev2_close sN = Ok f /\
    skipn (Z.to_nat (len (fdata f) - 3200)) (fdata f) = text_example 67 /\
    isegy_open plat_example (fdata f) maps_num = Throw EIO.
Proof.
  assert (K : (let* s := rev2_open plat_example [] (set_add (set_rev two_samples 2 1 0) 0 1) [text_example 67] maps_num in
               let* sN := write_traces plat_example s [var_trace [7; 8]] in
               let* f := rev2_close sN in
               Ok (skipn (Z.to_nat (len (fdata f) - 3200)) (fdata f),
                   match isegy_open plat_example (fdata f) maps_num with Throw EIO => true | _ => false end))
              = Ok (text_example 67, true)) by (vm_compute; reflexivity).
  apply bind_ok in K as (s & E1 & K). apply bind_ok in K as (sN & E2 & K). apply bind_ok in K as (f & E3 & K).
  injection K as K1 K2. exists s, sN, f. repeat (split; [assumption|]).
  destruct (isegy_open plat_example (fdata f) maps_num) as [?|[]|]; congruence.
Qed.
Print Assumptions C18_trailer_stanza_refuted.
