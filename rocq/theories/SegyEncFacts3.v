(** Lemmas for C59-C61: whole files. *)
From Coq Require Import Reals Lra.
From Flocq Require Import Core.
From Verif Require Import BaseFacts Platform Fp FpSpec FpReal FixFacts TraceHdr SegyTypes SegyCodec CodecSpec CodecFacts
     SampleFacts SampleReal LayoutSpec LayoutFacts HdrFacts ISegy OSegy OpenFacts BinFacts WriterFacts RoundSpec
     ReadFacts ReadFacts2 SegyDecSpec SegyDecFacts SegyDecFacts2 FileSpec FileFacts SegyEncSpec SegyEncFacts SegyEncFacts2
     SegdTrcFacts.
Local Open Scope Z_scope.

(** ** Opening *)
Lemma w_open_bin p w bh ls s : w_open p w bh ls = Ok s -> len (given_texts w) <= 65536 ->
  exists t0 ext, ready s (first_text t0) (with_dflt w bh) ext /\
    (o_min s <> MNone -> o_bh s = set_format_code bin_zero (dflt_fmt w) /\ blank w bh) /\
    endian_of (bh_endianness bh) = Ok (o_endian s).
Proof.
  assert (En : forall d, bh_endianness (with_fmt bh d) = bh_endianness bh) by (intros d; unfold with_fmt; destruct (_ =? 0); reflexivity).
  assert (Mz : forall (A B : Prop), A -> ~ A -> B) by tauto.
  intros H Ln. destruct w as [txt|txts|txts st]; cbn [w_open given_texts] in *.
  - pose proof (rev0_good _ _ _ _ _ H) as (_ & _ & G).
    apply rev0_open_inv in H as (_ & t & _ & _ & Rd & _ & _ & _ & Eb & Md).
    exists t, []. rewrite Eb in *. split; [exact Rd|]. split; [|rewrite <- (En 1); exact G].
    intros Q. destruct Md as [[M _]|(_ & _ & M)]; [contradiction|]. split; [exact M|].
    unfold blank. change (with_dflt (W0 txt) bh) with (with_fmt bh 1). rewrite M. reflexivity.
  - pose proof (rev1_good _ _ _ _ _ H) as (_ & _ & G).
    apply rev1_open_inv in H as (_ & t0 & tr & _ & _ & Rd & _ & _ & Eb & Md); [|exact Ln]. cbv zeta in *.
    exists t0, (concat (map first_text tr)). split; [exact Rd|].
    split; [|rewrite <- (En 5); rewrite Eb in G; exact G].
    intros Q. destruct Md as [(_ & _ & M & _)|[(M & _)|(M & _)]]; [|contradiction|contradiction]. split; [exact M|].
    unfold blank. change (with_dflt (W1 txts) bh) with (with_fmt bh 5).
    assert (K : set_ext_text_headers_num (with_fmt bh 5) 0 = set_ext_text_headers_num (o_bh s) 0) by (rewrite Eb; reflexivity).
    rewrite K, M. reflexivity.
  - pose proof (rev2_good _ _ _ _ _ _ H) as (_ & _ & G).
    apply rev2_open_inv in H as (_ & _ & _ & t0 & tr & _ & _ & Rd & _ & _ & Eb & Md); [|exact Ln]. cbv zeta in *.
    exists t0, (concat (map first_text tr)). split; [exact Rd|].
    split; [|rewrite <- (En 5); rewrite Eb in G; exact G].
    intros Q. destruct Md as [(_ & _ & M & _)|[(M & _)|(M & _)]]; [|contradiction|contradiction]. split; [exact M|].
    unfold blank. change (with_dflt (W2 txts st) bh) with (with_fmt bh 5).
    assert (K : set_ext_text_headers_num (with_fmt bh 5) 0 = set_ext_text_headers_num (o_bh s) 0) by (rewrite Eb; reflexivity).
    rewrite K, M. reflexivity.
Qed.

(** ** The first trace *)
Lemma set_min_si p m h s s1 : fpos (o_file s) = o_first s -> set_min p m h s = Ok s1 ->
  exists n v si, hget h "SAMP_NUM" = Some (VInt n) /\ n < 2 ^ 15 /\ hget h "SAMP_INT" = Some v /\
    (fits16 v -> interval v si) /\ in_i 16 si = true /\ si <> 0 /\
    o_bh s1 = set_samp_int (set_samp_per_tr (o_bh s) (wraps 16 n)) si.
Proof.
  unfold set_min. intros E H. rewrite E, Z.eqb_refl in H. cbn [negb] in H.
  apply bind_ok in H as (v1 & Ev & H). apply bind_ok in H as (n & En & H).
  destruct (Z.ltb_spec 32767 n) as [Ln|Ln]; [discriminate|]. cbv zeta in H.
  apply bind_ok in H as (v2 & Ev2 & H). apply bind_ok in H as (d & Ed & H).
  destruct (d_lt _ _); [discriminate|]. apply bind_ok in H as (si & Es & H).
  destruct (Z.eqb_spec si 0) as [Zs|Zs]; [discriminate|].
  apply bind_ok in H as (bs & _ & H). apply bind_ok in H as (sb & _ & H).
  apply bind_ok in H as (f1 & _ & H). injection H as <-.
  unfold get_req in Ev, Ev2. destruct (hget h "SAMP_NUM") as [v'|]; [|discriminate]. injection Ev as ->.
  destruct v1 as [z|dd]; [|discriminate]. injection En as ->.
  destruct (hget h "SAMP_INT") as [v|]; [|discriminate]. injection Ev2 as ->.
  exists n, v2, si. split; [reflexivity|]. split; [lia|]. split; [reflexivity|]. split; [|split; [|split; [exact Zs|reflexivity]]].
  - intros F. destruct v2 as [z|x]; cbn [interval fits16] in *.
    + assert (d = i2d z) as -> by (destruct m; cbn [get_int bind] in Ed; congruence).
      rewrite (d2s_int_holds p 16 (i2d z) z) in Es; [congruence|apply i2d_holds; lia|change (16 - 1) with 15; lia].
    + destruct F as (r & Hr & B). assert (d = x) as -> by (destruct m; cbn [get_int bind] in Ed; congruence).
      exists r. split; [exact Hr|]. unfold d2s in Es. rewrite (d_trunc_holds _ _ Hr) in Es.
      replace (in_i 16 (Ztrunc r)) with true in Es by (symmetry; unfold in_i; change (16 - 1) with 15; lia). congruence.
  - clear - Es. unfold d2s in Es. destruct (d_trunc d) as [z|].
    + destruct (in_i 16 z) eqn:E; [injection Es as <-; exact E|].
      destruct (p_d2u p 16 (Some z)); [|discriminate]. injection Es as <-. apply wraps_range. lia.
    + destruct (p_d2u p 16 None); [|discriminate]. injection Es as <-. apply wraps_range. lia.
Qed.

Lemma first_completes p s t ts s' txt b : ready s txt b [] -> o_min s <> MNone -> write_traces p s (t :: ts) = Ok s' ->
  exists n v si, hget (t_hdr t) "SAMP_NUM" = Some (VInt n) /\ n < 2 ^ 15 /\ hget (t_hdr t) "SAMP_INT" = Some v /\
    (fits16 v -> interval v si) /\ in_i 16 si = true /\ si <> 0 /\
    o_bh s' = set_samp_int (set_samp_per_tr (o_bh s) (wraps 16 n)) si.
Proof.
  intros Rd Q H. destruct (write_all p s _ _ _ _ _ Rd H) as (s1 & recs & C1 & C & B & _ & _ & D).
  destruct D as [([Mo|Mo] & _)|(t1 & ts1 & _ & Ets & Cm & _)]; [contradiction|discriminate|]. injection Ets as <- <-.
  cbn [write_traces] in H. apply bind_ok in H as (s2 & E & H).
  pose proof Rd as (_ & _ & A & F & _).
  assert (P1 : write_traces p s [t] = Ok s2) by (cbn [write_traces]; rewrite E; reflexivity).
  rewrite write_trace_body in E. apply bind_ok in E as (s1' & E1 & E2).
  assert (E1' : set_min p (o_min s) (t_hdr t) s = Ok s1') by (destruct (o_min s); [contradiction|exact E1..]).
  destruct (set_min_si p _ _ s s1' ltac:(congruence) E1') as (n & v & si & G1 & G2 & G3 & G4 & G5 & G6 & G7).
  exists n, v, si. repeat (split; [assumption|]). rewrite <- G7.
  destruct Cm as (n' & si' & _ & _ & _ & K & _).
  assert (B2 : o_bh s2 = o_bh s1').
  { unfold write_body in E2. apply bind_ok in E2 as (f1 & _ & E2). apply bind_ok in E2 as (f2 & _ & E2).
    apply bind_ok in E2 as (sb1 & _ & E2). apply bind_ok in E2 as (smp & _ & E2). injection E2 as <-. reflexivity. }
  destruct (write_all p s _ _ _ _ _ Rd P1) as (s1a & recsa & Ca & Cs & Ba & Aa & SAa & Da).
  assert (Pf : o_first s2 < fpos (o_file s2)).
  { assert (o_first s2 = o_first s) as -> by (destruct Cs as (_&_&_&_&_&Cs&_); exact Cs).
    destruct Da as [([Mo|Mo] & _)|(t1 & ts1 & _ & _ & _ & Da)]; [contradiction|discriminate|].
    destruct Rd as (D0 & Lt & _). rewrite F. unfold at_end in A, Aa. rewrite A, Aa, Da, D0, app_nil_r, !len_app, !len_bin_block.
    destruct recsa as [|r [|r2 recsa]]; cbn [stored_all] in SAa; try contradiction; [|destruct SAa as (? & _ & SAa); contradiction].
    destruct SAa as (smp & S1 & _). apply stored_len in S1. cbn [concat]. rewrite app_nil_r. lia. }
  apply write_none in H as (recs2 & _ & _ & _ & _ & B3); auto. congruence.
Qed.

Lemma bin_ok_dflt w b : bin_ok b = true -> bin_ok (with_dflt w b) = true.
Proof.
  intros H. unfold with_dflt. destruct (bh_format_code b =? 0); [|exact H].
  unfold bin_ok, bin_types, bin_fields in *. cbn [combine forallb fst snd in_ity set_format_code bh_job_id bh_line_num bh_reel_num bh_tr_per_ens bh_aux_per_ens bh_samp_int bh_samp_int_orig bh_samp_per_tr bh_samp_per_tr_orig bh_format_code bh_ens_fold bh_sort_code bh_vert_sum_code bh_sw_freq_at_start bh_sw_freq_at_end bh_sw_length bh_sw_type_code bh_sw_ch_tr_num bh_taper_at_start bh_taper_at_end bh_taper_type bh_corr_traces bh_bin_gain_recov bh_amp_recov_meth bh_measure_system bh_impulse_sig_pol bh_vib_pol_code bh_ext_tr_per_ens bh_ext_aux_per_ens bh_ext_samp_per_tr bh_ext_samp_int bh_ext_samp_int_orig bh_ext_samp_per_tr_orig bh_ext_ens_fold bh_endianness bh_SEGY_rev_major_ver bh_SEGY_rev_minor_ver bh_fixed_tr_length bh_ext_text_headers_num bh_max_num_add_tr_headers bh_time_basis_code bh_num_of_tr_in_file bh_byte_off_of_first_tr bh_num_of_trailer_stanza] in *.
  rewrite !andb_true_iff in *. decompose [and] H. repeat (split; [assumption || (destruct w; reflexivity)|]). reflexivity.
Qed.

Lemma bin_ok_completed w x y : in_i 16 x = true -> in_i 16 y = true ->
  bin_ok (set_samp_int (set_samp_per_tr (set_format_code bin_zero (dflt_fmt w)) x) y) = true.
Proof.
  intros Hx Hy. unfold bin_ok, bin_types, bin_fields. cbn [combine forallb fst snd in_ity].
  cbn -[in_i in_u]. rewrite Hx, Hy. destruct w; vm_compute; reflexivity.
Qed.

Lemma order_asked_ord m e : endian_of m = Ok e -> order_asked m = Some (ord e).
Proof.
  intros H. unfold endian_of in H. unfold order_asked.
  destruct (Z.eqb_spec m 16909060) as [->|_]; [injection H as <-; reflexivity|].
  destruct (Z.eqb_spec m 0) as [->|_]; [injection H as <-; reflexivity|].
  destruct (Z.eqb_spec m 67305985) as [->|_]; [injection H as <-; reflexivity|discriminate].
Qed.

Lemma marker_written m e : endian_of m = Ok e -> m <> 67305985 ->
  match wr e 4 m with [0; 0; 0; 0] | [1; 2; 3; 4] => Some Big | [4; 3; 2; 1] => Some Little | _ => None end = Some (ord e).
Proof.
  intros H N. unfold endian_of in H.
  destruct (Z.eqb_spec m 16909060) as [->|_]; [injection H as <-; reflexivity|].
  destruct (Z.eqb_spec m 0) as [->|_]; [injection H as <-; reflexivity|].
  destruct (Z.eqb_spec m 67305985) as [->|_]; [contradiction|discriminate].
Qed.

Lemma header_in_file p w bh ls ts s s' : len (given_texts w) <= 65536 -> bin_ok bh = true ->
  w_open p w bh ls = Ok s -> write_traces p s ts = Ok s' ->
  exists b o, final_header w bh ts b /\ order_asked (bh_endianness bh) = Some o /\ o = ord (o_endian s) /\
    bin_says (fdata (o_file s')) o b /\ bin2_says (fdata (o_file s')) o b /\
    (bh_endianness bh <> 67305985 -> order_in (fdata (o_file s')) = Some o) /\
    set_ext_text_headers_num (o_bh s') 0 = set_ext_text_headers_num b 0.
Proof.
  intros Ln Ok_ Ho Hw. destruct (w_open_bin p w bh ls s Ho Ln) as (t0 & ext & Rd & Bl & En).
  pose proof (order_asked_ord _ _ En) as Or.
  destruct (w_open_inv _ _ _ _ _ Ho Ln) as (_ & _ & t0' & tr' & b' & Rd' & _ & _ & _ & Eb' & _).
  assert (Eb : set_ext_text_headers_num (o_bh s) 0 = set_ext_text_headers_num (with_dflt w bh) 0).
  { clear - Ho Ln. destruct w as [txt|txts|txts st]; cbn [w_open given_texts] in *.
    - apply rev0_open_inv in Ho as (_ & t & _ & _ & Rd & _ & _ & _ & Eb & Md). rewrite Eb. reflexivity.
    - apply rev1_open_inv in Ho as (_ & u & tr & _ & _ & Rd & _ & _ & Eb & Md); [|exact Ln]. cbv zeta in *. rewrite Eb. reflexivity.
    - apply rev2_open_inv in Ho as (_ & _ & _ & u & tr & _ & _ & Rd & _ & _ & Eb & Md); [|exact Ln]. cbv zeta in *. rewrite Eb. reflexivity. }
  assert (Fin : forall b rest, final_header w bh ts b -> bin_ok b = true -> bh_endianness b = bh_endianness bh ->
     set_ext_text_headers_num (o_bh s') 0 = set_ext_text_headers_num b 0 ->
     fdata (o_file s') = first_text t0 ++ bin_block (o_endian s) b ++ rest ->
     exists b o, final_header w bh ts b /\ order_asked (bh_endianness bh) = Some o /\ o = ord (o_endian s) /\
       bin_says (fdata (o_file s')) o b /\ bin2_says (fdata (o_file s')) o b /\
       (bh_endianness bh <> 67305985 -> order_in (fdata (o_file s')) = Some o) /\
       set_ext_text_headers_num (o_bh s') 0 = set_ext_text_headers_num b 0).
  { intros b rest F B E Ex D. exists b, (ord (o_endian s)). rewrite D. pose proof (proj1 (proj2 Rd)) as Lt.
    destruct (bin_written (first_text t0) rest (o_endian s) b Lt B) as [S1 S2].
    repeat (split; [assumption || reflexivity|]). split; [|exact Ex]. intros N.
    unfold order_in. rewrite (at_marker (first_text t0) rest (o_endian s) b Lt). rewrite E. apply marker_written; assumption. }
  pose proof Rd as (_ & _ & _ & _ & Mn).
  destruct (write_all p s _ _ _ _ _ Rd Hw) as (s1 & recs & C1 & C & B & _ & _ & D).
  destruct D as [(Mo & -> & D)|(t1 & ts1 & Mo & Ets & _ & D)].
  - apply (Fin (with_dflt w bh) (ext ++ concat recs)); [left; reflexivity|apply bin_ok_dflt, Ok_| |congruence|exact D].
    unfold with_dflt. destruct (_ =? 0); reflexivity.
  - rewrite (Mn Mo) in Rd. destruct (Bl Mo) as [Z0 Bk]. subst ts.
    destruct (first_completes p s t1 ts1 s' _ _ Rd Mo Hw) as (n & v & si & G1 & G2 & G3 & G4 & G5 & G6 & G7).
    rewrite Z0 in G7. rewrite <- B, G7 in D.
    apply (Fin _ (concat recs)) with (5 := D).
    + right. split; [exact Bk|]. exists t1, ts1, n, v, si. rewrite as_signed_wraps by lia. change (8 * Z.of_nat 2) with 16.
      repeat (split; [assumption || reflexivity|]). unfold in_i in G5. change (16 - 1) with 15 in G5. split; [lia|]. auto.
    + apply bin_ok_completed; [apply wraps_range; lia|exact G5].
    + unfold blank in Bk. apply (f_equal bh_endianness) in Bk. unfold with_dflt in Bk.
      destruct (bh_format_code bh =? 0); cbn in Bk; cbn; congruence.
    + rewrite G7. reflexivity.
Qed.
