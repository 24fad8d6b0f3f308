(** Lemmas about the binary header block (C15). *)
From Verif Require Import BaseFacts Platform SegyTypes SegyCodec CodecSpec CodecFacts ISegy OSegy OpenFacts LayoutFacts.

(** The fields before and after the byte order marker. *)
Definition chunks1 (e : endian) (b : bin_hdr) : list (list Z) :=
  [wr e 4 (bh_job_id b);
   wr e 4 (bh_line_num b);
   wr e 4 (bh_reel_num b);
   wr e 2 (bh_tr_per_ens b);
   wr e 2 (bh_aux_per_ens b);
   wr e 2 (bh_samp_int b);
   wr e 2 (bh_samp_int_orig b);
   wr e 2 (bh_samp_per_tr b);
   wr e 2 (bh_samp_per_tr_orig b);
   wr e 2 (bh_format_code b);
   wr e 2 (bh_ens_fold b);
   wr e 2 (bh_sort_code b);
   wr e 2 (bh_vert_sum_code b);
   wr e 2 (bh_sw_freq_at_start b);
   wr e 2 (bh_sw_freq_at_end b);
   wr e 2 (bh_sw_length b);
   wr e 2 (bh_sw_type_code b);
   wr e 2 (bh_sw_ch_tr_num b);
   wr e 2 (bh_taper_at_start b);
   wr e 2 (bh_taper_at_end b);
   wr e 2 (bh_taper_type b);
   wr e 2 (bh_corr_traces b);
   wr e 2 (bh_bin_gain_recov b);
   wr e 2 (bh_amp_recov_meth b);
   wr e 2 (bh_measure_system b);
   wr e 2 (bh_impulse_sig_pol b);
   wr e 2 (bh_vib_pol_code b);
   wr e 4 (bh_ext_tr_per_ens b);
   wr e 4 (bh_ext_aux_per_ens b);
   wr e 4 (bh_ext_samp_per_tr b);
   wr e 8 (bh_ext_samp_int b);
   wr e 8 (bh_ext_samp_int_orig b);
   wr e 4 (bh_ext_samp_per_tr_orig b);
   wr e 4 (bh_ext_ens_fold b)].
Definition chunks2 (e : endian) (b : bin_hdr) : list (list Z) :=
  [wr e 1 (bh_SEGY_rev_major_ver b);
   wr e 1 (bh_SEGY_rev_minor_ver b);
   wr e 2 (bh_fixed_tr_length b);
   wr e 2 (bh_ext_text_headers_num b);
   wr e 4 (bh_max_num_add_tr_headers b);
   wr e 2 (bh_time_basis_code b);
   wr e 8 (bh_num_of_tr_in_file b);
   wr e 8 (bh_byte_off_of_first_tr b);
   wr e 4 (bh_num_of_trailer_stanza b)].

Definition bin_block (e : endian) (b : bin_hdr) : list Z :=
  concat (chunks1 e b) ++ wr e 4 (bh_endianness b) ++ zeros 200 ++ concat (chunks2 e b) ++ zeros 68.

Lemma len_chunks1 e b : len (concat (chunks1 e b)) = 96.
Proof. unfold chunks1, len. cbn [concat]. rewrite !app_length, !wr_length. reflexivity. Qed.
Lemma len_chunks2 e b : len (concat (chunks2 e b)) = 32.
Proof. unfold chunks2, len. cbn [concat]. rewrite !app_length, !wr_length. reflexivity. Qed.
Lemma len_bin_block e b : len (bin_block e b) = 400.
Proof.
  unfold bin_block. rewrite !len_app, len_chunks1, len_chunks2, !len_zeros by lia.
  unfold len. rewrite wr_length. reflexivity.
Qed.

Lemma wput_zeros_seq d w k a c n : List.length d = k -> (k <= n)%nat ->
  w (repeat 0 (n - k)) = Ok (a, c) -> (wput d ;; w) (repeat 0 n) = Ok (d ++ a, c).
Proof.
  intros L H E. unfold wseq. rewrite wput_ok by (rewrite repeat_length; lia). cbn [bind].
  rewrite L. replace (skipn k (repeat 0 n)) with (repeat 0 (n - k)).
  - rewrite E. reflexivity.
  - replace n with (k + (n - k))%nat at 2 by lia. rewrite repeat_app.
    rewrite skipn_app, repeat_length, Nat.sub_diag. rewrite skipn_all2 by (rewrite repeat_length; lia). reflexivity.
Qed.
Lemma wskip_zeros_seq w k a c n : (k <= n)%nat ->
  w (repeat 0 (n - k)) = Ok (a, c) -> (wskip k ;; w) (repeat 0 n) = Ok (repeat 0 k ++ a, c).
Proof.
  intros H E. unfold wseq. rewrite wskip_ok by (rewrite repeat_length; lia). cbn [bind].
  replace (repeat 0 n) with (repeat 0 k ++ repeat 0 (n - k)) by (rewrite <- repeat_app; f_equal; lia).
  rewrite firstn_app, skipn_app, !repeat_length, Nat.sub_diag. cbn [firstn skipn].
  rewrite skipn_all2, firstn_all2 by (rewrite repeat_length; lia). cbn [app]. rewrite app_nil_r, E.
  reflexivity.
Qed.
Lemma wput_zeros d k n : List.length d = k -> (k <= n)%nat ->
  wput d (repeat 0 n) = Ok (d, repeat 0 (n - k)).
Proof.
  intros L H. rewrite wput_ok by (rewrite repeat_length; lia). rewrite L. do 2 f_equal.
  replace n with (k + (n - k))%nat at 1 by lia. rewrite repeat_app.
  rewrite skipn_app, repeat_length, Nat.sub_diag. rewrite skipn_all2 by (rewrite repeat_length; lia). reflexivity.
Qed.

Lemma bin_header_bytes_eq e b : bin_header_bytes e b = Ok (bin_block e b).
Proof.
  unfold bin_header_bytes, wrun, bin_header_writer, zeros. change (Z.to_nat BIN_HEADER_SIZE) with 400%nat.
  match goal with |- bind (?w (repeat 0 400)) _ = _ =>
    assert (E : exists d c, w (repeat 0 400) = Ok (d, c) /\ d ++ c = bin_block e b)
  end.
  { eexists; eexists. split.
    - repeat (first [eapply wput_zeros_seq; [apply wr_length|lia|] | eapply wskip_zeros_seq; [lia|]]; cbn [Nat.sub]).
      apply wput_zeros; [apply wr_length|lia].
    - cbn [Nat.sub]. unfold bin_block, chunks1, chunks2, zeros. cbn [concat].
      change (Z.to_nat 200) with 200%nat. change (Z.to_nat 68) with 68%nat.
      rewrite ?app_nil_r, <- ?app_assoc. reflexivity. }
  destruct E as (d & c & E & R). rewrite E. cbn [bind]. f_equal. exact R.
Qed.

Lemma bin_block_marker e b : slice 96 4 (bin_block e b) = wr e 4 (bh_endianness b).
Proof.
  unfold bin_block. rewrite <- (len_chunks1 e b).
  replace 4 with (len (wr e 4 (bh_endianness b))) at 1 by (unfold len; rewrite wr_length; reflexivity).
  apply slice_mid.
Qed.

Lemma bin_block_bytes e b : bytes (bin_block e b).
Proof.
  assert (Z0 : forall n, bytes (zeros n)) by (intros n; unfold zeros, bytes; apply Forall_forall; intros x Hx; apply repeat_spec in Hx; subst; unfold is_byte; lia).
  unfold bin_block, chunks1, chunks2. cbn [concat]. rewrite !bytes_app.
  repeat split; try apply wr_bytes; try apply Z0; constructor.
Qed.

(** What the reader recovers: the members only revision 2 has are read when
    the major revision says so. *)
Definition seen (b : bin_hdr) : bin_hdr :=
  if 1 <? bh_SEGY_rev_major_ver b then b
  else mkBin (bh_job_id b) (bh_line_num b) (bh_reel_num b) (bh_tr_per_ens b) (bh_aux_per_ens b) (bh_samp_int b) (bh_samp_int_orig b) (bh_samp_per_tr b) (bh_samp_per_tr_orig b) (bh_format_code b) (bh_ens_fold b) (bh_sort_code b) (bh_vert_sum_code b) (bh_sw_freq_at_start b) (bh_sw_freq_at_end b) (bh_sw_length b) (bh_sw_type_code b) (bh_sw_ch_tr_num b) (bh_taper_at_start b) (bh_taper_at_end b) (bh_taper_type b) (bh_corr_traces b) (bh_bin_gain_recov b) (bh_amp_recov_meth b) (bh_measure_system b) (bh_impulse_sig_pol b) (bh_vib_pol_code b) (bh_ext_tr_per_ens b) (bh_ext_aux_per_ens b) (bh_ext_samp_per_tr b) (bh_ext_samp_int b) (bh_ext_samp_int_orig b) (bh_ext_samp_per_tr_orig b) (bh_ext_ens_fold b) (bh_endianness b) (bh_SEGY_rev_major_ver b) (bh_SEGY_rev_minor_ver b) (bh_fixed_tr_length b) (bh_ext_text_headers_num b) 0 0 0 0 0.

Ltac rd_step :=
  first [ rewrite (pbind_ok _ _ _ _ _ (rd_i_wr _ _ _ _)) | rewrite (pbind_ok _ _ _ _ _ (rd_u_wr _ _ _ _)) ].

Lemma fill_bin_block e b b1 : bin_ok b = true -> bh_endianness b1 = bh_endianness b ->
  (bh_max_num_add_tr_headers b1 = 0 /\ bh_time_basis_code b1 = 0 /\ bh_num_of_tr_in_file b1 = 0 /\
   bh_byte_off_of_first_tr b1 = 0 /\ bh_num_of_trailer_stanza b1 = 0) ->
  exists c, fill_bin_header e b1 (bin_block e b) = Ok (seen b, c).
Proof.
  intros Hok He (Z1 & Z2 & Z3 & Z4 & Z5).
  unfold bin_ok, bin_types, bin_fields in Hok. cbn [combine forallb fst snd in_ity] in Hok.
  rewrite !andb_true_iff in Hok. decompose [and] Hok. clear Hok.
  unfold fill_bin_header, bin_block, chunks1, chunks2. cbn [concat]. rewrite <- ?app_assoc. cbn [app].
  do 34 rd_step.
  rewrite (pbind_ok _ _ _ tt (concat (chunks2 e b) ++ zeros 68)); cycle 1.
  { unfold chunks2. cbn [concat]. rewrite <- ?app_assoc. cbn [app].
    rewrite (app_assoc (wr e 4 (bh_endianness b))). apply pskip_app. rewrite app_length, wr_length. reflexivity. }
  unfold chunks2. cbn [concat]. rewrite <- ?app_assoc. cbn [app]. do 4 rd_step.
  change (8 * Z.of_nat 1) with 8. change (8 * Z.of_nat 2) with 16. change (8 * Z.of_nat 4) with 32. change (8 * Z.of_nat 8) with 64.
  assert (W : forall w v, 0 < w -> in_i w v = true -> wraps w v = v) by (intros; apply wraps_id; assumption).
  rewrite (wrapu_id 8 (bh_SEGY_rev_major_ver b)) by assumption.
  unfold seen. destruct (1 <? bh_SEGY_rev_major_ver b).
  - do 2 rd_step.
    rewrite (pbind_ok _ _ _ _ _ (pmap_ok _ _ _ _ _ (rd_i_wr _ _ _ _))). do 2 rd_step.
    change (8 * Z.of_nat 2) with 16. change (8 * Z.of_nat 4) with 32. change (8 * Z.of_nat 8) with 64.
    eexists. unfold pret. f_equal. f_equal. rewrite He.
    rewrite wrapu_wraps by reflexivity.
    rewrite !(W 16) by (first [reflexivity|assumption]). rewrite !(W 32) by (first [reflexivity|assumption]).
    rewrite !(wrapu_id 64) by assumption. rewrite !(wrapu_id 8) by assumption.
    destruct b; reflexivity.
  - eexists. unfold pret. rewrite He, Z1, Z2, Z3, Z4, Z5.
    rewrite !(W 16) by (first [reflexivity|assumption]). rewrite !(W 32) by (first [reflexivity|assumption]).
    rewrite !(wrapu_id 64) by assumption. rewrite !(wrapu_id 8) by assumption. reflexivity.
Qed.
