(** Lemmas about decoding SEG-Y files (C56-C58). *)
From Coq Require Import Reals.
From Flocq Require Import Core.
From Verif Require Import BaseFacts Platform Fp FpSpec FpReal SampleReal TraceHdr SegyTypes SegyCodec CodecFacts
     SampleFacts HdrFacts ISegy OpenFacts CodecSpec LayoutSpec LayoutFacts RoundSpec ReaderFacts ReadSpec
     ReadFacts ReadFacts2 ReadFacts3 SegyDecSpec.
From Verif Require Import SegdDecFacts.
Local Open Scope Z_scope.

Definition ord (e : endian) : order := match e with Native => Little | Swapped => Big end.

(** ** Raw readers *)
Lemma uval_le l : uval Little l = le_dec l.
Proof. unfold uval. rewrite <- le_dec_rev, rev_involutive. reflexivity. Qed.
Lemma uval_be l : uval Big l = le_dec (rev l).
Proof. unfold uval. rewrite <- le_dec_rev. reflexivity. Qed.
Lemma uval_range o l : bytes l -> 0 <= uval o l < 256 ^ len l.
Proof.
  intros B. destruct o; [rewrite uval_be|rewrite uval_le]; [|apply le_dec_bound; exact B].
  pose proof (le_dec_bound (rev l) (bytes_rev _ B)) as H. unfold len in *. rewrite rev_length in H. exact H.
Qed.

Lemma rd_u_val e n c : bytes c -> (n <= List.length c)%nat -> rd_u e n c = Ok (uval (ord e) (firstn n c), skipn n c).
Proof.
  intros B L. unfold rd_u, pbind. rewrite pread_ok by exact L. unfold pret.
  assert (Ln : List.length (firstn n c) = n) by (rewrite firstn_length; lia).
  destruct e; cbn [ord]; [rewrite uval_le|rewrite uval_be]; [reflexivity|].
  unfold swapb. rewrite <- Ln at 1. rewrite le_enc_dec by (apply bytes_firstn; exact B). reflexivity.
Qed.

Lemma rd_i_val e n c : bytes c -> (0 < n)%nat -> (n <= List.length c)%nat ->
  rd_i e n c = Ok (sval (ord e) (firstn n c), skipn n c).
Proof.
  intros B N L. unfold rd_i, pmap, pbind. rewrite rd_u_val by assumption. unfold pret, sval.
  rewrite firstn_length, Nat.min_l by lia. rewrite as_signed_wraps by exact N. reflexivity.
Qed.

Lemma cut3 e c : bytes c -> (3 <= List.length c)%nat -> c = wr24 e (uval (ord e) (firstn 3 c)) ++ skipn 3 c.
Proof.
  intros B L. assert (Ln : List.length (firstn 3 c) = 3%nat) by (rewrite firstn_length; lia).
  rewrite <- (firstn_skipn 3 c) at 1. f_equal. pose proof (bytes_firstn 3 c B) as B3.
  destruct e; cbn [ord]; [rewrite uval_le, wr24_native, <- le_enc_le_bytes|rewrite uval_be, wr24_swapped].
  - pose proof (le_enc_dec _ B3) as X. rewrite Ln in X. rewrite X. reflexivity.
  - unfold be_bytes. rewrite <- le_enc_le_bytes.
    assert (Lr : List.length (rev (firstn 3 c)) = 3%nat) by (rewrite rev_length; exact Ln).
    pose proof (le_enc_dec _ (bytes_rev _ B3)) as X. rewrite Lr in X. rewrite X, rev_involutive. reflexivity.
Qed.

Lemma rd_u24_val p e c : p_left_first p = true -> bytes c -> (3 <= List.length c)%nat ->
  rd_u24 p e c = Ok (uval (ord e) (firstn 3 c), skipn 3 c).
Proof.
  intros Hp B L. rewrite (cut3 e c B L) at 1. rewrite rd_u24_wr24 by exact Hp.
  rewrite wrapu_small; [reflexivity|].
  pose proof (uval_range (ord e) (firstn 3 c) (bytes_firstn _ _ B)) as H.
  unfold len in H. rewrite firstn_length, Nat.min_l in H by lia. exact H.
Qed.
Lemma rd_i24_val p e c : p_left_first p = true -> bytes c -> (3 <= List.length c)%nat ->
  rd_i24 p e c = Ok (sval (ord e) (firstn 3 c), skipn 3 c).
Proof.
  intros Hp B L. rewrite (cut3 e c B L) at 1. rewrite rd_i24_wr24 by exact Hp.
  unfold sval. rewrite firstn_length, Nat.min_l by lia. rewrite as_signed_wraps by lia. reflexivity.
Qed.

(** ** The binary header *)
Lemma B_i {B} e c k n k' (f : Z -> P B) r : bytes c -> (0 < n)%nat -> (k + n <= List.length c)%nat -> (k + n)%nat = k' ->
  f (sval (ord e) (firstn n (skipn k c))) (skipn k' c) = r -> pbind (rd_i e n) f (skipn k c) = r.
Proof.
  intros Hb Hn Hl <- H. unfold pbind. rewrite rd_i_val; [|apply bytes_skipn; exact Hb|exact Hn|rewrite skipn_length; lia].
  rewrite skipn_skipn'. exact H.
Qed.
Lemma B_u {B} e c k n k' (f : Z -> P B) r : bytes c -> (k + n <= List.length c)%nat -> (k + n)%nat = k' ->
  f (uval (ord e) (firstn n (skipn k c))) (skipn k' c) = r -> pbind (rd_u e n) f (skipn k c) = r.
Proof.
  intros Hb Hl <- H. unfold pbind. rewrite rd_u_val; [|apply bytes_skipn; exact Hb|rewrite skipn_length; lia].
  rewrite skipn_skipn'. exact H.
Qed.
Lemma B_wu {B} e c k n k' (f : Z -> P B) r : bytes c -> (0 < n)%nat -> (k + n <= List.length c)%nat -> (k + n)%nat = k' ->
  f (uval (ord e) (firstn n (skipn k c))) (skipn k' c) = r ->
  pbind (pmap (wrapu (8 * Z.of_nat n)) (rd_i e n)) f (skipn k c) = r.
Proof.
  intros Hb Hn Hl <- H. unfold pmap, pbind, rd_i, pmap, pbind.
  rewrite rd_u_val; [|apply bytes_skipn; exact Hb|rewrite skipn_length; lia]. unfold pret.
  rewrite skipn_skipn', wrapu_wraps by lia. rewrite wrapu_small; [exact H|].
  pose proof (uval_range (ord e) (firstn n (skipn k c)) (bytes_firstn _ _ (bytes_skipn _ _ Hb))) as U.
  unfold len in U. rewrite firstn_length, skipn_length, Nat.min_l in U by lia. rewrite <- pow256_2. exact U.
Qed.
Ltac bstep := match goal with
  | |- pbind (rd_i _ ?n) _ (skipn ?k _) = _ => let k' := eval vm_compute in (k + n)%nat in
      eapply (B_i _ _ k n k'); [assumption|lia|lia|reflexivity|]; cbv beta
  | |- pbind (rd_u _ ?n) _ (skipn ?k _) = _ => let k' := eval vm_compute in (k + n)%nat in
      eapply (B_u _ _ k n k'); [assumption|lia|reflexivity|]; cbv beta
  | |- pbind (pmap (wrapu 64) (rd_i _ ?n)) _ (skipn ?k _) = _ => let k' := eval vm_compute in (k + n)%nat in
      change 64 with (8 * Z.of_nat 8); eapply (B_wu _ _ k n k'); [assumption|lia|lia|reflexivity|]; cbv beta
  | |- pbind (pskip ?n) _ (skipn ?k _) = _ => let k' := eval vm_compute in (k + n)%nat in
      apply (S_skip _ k n k'); [lia|reflexivity|]; cbv beta
  end.

Lemma part_of_blk (content : list Z) k n : 0 <= k -> 0 <= n -> k + n <= 400 ->
  firstn (Z.to_nat n) (skipn (Z.to_nat k) (slice 3200 400 content)) = slice (3200 + k) n content.
Proof. intros A B C. change (firstn (Z.to_nat n) (skipn (Z.to_nat k) (slice 3200 400 content))) with (slice k n (slice 3200 400 content)). apply slice_slice; lia. Qed.

Ltac binproj := cbn [bh_job_id bh_line_num bh_reel_num bh_tr_per_ens bh_aux_per_ens bh_samp_int bh_samp_int_orig bh_samp_per_tr bh_samp_per_tr_orig bh_format_code bh_ens_fold bh_sort_code bh_vert_sum_code bh_sw_freq_at_start bh_sw_freq_at_end bh_sw_length bh_sw_type_code bh_sw_ch_tr_num bh_taper_at_start bh_taper_at_end bh_taper_type bh_corr_traces bh_bin_gain_recov bh_amp_recov_meth bh_measure_system bh_impulse_sig_pol bh_vib_pol_code bh_ext_tr_per_ens bh_ext_aux_per_ens bh_ext_samp_per_tr bh_ext_samp_int bh_ext_samp_int_orig bh_ext_samp_per_tr_orig bh_ext_ens_fold bh_endianness bh_SEGY_rev_major_ver bh_SEGY_rev_minor_ver bh_fixed_tr_length bh_ext_text_headers_num bh_max_num_add_tr_headers bh_time_basis_code bh_num_of_tr_in_file bh_byte_off_of_first_tr bh_num_of_trailer_stanza].

Lemma fill_says e content b0 : bytes content -> 3600 <= len content -> 
  exists b c, fill_bin_header e b0 (slice 3200 400 content) = Ok (b, c) /\ bin_says content (ord e) b /\
    bh_endianness b = bh_endianness b0 /\
    if 1 <? bh_SEGY_rev_major_ver b then bin2_says content (ord e) b
    else bh_max_num_add_tr_headers b = bh_max_num_add_tr_headers b0 /\ bh_time_basis_code b = bh_time_basis_code b0 /\
         bh_num_of_tr_in_file b = bh_num_of_tr_in_file b0 /\ bh_byte_off_of_first_tr b = bh_byte_off_of_first_tr b0 /\
         bh_num_of_trailer_stanza b = bh_num_of_trailer_stanza b0.
Proof.
  intros B L. set (blk := slice 3200 400 content).
  assert (Bb : bytes blk) by (apply bytes_slice; exact B).
  assert (Lb : List.length blk = 400%nat) by (pose proof (slice_length 3200 400 content ltac:(lia) ltac:(lia) ltac:(lia)) as X; unfold len in X; unfold blk; lia).
  assert (Q : forall k n, (k + n <= 400)%nat -> firstn n (skipn k blk) = slice (3200 + Z.of_nat k) (Z.of_nat n) content).
  { intros k n H. rewrite <- part_of_blk by lia. rewrite !Nat2Z.id. reflexivity. }
  assert (M : uval (ord e) (firstn 1 (skipn 300 blk)) = unsg content (ord e) 3501 3501).
  { rewrite Q by lia. reflexivity. }
  destruct (1 <? unsg content (ord e) 3501 3501) eqn:R.
  - eexists. eexists. split.
    { change blk with (skipn 0 blk) at 1. unfold fill_bin_header. do 39 bstep. rewrite M, R. do 5 bstep. reflexivity. }
    split; [|split; [reflexivity|]].
    + unfold bin_says. binproj. repeat split; rewrite Q by lia; reflexivity.
    + binproj. rewrite R. unfold bin2_says. binproj. repeat split; rewrite Q by lia; reflexivity.
  - eexists. eexists. split.
    { change blk with (skipn 0 blk) at 1. unfold fill_bin_header. do 39 bstep. rewrite M, R. reflexivity. }
    split; [|split; [reflexivity|]].
    + unfold bin_says. binproj. repeat split; rewrite Q by lia; reflexivity.
    + binproj. rewrite R. repeat split.
Qed.
