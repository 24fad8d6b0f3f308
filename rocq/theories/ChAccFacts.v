(** The revision 3 members of channel set headers (C107). *)
From Coq Require Import Lia.
From Verif Require Import BaseFacts SegdTypes ISegd SegdSpec SegdDecSpec Segd3Spec Segd3Facts ChAcc ChAccSpec.
Local Open Scope Z_scope.

Lemma pbind_inv {A B} (m : P A) (k : A -> P B) c r : pbind m k c = Ok r -> exists a c1, m c = Ok (a, c1) /\ k a c1 = Ok r.
Proof. unfold pbind. intro H. destruct (m c) as [[a c1]|e|]; [|discriminate..]. eauto. Qed.
Lemma old_r3 p b c rest : rd_chset p b = Ok (c, rest) -> c_r3 c = Some (mkR3 0 0 0 0 0 None).
Proof.
  unfold rd_chset. intro H. repeat (apply pbind_inv in H as (? & ? & _ & H)). unfold pret in H. injection H as <- _. reflexivity.
Qed.
Lemma old_sets p n : forall f cs f', read_ch_sets p false n f = Ok (cs, f') -> Forall (fun c => c_r3 c = Some (mkR3 0 0 0 0 0 None)) cs.
Proof.
  induction n as [|n IH]; intros f cs f' H; cbn [read_ch_sets] in H; [injection H as <- _; constructor|].
  apply bind_ok in H as ([c f1] & E & H). apply bind_ok in H as ([cs1 f2] & E2 & H). injection H as <- _.
  constructor; [|exact (IH _ _ _ E2)]. unfold read_ch_set_hdr in E. apply bind_ok in E as ([buf f3] & _ & E).
  apply bind_ok in E as ([c' r] & E & K). injection K as <- _. exact (old_r3 _ _ _ _ E).
Qed.
Lemma old_scans p ns sk n : forall f ss f', read_scan_types p false ns sk n f = Ok (ss, f') ->
  Forall (Forall (fun c => c_r3 c = Some (mkR3 0 0 0 0 0 None))) ss.
Proof.
  induction n as [|n IH]; intros f ss f' H; cbn [read_scan_types] in H; [injection H as <- _; constructor|].
  apply bind_ok in H as ([cs f1] & E & H). apply bind_ok in H as (f2 & _ & H). apply bind_ok in H as ([rest f3] & E3 & H). injection H as <- _.
  constructor; [exact (old_sets _ _ _ _ _ E)|exact (IH _ _ _ E3)].
Qed.
Lemma old_open p content ls s : isegd_open p content ls = Ok s -> is_rev3 (d_g1 s) (d_g2 s) = false ->
  Forall (Forall (fun c => c_r3 c = Some (mkR3 0 0 0 0 0 None))) (d_sets s).
Proof.
  unfold isegd_open, read_headers_before_traces. intros H R. apply bind_ok in H as ([[[[g1 g2] g3] m] f1] & _ & H).
  apply bind_ok in H as (u & _ & H). apply bind_ok in H as ([sets f2] & E & H). apply bind_ok in H as (u1 & _ & H).
  apply bind_ok in H as ([extd f3] & _ & H). apply bind_ok in H as (u2 & _ & H). apply bind_ok in H as ([extl f4] & _ & H).
  injection H as <-. cbn [d_g1 d_g2 d_sets] in *. rewrite R in E. exact (old_scans _ _ _ _ _ _ _ E).
Qed.
Lemma new_six b c : chset_read3 b c -> accessors c = stored_six (wrapu 8) b.
Proof.
  intros (H & _ & D). unfold chset_of3 in H. repeat (apply proj2 in H). destruct H as (r & E & R1 & R2 & R3 & R4 & R5).
  unfold accessors, stored_six, c_number_of_samples, c_samp_int, c_filter_phase, c_physical_unit, c_description. rewrite D, E. cbn [option_map]. congruence.
Qed.
