(** C107: the members of a channel set header that only revision 3 has. *)
From Coq Require Import Lia.
From Verif Require Import BaseFacts Platform SegdTypes ISegd SegdSpec SegdDecSpec Segd3Spec Segd3Facts Segd3Props ChAcc ChAccSpec ChAccFacts SegdExamples SegdTrcExamples Segd3Examples.
Local Open Scope Z_scope.

(** Revision 3: every accessor has a value, and it is the one in the file.

    Partial: of the filter delay only the low byte is given; the number of
    additional blocks is not the F escape (C53). *)
Theorem C107_revision3_partial : forall p content ls s,
  p_left_first p = true -> bytes content -> len content < 2 ^ 63 -> rev3 content ->
  2 <= add_of content < 15 -> isegd_open p content ls = Ok s ->
  Forall2 (Forall2 (fun b c => accessors c = stored_six (fun d => d mod 256) b))
    (map (scan3_blocks content) (seq 0 (Z.to_nat (scans_of content)))) (d_sets s).
Proof.
  intros p content ls s Hp Hb Hl Hr Ha E. pose proof (sets_shown3 p content ls s Hp Hb Hl Hr Ha E) as H.
  eapply Forall2_imp; [|exact H]. intros a b. apply Forall2_imp. intros x c Hc. exact (new_six _ _ Hc).
Qed.
Print Assumptions C107_revision3_partial.

Example C107_case : exists s, isegd_open segd_plat ex3 [] = Ok s /\ rev3 ex3 /\ add_of ex3 = 5 /\
  map (map (fun c => (x_samples (accessors c), x_int (accessors c), x_delay (accessors c)))) (d_sets s) =
  [[(Some 2, Some 500, Some 44)]; [(Some 2, Some 500, Some 44)]].
Proof. eexists. split; [vm_compute; reflexivity|]. split; [split; vm_compute; discriminate|]. split; vm_compute; reflexivity. Qed.

(** Earlier revisions, refuted: instead of nothing, the accessors of every
    channel set header of every such file give zeros, and a description that is
    neither in the file nor anywhere else. *)
Theorem C107_old_revisions_refuted : forall p content ls s i j sets c, isegd_open p content ls = Ok s ->
  g1_add_blocks (d_g1 s) = 0 \/ g2_major (d_g2 s) < 3 ->
  nth_error (d_sets s) i = Some sets -> nth_error sets j = Some c ->
  accessors c = mkSix (Some 0) (Some 0) (Some 0) (Some 0) (Some 0) (Some None) /\ accessors c <> no_six.
Proof.
  intros p content ls s i j sets c E R Hi Hj.
  assert (H : is_rev3 (d_g1 s) (d_g2 s) = false) by (unfold is_rev3; destruct R as [->|R]; [reflexivity|]; apply Bool.andb_false_iff; right; lia).
  pose proof (old_open p content ls s E H) as Q. rewrite Forall_forall in Q. specialize (Q _ (nth_error_In _ _ Hi)).
  rewrite Forall_forall in Q. specialize (Q _ (nth_error_In _ _ Hj)).
  assert (A : accessors c = mkSix (Some 0) (Some 0) (Some 0) (Some 0) (Some 0) (Some None)).
  { unfold accessors, c_number_of_samples, c_samp_int, c_filter_phase, c_physical_unit, c_filter_delay, c_description. rewrite Q. reflexivity. }
  split; [exact A|]. rewrite A. discriminate.
Qed.
Print Assumptions C107_old_revisions_refuted.

Example C107_old_case : exists s c, isegd_open segd_plat ex_8058 [] = Ok s /\ g2_major (d_g2 s) < 3 /\ nth_error (concat (d_sets s)) 0 = Some c /\
  c_number_of_samples c = Some 0 /\ c_description c = Some None.
Proof. eexists. eexists. split; [vm_compute; reflexivity|]. split; [vm_compute; reflexivity|]. split; [vm_compute; reflexivity|]. split; reflexivity. Qed.
