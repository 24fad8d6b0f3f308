(** C70: descriptions of header members and trace header words. *)
From Coq Require Import String Lia.
From Verif Require Import Base TraceHdr SegyTypes NameTables NameSpec NameFacts.
Local Open Scope string_scope.
Local Open Scope list_scope.

(** C70.  name_as_string is defined for every enumerator of every header class
    and returns a description that contains the words of the enumerator (a few
    are described in other words); different enumerators have different
    descriptions.

    Partial: not for the orientation block. *)
Theorem C70_member_descriptions_partial : forall c t, In (c, t) name_tables -> c <> "GeneralHeaderOri" ->
  (forall i e, nth_error (fst t) i = Some e -> exists d, name_as_string t i = Ok d /\
     (describes e d = true \/ In e other_words)) /\
  (forall i j d, name_as_string t i = Ok d -> name_as_string t j = Ok d -> i = j).
Proof.
  intros c t H N. pose proof tables_ok as T. rewrite forallb_forall in T. specialize (T _ H). cbn [fst snd] in T.
  apply orb_prop in T as [T|T]; [apply String.eqb_eq in T; contradiction|]. unfold table_ok in T.
  apply andb_prop in T as [T T3]. apply andb_prop in T as [T1 T2]. apply Nat.eqb_eq in T1. apply nodupb_ok in T2. split.
  - intros i e E. unfold name_as_string. destruct (nth_error (snd t) i) as [d|] eqn:D.
    + exists d. split; [reflexivity|]. rewrite forallb_forall in T3.
      assert (I : In (e, d) (combine (fst t) (snd t))).
      { revert E D. clear. generalize (fst t) (snd t). intros l m. revert l m. induction i; intros [|x l] [|y m] E D; cbn in *; try discriminate.
        - injection E as ->. injection D as ->. left. reflexivity.
        - right. apply IHi; assumption. }
      specialize (T3 _ I). cbn in T3. apply orb_prop in T3 as [T3|T3]; [left; exact T3|right; apply inb_in, T3].
    + exfalso. apply nth_error_None in D. assert (nth_error (fst t) i <> None) by congruence.
      apply nth_error_Some in H0. lia.
  - intros i j d. unfold name_as_string. destruct (nth_error (snd t) i) as [a|] eqn:A; [|discriminate].
    destruct (nth_error (snd t) j) as [b|] eqn:B; [|discriminate]. intros E1 E2. injection E1 as ->. injection E2 as ->.
    assert (L : (i < List.length (snd t))%nat) by (apply nth_error_Some; congruence).
    apply (proj1 (NoDup_nth_error (snd t)) T2 i j L). congruence.
Qed.
Print Assumptions C70_member_descriptions_partial.

Example C70_case :
  In ("BinaryHeader", n_BinaryHeader) name_tables /\ nth_error (fst n_BinaryHeader) 7 = Some "SAMP_PER_TR" /\
  name_as_string n_BinaryHeader 7 = Ok "Number of samples per data trace" /\
  describes "SAMP_PER_TR" "Number of samples per data trace" = true /\ describes "SAMP_PER_TR" "Reel number" = false /\
  List.length (concat (map (fun c => fst (snd c)) name_tables)) = 331%nat.
Proof. split; [left; reflexivity|]. repeat (split; [vm_compute; reflexivity|]). vm_compute. reflexivity. Qed.

(** C70, refuted: of the orientation block, rotation to the north is described
    as the type of the header; for its last two enumerators the function reads
    behind the end of its table. *)
Theorem C70_orientation_refuted :
  nth_error (fst n_GeneralHeaderOri) 8 = Some "ROT_NORTH" /\
  name_as_string n_GeneralHeaderOri 8 = Ok "General header type" /\
  nth_error (fst n_GeneralHeaderOri) 10 = Some "GEN_HEADER_TYPE" /\ name_as_string n_GeneralHeaderOri 10 = UB /\
  name_as_string n_GeneralHeaderOri 9 = UB.
Proof. repeat split. Qed.
Print Assumptions C70_orientation_refuted.

(** C70.  Every word of the default trace header layouts has a description
    under its name, and only one.

    Partial: but five of them. *)
Theorem C70_trace_header_partial :
  (forall n l e, In (n, l) default_trace_header -> In e l -> ~ In (e_name e) undescribed ->
     exists d, In (e_name e, d) trace_header_description) /\
  (forall a d d', In (a, d) trace_header_description -> In (a, d') trace_header_description -> d = d').
Proof.
  split.
  - intros n l e H He N. pose proof layouts_ok as T. rewrite forallb_forall in T. specialize (T (e_name e)).
    assert (I : In (e_name e) layout_names).
    { apply in_map. apply in_concat. exists l. split; [|exact He]. apply in_map_iff. exists (n, l). auto. }
    specialize (T I). apply orb_prop in T as [T|T]; [apply inb_in in T; contradiction|].
    apply inb_in, in_map_iff in T as ((a & d) & <- & T). exists d. exact T.
  - intros a d d' H H'. assert (D : NoDup (map fst trace_header_description)) by (apply nodupb_ok; vm_compute; reflexivity).
    revert H H' D. generalize trace_header_description. induction l as [|(b & x) l IH]; intros H H' D; [contradiction|].
    cbn in D. inversion D as [|? ? D1 D2]; subst. destruct H as [E|H], H' as [E'|H'].
    + congruence.
    + exfalso. apply D1. injection E as -> ->. change a with (fst (a, d')). apply in_map, H'.
    + exfalso. apply D1. injection E' as -> ->. change a with (fst (a, d)). apply in_map, H.
    + apply IH; assumption.
Qed.
Print Assumptions C70_trace_header_partial.

Example C70_trace_header_case :
  List.length layout_names = 115%nat /\ inb layout_names "SAMP_NUM" = true /\
  In ("SAMP_NUM", "Number of samples in this trace.") trace_header_description.
Proof. split; [reflexivity|]. split; [vm_compute; reflexivity|]. apply (fun H => H). cbn. auto 60. Qed.

(** C70, refuted for these. *)
Theorem C70_undescribed_refuted : forall a, In a undescribed ->
  (exists n l e, In (n, l) default_trace_header /\ In e l /\ e_name e = a) /\
  forall d, ~ In (a, d) trace_header_description.
Proof.
  intros a H. assert (T : forallb (fun a => inb layout_names a && negb (inb (map fst trace_header_description) a)) undescribed = true)
    by (vm_compute; reflexivity).
  rewrite forallb_forall in T. specialize (T _ H). apply andb_prop in T as [T1 T2]. split.
  - apply inb_in, in_map_iff in T1 as (e & <- & T1). apply in_concat in T1 as (l & T1 & He).
    apply in_map_iff in T1 as ((n & l') & <- & T1). exists n, l', e. auto.
  - intros d Hd. assert (In a (map fst trace_header_description)) by (change a with (fst (a, d)); apply in_map, Hd).
    apply inb_in in H0. rewrite H0 in T2. discriminate.
Qed.
Print Assumptions C70_undescribed_refuted.
