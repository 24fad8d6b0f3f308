(** Layouts and writers in Python (C103). *)
From Coq Require Import String Ascii Sorted Reals Lia.
From Verif Require Import BaseFacts Fp TraceHdr SegyTypes ISegy OSegy FileSpec CopySpec PyBind PySpec PyFacts
  PyTrace PyTraceSpec PyTraceFacts PyDictSpec PyDictFacts SegdTypes SegdSpec OSegd SegdExamples PyWrite PyWriteSpec.
Local Open Scope list_scope.
Local Open Scope Z_scope.

Definition lt_off (x y : entry) : Prop := e_off x < e_off y.

(** ** [emplace] *)
Lemma emplace_in e l : (forall x, In x l -> e_off x <> e_off e) ->
  forall y, In y (emplace l e) <-> y = e \/ In y l.
Proof.
  induction l as [|x l IH]; intros N y; cbn [emplace].
  - cbn [In]. intuition.
  - destruct (e_off e <? e_off x); [cbn [In]; intuition|].
    destruct (Z.eqb_spec (e_off e) (e_off x)) as [E|E]; [exfalso; apply (N x (or_introl eq_refl)); congruence|].
    cbn [In]. rewrite IH by (intros z Hz; apply N; right; exact Hz). intuition.
Qed.
Lemma emplace_sorted e l : StronglySorted lt_off l -> StronglySorted lt_off (emplace l e).
Proof.
  induction 1 as [|x l S IH F]; cbn [emplace].
  - repeat constructor.
  - destruct (Z.ltb_spec (e_off e) (e_off x)).
    + constructor; [constructor; assumption|]. constructor; [exact H|].
      eapply Forall_impl; [|exact F]. unfold lt_off. intros; lia.
    + destruct (Z.eqb_spec (e_off e) (e_off x)); [constructor; assumption|].
      constructor; [exact IH|]. rewrite Forall_forall in *. intros y Hy.
      assert (In y (emplace l e) -> y = e \/ In y l) as I.
      { clear. induction l as [|x l IH]; cbn [emplace]; [cbn [In]; intuition|].
        destruct (e_off e <? e_off x); [cbn [In]; intuition|].
        destruct (e_off e =? e_off x); [cbn [In]; intuition|]. cbn [In]. intuition. }
      destruct (I Hy) as [->|Hl]; [unfold lt_off; lia | exact (F _ Hl)].
Qed.
Lemma emplace_last e l : Forall (fun x => e_off x < e_off e) l -> emplace l e = l ++ [e].
Proof.
  induction 1 as [|x l H F IH]; cbn [emplace app]; [reflexivity|].
  destruct (Z.ltb_spec (e_off e) (e_off x)); [lia|]. destruct (Z.eqb_spec (e_off e) (e_off x)); [lia|].
  rewrite IH. reflexivity.
Qed.

(** Sorted lists with the same elements are equal. *)
Lemma sorted_unique : forall l m, StronglySorted lt_off l -> StronglySorted lt_off m ->
  (forall e, In e l <-> In e m) -> l = m.
Proof.
  induction l as [|x l IH]; intros [|y m] Sl Sm H.
  - reflexivity.
  - exfalso. exact (proj2 (H y) (or_introl eq_refl)).
  - exfalso. exact (proj1 (H x) (or_introl eq_refl)).
  - inversion Sl as [|? ? Sl' Fl]; inversion Sm as [|? ? Sm' Fm]; subst.
    rewrite Forall_forall in Fl, Fm. unfold lt_off in *.
    assert (x = y) as <-.
    { destruct (proj1 (H x) (or_introl eq_refl)) as [->|Hx]; [reflexivity|].
      destruct (proj2 (H y) (or_introl eq_refl)) as [->|Hy]; [reflexivity|].
      specialize (Fl _ Hy). specialize (Fm _ Hx). lia. }
    f_equal. apply IH; [assumption..|]. intro e. split; intro He.
    + destruct (proj1 (H e) (or_intror He)) as [<-|]; [|assumption]. specialize (Fl _ He). lia.
    + destruct (proj2 (H e) (or_intror He)) as [<-|]; [|assumption]. specialize (Fm _ He). lia.
Qed.

(** ** Names *)
Lemma name_text v s : exists_val v -> to_key v = Some s -> exists b, key_text v b /\ s = to_string b.
Proof.
  unfold to_key. destruct v as [z|d|u|b]; cbn [as_string exists_val key_text option_map]; try discriminate.
  - intros H E. destruct (utf8_enc u) as [e|] eqn:U; [|discriminate]. injection E as <-.
    exists e. split; [exact (enc_utf8 u H e U)|reflexivity].
  - intros H E. injection E as <-. exists b. auto.
Qed.

(** ** Items *)
Lemma u32 k : in_u 32 k = true <-> 0 <= k < 2 ^ 32.
Proof. unfold in_u. rewrite andb_true_iff, Z.leb_le, Z.ltb_lt. reflexivity. Qed.
Lemma entry_item i e : exists_val (fst (snd i)) -> to_entry i = Some e -> item_is i e.
Proof.
  destruct i as [k [n t]]. cbn [fst snd]. intro V. unfold to_entry. destruct k as [k|?|?|?]; try discriminate.
  destruct t as [t|]; [|discriminate]. destruct (in_u 32 k) eqn:R; [|discriminate].
  destruct (to_key n) as [s|] eqn:N; [|discriminate]. cbn [option_map]. intro E. injection E as <-.
  apply u32 in R. destruct (name_text _ _ V N) as (b & T & ->).
  unfold item_is, e_off, e_name, e_type. cbn [fst snd]. split; [reflexivity|]. split; [exact R|]. split; [|reflexivity].
  exists b. auto.
Qed.
Lemma item_entry i e : item_is i e -> to_entry i = Some e.
Proof.
  destruct i as [k [n t]], e as [k' [s t']]. unfold item_is, e_off, e_name, e_type. cbn [fst snd].
  intros (-> & R & (b & T & ->) & ->). cbn [to_entry]. apply u32 in R. rewrite R.
  destruct (key_ok _ _ T) as (-> & _). reflexivity.
Qed.

(** ** Dicts *)
Lemma layout_sorted d : forall l l', StronglySorted lt_off l -> to_layout l d = Some l' -> StronglySorted lt_off l'.
Proof.
  induction d as [|i d IH]; intros l l' S E; cbn [to_layout] in E; [congruence|].
  destruct (to_entry i) as [e|]; [|discriminate]. exact (IH _ _ (emplace_sorted e l S) E).
Qed.
Lemma layout_in d : forall l l', NoDup (map fst d) ->
  (forall i e x, In i d -> to_entry i = Some e -> In x l -> e_off x <> e_off e) ->
  to_layout l d = Some l' ->
  (forall i, In i d -> exists e, to_entry i = Some e) /\
  (forall e, In e l' <-> In e l \/ exists i, In i d /\ to_entry i = Some e).
Proof.
  induction d as [|i d IH]; intros l l' N F E; cbn [to_layout] in E.
  - injection E as <-. split; [intros i []|]. intro e. split; [auto|]. intros [H|(i & [] & _)]. exact H.
  - destruct (to_entry i) as [x|] eqn:Ei; [|discriminate]. inversion N as [|? ? Ni Nd]; subst.
    assert (Hx : forall y, In y (emplace l x) <-> y = x \/ In y l).
    { apply emplace_in. intros y Hy. exact (F i x y (or_introl eq_refl) Ei Hy). }
    assert (K : forall i e, to_entry i = Some e -> fst i = PInt (e_off e)).
    { intros [k [n t]] e. unfold to_entry. destruct k; try discriminate. destruct t; [|discriminate].
      destruct (in_u 32 z); [|discriminate]. destruct (to_key n); [|discriminate]. cbn [option_map].
      intro Q. injection Q as <-. reflexivity. }
    destruct (IH (emplace l x) l' Nd) as (A & B); [|exact E|].
    { intros j e y Hj Ej Hy. apply Hx in Hy. destruct Hy as [->|Hy].
      - intro Q. apply Ni. rewrite (K _ _ Ei), Q, <- (K _ _ Ej). apply in_map. exact Hj.
      - exact (F j e y (or_intror Hj) Ej Hy). }
    split.
    + intros j [<-|Hj]; [exists x; exact Ei|exact (A j Hj)].
    + intro e. rewrite B, Hx. split.
      * intros [[->|H]|(j & Hj & Ej)]; [right; exists i; split; [left; reflexivity|exact Ei]|left; exact H|].
        right. exists j. split; [right; exact Hj|exact Ej].
      * intros [H|(j & [<-|Hj] & Ej)]; [left; right; exact H| |right; exists j; auto].
        left. left. congruence.
Qed.
Lemma layout_total d : forall l, (forall i, In i d -> exists e, to_entry i = Some e) -> exists l', to_layout l d = Some l'.
Proof.
  induction d as [|i d IH]; intros l H; cbn [to_layout]; [eauto|].
  destruct (H i (or_introl eq_refl)) as (e & ->). apply IH. intros j Hj. apply H. right. exact Hj.
Qed.

Lemma dict_sound d l : NoDup (map fst d) -> Forall (fun i => exists_val (fst (snd i))) d ->
  to_layout [] d = Some l -> dict_is d l.
Proof.
  intros N V E. rewrite Forall_forall in V. destruct (layout_in d [] l N) as (A & B); [intros ? ? ? ? ? []|exact E|].
  split; [|split].
  - intros i Hi. destruct (A i Hi) as (e & Ee). exists e. split; [exact (entry_item _ _ (V _ Hi) Ee)|].
    apply B. right. eauto.
  - intros e He. apply B in He. destruct He as [[]|(i & Hi & Ei)]. exists i. split; [exact Hi|].
    exact (entry_item _ _ (V _ Hi) Ei).
  - exact (layout_sorted d [] l (SSorted_nil _) E).
Qed.
Lemma dict_complete d l : NoDup (map fst d) -> dict_is d l -> to_layout [] d = Some l.
Proof.
  intros N (A & B & S). destruct (layout_total d []) as (l' & E).
  { intros i Hi. destruct (A i Hi) as (e & Ie & _). exists e. exact (item_entry _ _ Ie). }
  rewrite E. f_equal. destruct (layout_in d [] l' N) as (_ & C); [intros ? ? ? ? ? []|exact E|].
  apply sorted_unique; [exact (layout_sorted d [] l' (SSorted_nil _) E)|exact S|].
  intro e. rewrite C. split.
  - intros [[]|(i & Hi & Ei)]. destruct (A i Hi) as (e' & Ie & He). apply item_entry in Ie. congruence.
  - intro He. right. destruct (B e He) as (i & Hi & Ie). exists i. split; [exact Hi|exact (item_entry _ _ Ie)].
Qed.

Lemma layouts_ok a : is_arg a -> forall ls, to_layouts a = Some ls <-> layouts_are a ls.
Proof.
  unfold is_arg, layouts_are. induction 1 as [|[n d] a (V & N & F) _ IH]; intro ls; cbn [to_layouts].
  - split; [intro E; injection E as <-; constructor|]. intro H. inversion H. reflexivity.
  - cbn [fst snd] in *. split.
    + destruct (to_key n) as [s|] eqn:K; [|discriminate]. destruct (to_layout [] d) as [l|] eqn:L; [|discriminate].
      destruct (to_layouts a) as [r|]; [|discriminate]. intro E. injection E as <-.
      constructor; [|apply IH; reflexivity]. cbn [fst snd]. split; [exact (name_text _ _ V K)|exact (dict_sound _ _ N F L)].
    + intro H. inversion H as [|? [s l] ? r ((b & T & E) & D) R]; subst. cbn [fst snd] in *. subst s.
      destruct (key_ok _ _ T) as (-> & _). rewrite (dict_complete _ _ N D). apply IH in R. rewrite R. reflexivity.
Qed.

(** ** Layouts of the module *)
Lemma name_back s n : py_name s = Ret n -> to_key n = Some s.
Proof.
  unfold py_name. destruct (utf8_dec (of_string s)) as [u|] eqn:D; [|discriminate]. intro E. injection E as <-.
  assert (B : bytes (of_string s)).
  { unfold of_string, bytes. apply Forall_forall. intros z Hz. apply in_map_iff in Hz. destruct Hz as (c & <- & _).
    unfold is_byte. pose proof (nat_ascii_bounded c). lia. }
  pose proof (dec_sound _ _ _ (le_n _) B D) as U. unfold to_key. cbn [as_string].
  rewrite (utf8_encoded _ _ U). cbn [option_map]. f_equal. unfold to_string, of_string. rewrite map_map.
  rewrite (map_ext _ (fun c => c)).
  - rewrite map_id. apply string_of_list_ascii_of_string.
  - intro c. rewrite Nat2Z.id. apply ascii_nat_embedding.
Qed.
Lemma sorted_off l : keys_sorted l = true -> StronglySorted lt_off l /\ Forall (fun e => in_u 32 (e_off e) = true) l.
Proof.
  intro H. assert (G : Sorted lt_off l /\ Forall (fun e => in_u 32 (e_off e) = true) l).
  { induction l as [|e l IH]; [split; constructor|]. cbn [keys_sorted] in H.
    apply andb_prop in H as [H K]. apply andb_prop in H as [R O]. destruct (IH K) as (S & F).
    split; constructor; try assumption. destruct l as [|x l]; constructor. unfold lt_off. lia. }
  destruct G as (S & F). split; [|exact F]. apply Sorted_StronglySorted; [|exact S].
  intros x y z. unfold lt_off. lia.
Qed.
Lemma layout_back l : forall d m, py_layout l = Ret d -> StronglySorted lt_off (m ++ l) ->
  Forall (fun e => in_u 32 (e_off e) = true) l -> to_layout m d = Some (m ++ l).
Proof.
  induction l as [|[k [s t]] l IH]; intros d m E S F; cbn [py_layout] in E.
  - injection E as <-. cbn [to_layout]. rewrite app_nil_r. reflexivity.
  - destruct (py_name s) as [n| |] eqn:N; try discriminate. destruct (py_layout l) as [d'| |] eqn:D; try discriminate.
    injection E as <-. cbn [to_layout]. inversion F as [|? ? Fk Fl]; subst. unfold e_off in Fk. cbn [fst] in Fk.
    cbn [to_entry]. rewrite Fk, (name_back _ _ N). cbn [option_map].
    rewrite emplace_last.
    + assert (Q : (m ++ [(k, (s, t)) : entry]) ++ l = m ++ (k, (s, t)) :: l) by (rewrite <- app_assoc; reflexivity).
      pose proof (IH d' (m ++ [(k, (s, t)) : entry]) eq_refl) as J. rewrite Q in J. exact (J S Fl).
    + clear -S. induction m as [|x m IH]; constructor.
      * cbn [app] in S. inversion S as [|? ? _ G]. rewrite Forall_forall in G. apply G. apply in_or_app. right. left. reflexivity.
      * apply IH. cbn [app] in S. inversion S. assumption.
Qed.
Lemma layouts_back ls : layouts_wf ls = true -> forall a, py_layouts ls = Ret a -> to_layouts a = Some ls.
Proof.
  induction ls as [|[s l] ls IH]; intros W a E; cbn [py_layouts] in E.
  - injection E as <-. reflexivity.
  - unfold layouts_wf in W. cbn [forallb snd] in W. apply andb_prop in W as [K W].
    destruct (py_name s) as [n| |] eqn:N; try discriminate. destruct (py_layout l) as [d| |] eqn:D; try discriminate.
    destruct (py_layouts ls) as [r| |]; try discriminate. injection E as <-. cbn [to_layouts].
    rewrite (name_back _ _ N). destruct (sorted_off l K) as (S & F). rewrite (layout_back l d [] D S F).
    rewrite (IH W r eq_refl). reflexivity.
Qed.

(** ** The copy *)
Lemma bytes_back l : to_strings (map PBytes l) = Some l.
Proof. induction l as [|b l IH]; cbn [map to_strings as_string]; [reflexivity|]. rewrite IH. reflexivity. Qed.
Lemma choice s : to_writer (py_choice s) = Some (writer_for (i_bh s) (i_text s)).
Proof.
  unfold py_choice, writer_for, py_text_headers. destruct (bh_SEGY_rev_major_ver (i_bh s)) as [|[p|p|]|]; cbn [to_writer];
    rewrite ?bytes_back; try reflexivity.
  destruct (i_text s) as [|t r]; cbn [map hd as_string]; reflexivity.
Qed.
Lemma choice_rev2 s : match py_choice s with PW2 _ _ => True | _ => False end <->
  match writer_for (i_bh s) (i_text s) with W2 _ _ => True | _ => False end.
Proof. unfold py_choice, writer_for. destruct (bh_SEGY_rev_major_ver (i_bh s)) as [|[p|p|]|]; tauto. Qed.

Lemma write_all_ok p fuel : forall s o o1,
  py_write_all p fuel s o = Ret o1 <-> exists ts s1, read_all p fuel s = Ok (ts, s1) /\ write_traces p o ts = Ok o1.
Proof.
  induction fuel as [|k IH]; intros s o o1.
  - cbn [py_write_all read_all]. unfold next_segy, step. destruct (has_trace s).
    + split; [|intros (ts & s1 & E & _); discriminate]. unfold from_cpp.
      destruct (read_trace p s) as [[t s1]|e|]; discriminate.
    + split; [intro E; injection E as <-; exists [], s; auto|].
      intros (ts & s1 & E & W). injection E as <- <-. cbn [write_traces] in W. congruence.
  - cbn [py_write_all read_all]. unfold next_segy, step. destruct (has_trace s).
    + unfold from_cpp at 1. destruct (read_trace p s) as [[t s1]|e|]; cbn [bind].
      * split.
        -- destruct (write_trace p o t) as [o2|e|] eqn:W; cbn [from_cpp]; try discriminate. intro E.
           apply IH in E. destruct E as (ts & s2 & R & W2). exists (t :: ts), s2. rewrite R. cbn [bind write_traces].
           rewrite W. cbn [bind]. auto.
        -- intros (ts & s2 & R & W). destruct (read_all p k s1) as [[ts' s3]|e|] eqn:R'; cbn [bind] in R; try discriminate.
           injection R as <- <-. cbn [write_traces] in W. destruct (write_trace p o t) as [o2|e|]; cbn [bind] in W; try discriminate.
           cbn [from_cpp]. apply IH. eauto.
      * split; [destruct e; discriminate|]. intros (ts & s2 & R & _). discriminate.
      * split; [discriminate|]. intros (ts & s2 & R & _). discriminate.
    + split; [intro E; injection E as <-; exists [], s; auto|].
      intros (ts & s1 & E & W). injection E as <- <-. cbn [write_traces] in W. congruence.
Qed.

Lemma copy_same p content a ls fuel x : to_layouts a = Some ls ->
  (py_copy p content a fuel = Ret x <-> copy p content ls fuel = Ok x).
Proof.
  intro L. unfold py_copy, py_reader, copy, py_open. rewrite L.
  destruct (isegy_open p content ls) as [s|e|]; cbn [from_cpp bind]; [|split; discriminate..].
  rewrite choice. pose proof (choice_rev2 s) as C2. cbv zeta. unfold py_del.
  destruct (read_all p fuel s) as [[ts s1]|e|] eqn:R; cbn [bind].
  - destruct (w_open p (writer_for (i_bh s) (i_text s)) (i_bh s) ls) as [o|e|]; cbn [from_cpp bind]; [|split; discriminate..].
    pose proof (write_all_ok p fuel s o) as A.
    destruct (py_write_all p fuel s o) as [o1|e|] eqn:P.
    + destruct (proj1 (A o1) eq_refl) as (ts' & s1' & R' & W). rewrite R in R'. injection R' as <- <-. rewrite W. cbn [bind].
      destruct (py_choice s), (writer_for (i_bh s) (i_text s)); try tauto;
        try (split; intro E; injection E as <-; reflexivity).
      destruct (rev2_close o1) as [f|e|]; cbn [bind]; (split; intro E; try discriminate; injection E as <-; reflexivity).
    + split; [discriminate|]. destruct (write_traces p o ts) as [o1|e'|] eqn:W; cbn [bind]; try discriminate.
      assert (Q : Raise e = Ret o1) by (apply A; eauto). discriminate.
    + split; [discriminate|]. destruct (write_traces p o ts) as [o1|e'|] eqn:W; cbn [bind]; try discriminate.
      assert (Q : PyUB = Ret o1) by (apply A; eauto). discriminate.
  - split; [|discriminate]. destruct (from_cpp _) as [o|e'|]; try discriminate.
    destruct (py_write_all p fuel s o) as [o1|e'|] eqn:P; try discriminate.
    apply write_all_ok in P. destruct P as (ts & s1 & R' & _). congruence.
  - split; [|discriminate]. destruct (from_cpp _) as [o|e'|]; try discriminate.
    destruct (py_write_all p fuel s o) as [o1|e'|] eqn:P; try discriminate.
    apply write_all_ok in P. destruct P as (ts & s1 & R' & _). congruence.
Qed.

Lemma no_type_error p fuel : forall s o, py_write_all p fuel s o <> Raise TypeError.
Proof.
  induction fuel as [|k IH]; intros s o; cbn [py_write_all]; unfold next_segy, step.
  - destruct (has_trace s); [|discriminate]. destruct (read_trace p s) as [[t s1]|e|]; cbn [from_cpp]; discriminate.
  - destruct (has_trace s); [|discriminate]. destruct (read_trace p s) as [[t s1]|e|]; cbn [from_cpp]; try discriminate.
    destruct (write_trace p o t) as [o2|e|]; cbn [from_cpp]; try discriminate. apply IH.
Qed.
Lemma copy_type p content a fuel : py_copy p content a fuel = Raise TypeError <-> to_layouts a = None.
Proof.
  unfold py_copy, py_reader, py_open. destruct (to_layouts a) as [ls|]; [|tauto]. split; [|discriminate].
  destruct (isegy_open p content ls) as [s|e|]; cbn [from_cpp]; try discriminate. rewrite choice.
  destruct (w_open p _ _ ls) as [o|e|]; cbn [from_cpp]; try discriminate.
  destruct (py_write_all p fuel s o) as [o1|e|] eqn:P; try discriminate.
  - unfold py_del. destruct (py_choice s); try discriminate. destruct (rev2_close o1); discriminate.
  - intro E. injection E as ->. exfalso. exact (no_type_error _ _ _ _ P).
Qed.

(** ** SEG-D (C104) *)

Lemma blks_none n f : (0 < n)%nat -> write_blks n [] f = UB.
Proof. destruct n; [lia|reflexivity]. Qed.
Lemma announced p g1 g2 sets extd extl s : osegd_open p g1 g2 sets [] extd extl [] = Ok s ->
  announces (g1_extended_blocks g1) (g2_extended_blocks g2) \/ announces (g1_external_blocks g1) (g2_external_blocks g2) ->
  osegd_open p g1 g2 sets [] [] [] [] = UB.
Proof.
  unfold osegd_open, announces. intros O A. cbn [SegdTypes.add_blocks bind] in *.
  destruct (negb _); [discriminate|]. cbv zeta in *.
  destruct (d_sample_writer _ _); cbn [bind] in *; [|discriminate..].
  destruct (put_block _ _ empty_file) as [f1| |]; cbn [bind] in *; [|discriminate..].
  destruct (put_block _ _ f1) as [f2| |]; cbn [bind] in *; [|discriminate..].
  destruct (write_gNs _ _ f2) as [f3| |]; cbn [bind] in *; [|discriminate..].
  destruct (write_scan_types _ _ _ _ f3) as [f4| |]; cbn [bind] in *; [|discriminate..].
  set (n := if g1_extended_blocks g1 =? 165 then _ else _) in *.
  set (m := if g1_external_blocks g1 =? 165 then _ else _) in *. clear O.
  destruct (Z.to_nat (wrapu 32 n)) as [|k] eqn:N; [|reflexivity]. cbn [write_blks bind].
  destruct A as [A|A].
  - unfold wrapu in N. rewrite Z.mod_small in N by lia. lia.
  - rewrite blks_none; [reflexivity|]. unfold wrapu. rewrite Z.mod_small by lia. lia.
Qed.

Definition py_g1 : gh1 := mkG1 123 8058 120 19 1 200 12 34 56 20 1234 345678 (i2d 2) 1 16 8 51 1 2 1 0 0.
Definition py_rec : srec :=
  mkSR py_g1 32 4 ex_g2 [] [[(ex_cs 1 1, 1024, 0); (ex_cs 2 2, 1024, 0)]] [] [].
Lemma py_rec_good : rec_good segd_plat py_rec.
Proof.
  destruct ex_rec_good as ((G1 & G2 & G3 & _ & _ & G4 & _) & M & Cf & Gf).
  split; [|split; [exact M|split; [exact Cf|exact Gf]]].
  split.
  { unfold gh1_range in *. cbn [r_g1 r_k r_e ex_rec py_rec] in *. destruct G1 as (A & B). revert A B.
    unfold ex_g1, py_g1. cbn [g1_file_number g1_format_code g1_gen_const g1_year g1_add_blocks g1_day g1_hour g1_minute
      g1_second g1_manufac_code g1_manufac_num g1_bytes_per_scan g1_base_scan_int g1_polarity g1_scans_per_block
      g1_record_type g1_record_length g1_scan_types g1_channel_sets g1_skew_blocks g1_extended_blocks g1_external_blocks].
    intros A B. split; [exact A|]. unfold below in *. decompose [and] B.
    repeat match goal with |- _ /\ _ => split end; try assumption; try lia. }
  split; [exact G2|]. split; [exact G3|]. split; [constructor|]. split; [reflexivity|]. split; [exact G4|].
  split; [reflexivity|]. split; [reflexivity|]. split; [repeat constructor|]. split; [constructor|].
  split; [left; split; reflexivity|]. split; [constructor|]. left; split; reflexivity.
Qed.
Lemma py_traces_in : Forall (tc_in py_rec) ex_traces.
Proof.
  destruct ex_fr_ok as (_ & F & _). eapply Forall_impl; [|exact F]. intros x H. exact H.
Qed.
