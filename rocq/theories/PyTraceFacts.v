(** Reference counts and keep-alive references never free what a name refers
    to, and free everything else (C91). *)
From Coq Require Import String Lia Arith.
From Verif Require Import Base TraceHdr SegyTypes PyBind PyTrace PyTraceSpec.
Local Open Scope list_scope.
Local Open Scope nat_scope.

Notation count := (count_occ Nat.eq_dec).

(** ** Lists with holes *)
Lemma at_set_same {A} : forall (l : list (option A)) i x, i < List.length l -> at_ (set_at l i x) i = x.
Proof.
  unfold at_. induction l as [| y l IH]; intros [| i] x Hi; cbn in *; try lia; [reflexivity |].
  apply IH. lia.
Qed.
Lemma at_set_other {A} : forall (l : list (option A)) i j x, i <> j -> at_ (set_at l i x) j = at_ l j.
Proof.
  unfold at_. induction l as [| y l IH]; intros [| i] [| j] x Hn; cbn; try reflexivity; try congruence.
  apply IH. congruence.
Qed.
Lemma set_length {A} : forall (l : list A) i x, List.length (set_at l i x) = List.length l.
Proof. induction l as [| y l IH]; intros [| i] x; cbn; auto. Qed.
Lemma at_lt {A} (l : list (option A)) i x : at_ l i = Some x -> i < List.length l.
Proof.
  unfold at_. destruct (nth_error l i) eqn:E; [| discriminate].
  intros _. apply nth_error_Some. congruence.
Qed.
Lemma at_app {A} (l : list (option A)) x i :
  at_ (l ++ [x]) i = if i =? List.length l then x else at_ l i.
Proof.
  unfold at_. destruct (Nat.eqb_spec i (List.length l)) as [-> | N].
  - rewrite nth_error_app2 by lia. rewrite Nat.sub_diag. reflexivity.
  - destruct (Nat.lt_ge_cases i (List.length l)).
    + rewrite nth_error_app1 by lia. reflexivity.
    + assert (N1 : nth_error (l ++ [x]) i = None) by (apply nth_error_None; rewrite app_length; cbn; lia).
      assert (N2 : nth_error l i = None) by (apply nth_error_None; lia).
      rewrite N1, N2. reflexivity.
Qed.
Lemma at_end {A} (l : list (option A)) : at_ l (List.length l) = None.
Proof. unfold at_. assert (N : nth_error l (List.length l) = None) by (apply nth_error_None; lia). now rewrite N. Qed.

(** ** Owners *)
Definition patient (x : option pobj) : list nat :=
  match x with Some (mkObj _ (OInner p _)) => [p] | _ => [] end.
Definition patients (os : list (option pobj)) : list nat := flat_map patient os.
Definition ref_of (k : okind) : ref :=
  match k with OHeader a | OTrace a => (a, false) | OInner _ a => (a, true) end.

Lemma patients_app os x : patients (os ++ [x]) = patients os ++ patient x.
Proof. unfold patients. rewrite flat_map_app. cbn. now rewrite app_nil_r. Qed.
Lemma patients_set : forall os o ob x p, at_ os o = Some ob ->
  count (patients (set_at os o x)) p + count (patient (Some ob)) p = count (patients os) p + count (patient x) p.
Proof.
  unfold at_. induction os as [| y os IH]; intros [| o] ob x p H; cbn in H; try discriminate.
  - subst y. cbn [set_at]. unfold patients. cbn [flat_map]. rewrite !count_occ_app. lia.
  - cbn [set_at]. unfold patients. cbn [flat_map]. rewrite !count_occ_app.
    specialize (IH o ob x p H). unfold patients in IH. lia.
Qed.
Lemma patients_in : forall os o n p a, at_ os o = Some (mkObj n (OInner p a)) -> 1 <= count (patients os) p.
Proof.
  unfold at_. induction os as [| y os IH]; intros [| o] n p a H; cbn in H; try discriminate.
  - subst y. unfold patients. cbn [flat_map patient]. rewrite count_occ_app. cbn. destruct (Nat.eq_dec p p); [lia | congruence].
  - unfold patients. cbn [flat_map]. rewrite count_occ_app. specialize (IH _ _ _ _ H). unfold patients in IH. lia.
Qed.
Lemma patients_find : forall os p, 1 <= count (patients os) p -> exists o n a, at_ os o = Some (mkObj n (OInner p a)).
Proof.
  unfold at_. induction os as [| y os IH]; intros p H; [cbn in H; lia |].
  unfold patients in H. cbn [flat_map] in H. rewrite count_occ_app in H.
  destruct (count (patient y) p) as [| m] eqn:Em.
  - destruct (IH p) as (o & n & a & E); [exact H |]. exists (S o), n, a. exact E.
  - destruct y as [[n [a | a | q a]] |]; cbn in Em; try discriminate.
    destruct (Nat.eq_dec q p) as [-> |]; [| discriminate]. exists 0, n, a. reflexivity.
Qed.
Lemma find_inner_some : forall os a i, find_inner os a = Some i -> exists n p, at_ os i = Some (mkObj n (OInner p a)).
Proof.
  unfold at_. induction os as [| y os IH]; intros a i H; [discriminate |]. cbn [find_inner] in H.
  assert (R : option_map S (find_inner os a) = Some i ->
              exists n p, match nth_error (y :: os) i with Some x => x | None => None end
                          = Some (mkObj n (OInner p a))).
  { intro Hr. destruct (find_inner os a) as [j |] eqn:Ej; [| discriminate]. injection Hr as <-.
    cbn [nth_error]. apply IH. exact Ej. }
  destruct y as [[n [b | b | q b]] |]; try exact (R H).
  destruct (Nat.eqb_spec a b) as [-> | N]; [| exact (R H)].
  injection H as <-. exists n, q. reflexivity.
Qed.
Lemma find_inner_none : forall os a, find_inner os a = None ->
  forall o n p, at_ os o <> Some (mkObj n (OInner p a)).
Proof.
  unfold at_. induction os as [| y os IH]; intros a H o n p E.
  - destruct o; discriminate.
  - cbn [find_inner] in H. destruct o as [| o]; cbn [nth_error] in E.
    + subst y. rewrite Nat.eqb_refl in H. discriminate.
    + destruct (find_inner os a) as [j |] eqn:Ej.
      * destruct y as [[m [b | b | q b]] |]; cbn in H; try discriminate. destruct (a =? b); discriminate.
      * exact (IH a Ej o n p E).
Qed.

(** ** The invariant *)
Definition cnt (st : pst) (T : list nat) (o : nat) : nat :=
  count (map snd (s_env st)) o + count T o + count (patients (s_objs st)) o.
Definition kind_ok (st : pst) (k : okind) : Prop :=
  match k with
  | OHeader a => exists h, at_ (s_cells st) a = Some (h, None)
  | OTrace a => exists h s, at_ (s_cells st) a = Some (h, Some s)
  | OInner p a => exists n, at_ (s_objs st) p = Some (mkObj n (OTrace a))
  end.

(** [T]: references held by the statement being executed. *)
Record Inv (st : pst) (T : list nat) (M : store) : Prop := {
  i_len : List.length (s_cells st) = List.length M;
  i_cell : forall a c, at_ (s_cells st) a = Some c -> nth_error M a = Some c;
  i_some : forall o n k, at_ (s_objs st) o = Some (mkObj n k) -> n = cnt st T o /\ 1 <= n;
  i_none : forall o, at_ (s_objs st) o = None -> cnt st T o = 0;
  i_kind : forall o n k, at_ (s_objs st) o = Some (mkObj n k) -> kind_ok st k;
  i_uniq : forall o1 o2 n1 n2 k1 k2, at_ (s_objs st) o1 = Some (mkObj n1 k1) ->
    at_ (s_objs st) o2 = Some (mkObj n2 k2) -> ref_of k1 = ref_of k2 -> o1 = o2;
  i_own : forall a c, at_ (s_cells st) a = Some c ->
    exists o n k, at_ (s_objs st) o = Some (mkObj n k) /\ ref_of k = (a, false);
  i_names : NoDup (map fst (s_env st))
}.

Definition later (st st' : pst) : Prop :=
  s_env st' = s_env st /\ List.length (s_objs st) <= List.length (s_objs st') /\
  forall o n' k, o < List.length (s_objs st) -> at_ (s_objs st') o = Some (mkObj n' k) ->
    exists n, at_ (s_objs st) o = Some (mkObj n k).
Definition refd (st : pst) (o : nat) (r : ref) : Prop :=
  exists n k, at_ (s_objs st) o = Some (mkObj n k) /\ ref_of k = r.

Lemma later_refl st : later st st.
Proof. split; [reflexivity | split; [lia |]]. intros o n k _ E. exists n. exact E. Qed.
Lemma later_trans a b c : later a b -> later b c -> later a c.
Proof.
  intros (E1 & L1 & K1) (E2 & L2 & K2). split; [congruence | split; [lia |]].
  intros o n k Ho E. destruct (K2 o n k ltac:(lia) E) as (m & Em). exact (K1 o m k Ho Em).
Qed.

Lemma Inv_perm st T T' M : (forall o, count T o = count T' o) -> Inv st T M -> Inv st T' M.
Proof.
  intros H I. destruct I as [A B C D F G J K]. constructor; try assumption.
  - intros o n k E. destruct (C o n k E) as (C1 & C2). split; [| exact C2]. unfold cnt in *. rewrite <- H. exact C1.
  - intros o E. unfold cnt in *. rewrite <- H. exact (D o E).
Qed.

(** A held object is there. *)
Lemma held st T M o : Inv st T M -> 1 <= cnt st T o -> exists n k, at_ (s_objs st) o = Some (mkObj n k).
Proof.
  intros I H. destruct (at_ (s_objs st) o) as [[n k] |] eqn:E; [eauto |].
  pose proof (i_none _ _ _ I o E). lia.
Qed.
Lemma held_top st T M o : Inv st (o :: T) M -> exists n k, at_ (s_objs st) o = Some (mkObj n k).
Proof. intro I. apply (held _ _ _ _ I). unfold cnt. rewrite count_occ_cons_eq by reflexivity. lia. Qed.

Lemma refd_later st st' T M o r :
  later st st' -> Inv st' T M -> refd st o r -> 1 <= cnt st' T o -> refd st' o r.
Proof.
  intros (_ & _ & K) I (n & k & E & R) H. destruct (held _ _ _ _ I H) as (n' & k' & E').
  destruct (K o n' k' (at_lt _ _ _ E) E') as (m & Em). rewrite E in Em. injection Em as _ <-.
  exists n', k. split; assumption.
Qed.

(** ** Reference counting *)
Lemma incref_ok st T M o n k : Inv st T M -> at_ (s_objs st) o = Some (mkObj n k) ->
  exists st', incref st o = Some st' /\ Inv st' (o :: T) M /\ later st st' /\ refd st' o (ref_of k)
    /\ s_cells st' = s_cells st /\ List.length (s_objs st') = List.length (s_objs st)
    /\ patients (s_objs st') = patients (s_objs st)
    /\ (forall o' n' k', at_ (s_objs st') o' = Some (mkObj n' k') -> exists m, at_ (s_objs st) o' = Some (mkObj m k')).
Proof.
  intros I E. unfold incref. rewrite E. eexists; split; [reflexivity |].
  pose proof (at_lt _ _ _ E) as L.
  set (os := set_at (s_objs st) o (Some (mkObj (S n) k))).
  assert (Same : at_ os o = Some (mkObj (S n) k)) by (apply at_set_same; exact L).
  assert (Other : forall j, o <> j -> at_ os j = at_ (s_objs st) j) by (intros; apply at_set_other; assumption).
  assert (Len : List.length os = List.length (s_objs st)) by apply set_length.
  assert (Pat : forall p, count (patients os) p = count (patients (s_objs st)) p).
  { intro p. pose proof (patients_set (s_objs st) o _ (Some (mkObj (S n) k)) p E) as H.
    fold os in H. destruct k; cbn [patient] in H; lia. }
  assert (PatE : patients os = patients (s_objs st)).
  { clear - E. subst os. revert o E. unfold at_. generalize (s_objs st) as l.
    induction l as [| y l IH]; intros [| o] E; cbn in E; try discriminate.
    - subst y. unfold patients. cbn. destruct k; reflexivity.
    - cbn [set_at]. unfold patients in *. cbn [flat_map]. f_equal. apply IH. exact E. }
  assert (Back : forall o' n' k', at_ os o' = Some (mkObj n' k') ->
    exists m, at_ (s_objs st) o' = Some (mkObj m k') /\ (o = o' /\ n' = S m \/ o <> o' /\ n' = m)).
  { intros o' n' k' E'. destruct (Nat.eq_dec o o') as [<- | N].
    - rewrite Same in E'. injection E' as <- <-. exists n. auto.
    - rewrite Other in E' by exact N. exists n'. auto. }
  assert (Fwd : forall o' n' k', at_ (s_objs st) o' = Some (mkObj n' k') -> exists m, at_ os o' = Some (mkObj m k')).
  { intros o' n' k' E'. destruct (Nat.eq_dec o o') as [<- | N].
    - rewrite E in E'. injection E' as <- <-. eauto.
    - rewrite <- Other in E' by exact N. eauto. }
  assert (Cn : forall o', cnt (with_objs st os) (o :: T) o' = cnt st T o' + if Nat.eq_dec o o' then 1 else 0).
  { intro o'. unfold cnt. cbn [with_objs s_env s_objs]. rewrite Pat. cbn [count_occ].
    destruct (Nat.eq_dec o o'); lia. }
  repeat split; cbn [with_objs s_env s_objs s_cells]; try assumption; try (rewrite Len; lia); try reflexivity.
  - exact (i_len _ _ _ I).
  - exact (i_cell _ _ _ I).
  - rename H into E'. destruct (Back _ _ _ E') as (m & Em & Hm). destruct (i_some _ _ _ I _ _ _ Em) as (S1 & S2).
    rewrite Cn. destruct (Nat.eq_dec o o0); destruct Hm as [(? & ?) | (? & ?)]; try congruence; lia.
  - rename H into E'. destruct (Back _ _ _ E') as (m & Em & Hm). destruct (i_some _ _ _ I _ _ _ Em). lia.
  - intros o' E'. rewrite Cn. destruct (Nat.eq_dec o o') as [<- | N]; [congruence |].
    rewrite Other in E' by exact N. rewrite (i_none _ _ _ I _ E'). lia.
  - intros o' n' k' E'. destruct (Back _ _ _ E') as (m & Em & _). pose proof (i_kind _ _ _ I _ _ _ Em) as K.
    destruct k' as [a | a | p a]; cbn [kind_ok with_objs s_cells s_objs] in *; try exact K.
    destruct K as (np & Ep). exact (Fwd _ _ _ Ep).
  - intros o1 o2 n1 n2 k1 k2 E1 E2 R. destruct (Back _ _ _ E1) as (m1 & Em1 & _). destruct (Back _ _ _ E2) as (m2 & Em2 & _).
    exact (i_uniq _ _ _ I _ _ _ _ _ _ Em1 Em2 R).
  - intros a c Ec. destruct (i_own _ _ _ I a c Ec) as (o' & n' & k' & Eo & R). destruct (Fwd _ _ _ Eo) as (m & Em). eauto.
  - exact (i_names _ _ _ I).
  - intros o' n' k' _ E'. destruct (Back _ _ _ E') as (m & Em & _). eauto.
  - exists (S n), k. split; [exact Same | reflexivity].
  - intros o' n' k' E'. destruct (Back _ _ _ E') as (m & Em & _). eauto.
Qed.

(** The Python object is gone or has one reference less. *)
Lemma dec_less st T M o n k f : Inv st (o :: T) M -> at_ (s_objs st) o = Some (mkObj n k) -> 2 <= n ->
  exists st', decref (S f) st o = Some st' /\ Inv st' T M /\ later st st'.
Proof.
  intros I E Hn. cbn [decref]. rewrite E. destruct (Nat.leb_spec 2 n); [| lia]. eexists; split; [reflexivity |].
  pose proof (at_lt _ _ _ E) as L.
  set (os := set_at (s_objs st) o (Some (mkObj (n - 1) k))).
  assert (Same : at_ os o = Some (mkObj (n - 1) k)) by (apply at_set_same; exact L).
  assert (Other : forall j, o <> j -> at_ os j = at_ (s_objs st) j) by (intros; apply at_set_other; assumption).
  assert (Len : List.length os = List.length (s_objs st)) by apply set_length.
  assert (Pat : forall p, count (patients os) p = count (patients (s_objs st)) p).
  { intro p. pose proof (patients_set (s_objs st) o _ (Some (mkObj (n - 1) k)) p E) as Hp.
    fold os in Hp. destruct k; cbn [patient] in Hp; lia. }
  assert (Back : forall o' n' k', at_ os o' = Some (mkObj n' k') ->
    exists m, at_ (s_objs st) o' = Some (mkObj m k') /\ (o = o' /\ n' = m - 1 /\ 2 <= m \/ o <> o' /\ n' = m)).
  { intros o' n' k' E'. destruct (Nat.eq_dec o o') as [<- | N].
    - rewrite Same in E'. injection E' as <- <-. exists n. auto.
    - rewrite Other in E' by exact N. exists n'. auto. }
  assert (Fwd : forall o' n' k', at_ (s_objs st) o' = Some (mkObj n' k') -> exists m, at_ os o' = Some (mkObj m k')).
  { intros o' n' k' E'. destruct (Nat.eq_dec o o') as [<- | N].
    - rewrite E in E'. injection E' as <- <-. eauto.
    - rewrite <- Other in E' by exact N. eauto. }
  assert (Cn : forall o', cnt st (o :: T) o' = cnt (with_objs st os) T o' + if Nat.eq_dec o o' then 1 else 0).
  { intro o'. unfold cnt. cbn [with_objs s_env s_objs]. rewrite Pat. cbn [count_occ].
    destruct (Nat.eq_dec o o'); lia. }
  split; [constructor | split; [reflexivity | split; [cbn [with_objs s_objs]; rewrite Len; lia |]]];
    cbn [with_objs s_env s_objs s_cells].
  - exact (i_len _ _ _ I).
  - exact (i_cell _ _ _ I).
  - intros o' n' k' E'. destruct (Back _ _ _ E') as (m & Em & Hm). destruct (i_some _ _ _ I _ _ _ Em) as (S1 & S2).
    rewrite Cn in S1. destruct (Nat.eq_dec o o'); destruct Hm as [(? & ? & ?) | (? & ?)]; try congruence; lia.
  - intros o' E'. destruct (Nat.eq_dec o o') as [<- | N]; [congruence |].
    rewrite Other in E' by exact N. pose proof (i_none _ _ _ I _ E') as Z0. rewrite Cn in Z0. lia.
  - intros o' n' k' E'. destruct (Back _ _ _ E') as (m & Em & _). pose proof (i_kind _ _ _ I _ _ _ Em) as K.
    destruct k' as [a | a | p a]; cbn [kind_ok with_objs s_cells s_objs] in *; try exact K.
    destruct K as (np & Ep). exact (Fwd _ _ _ Ep).
  - intros o1 o2 n1 n2 k1 k2 E1 E2 R. destruct (Back _ _ _ E1) as (m1 & Em1 & _). destruct (Back _ _ _ E2) as (m2 & Em2 & _).
    exact (i_uniq _ _ _ I _ _ _ _ _ _ Em1 Em2 R).
  - intros a c Ec. destruct (i_own _ _ _ I a c Ec) as (o' & n' & k' & Eo & R). destruct (Fwd _ _ _ Eo) as (m & Em). eauto.
  - exact (i_names _ _ _ I).
  - intros o' n' k' _ E'. destruct (Back _ _ _ E') as (m & Em & _). eauto.
Qed.

(** The last reference to an object that owns its C++ object. *)
Lemma dec_owner st T M o n k a f : Inv st (o :: T) M -> at_ (s_objs st) o = Some (mkObj n k) -> n < 2 ->
  k = OHeader a \/ k = OTrace a ->
  exists st', decref (S f) st o = Some st' /\ Inv st' T M /\ later st st'.
Proof.
  intros I E Hn Hk. pose proof (at_lt _ _ _ E) as L.
  destruct (i_some _ _ _ I _ _ _ E) as (S1 & S2).
  assert (R : ref_of k = (a, false)) by (destruct Hk as [-> | ->]; reflexivity).
  assert (NP : patient (Some (mkObj n k)) = []) by (destruct Hk as [-> | ->]; reflexivity).
  assert (Live : exists c, at_ (s_cells st) a = Some c).
  { pose proof (i_kind _ _ _ I _ _ _ E) as K. destruct Hk as [-> | ->]; cbn in K.
    - destruct K as (h & K). eauto.
    - destruct K as (h & s & K). eauto. }
  destruct Live as (c & Ec).
  set (os := set_at (s_objs st) o None). set (cs := set_at (s_cells st) a (@None cell)).
  exists (mkSt cs os (s_env st)).
  split.
  { cbn [decref]. rewrite E. destruct (Nat.leb_spec 2 n); [lia |].
    destruct Hk as [-> | ->]; unfold delete; cbn [with_objs s_cells]; rewrite Ec; reflexivity. }
  assert (Same : at_ os o = None) by (apply at_set_same; exact L).
  assert (Other : forall j, o <> j -> at_ os j = at_ (s_objs st) j) by (intros; apply at_set_other; assumption).
  assert (Len : List.length os = List.length (s_objs st)) by apply set_length.
  assert (Pat : forall p, count (patients os) p = count (patients (s_objs st)) p).
  { intro p. pose proof (patients_set (s_objs st) o _ None p E) as Hp. rewrite NP in Hp. cbn in Hp. fold os in Hp. lia. }
  assert (Csame : at_ cs a = None) by (apply at_set_same; exact (at_lt _ _ _ Ec)).
  assert (Cother : forall b, a <> b -> at_ cs b = at_ (s_cells st) b) by (intros; apply at_set_other; assumption).
  assert (Live : forall o' n' k', at_ os o' = Some (mkObj n' k') -> o <> o' /\ at_ (s_objs st) o' = Some (mkObj n' k')).
  { intros o' n' k' E'. destruct (Nat.eq_dec o o') as [<- | N]; [congruence |]. rewrite Other in E' by exact N. auto. }
  assert (Zero : cnt (mkSt cs os (s_env st)) T o = 0).
  { unfold cnt in *. cbn [s_env s_objs]. rewrite Pat. cbn [count_occ] in S1. destruct (Nat.eq_dec o o); [lia | congruence]. }
  assert (Cn : forall o', o <> o' -> cnt (mkSt cs os (s_env st)) T o' = cnt st (o :: T) o').
  { intros o' N. unfold cnt. cbn [s_env s_objs]. rewrite Pat. cbn [count_occ]. destruct (Nat.eq_dec o o'); [congruence | lia]. }
  split; [constructor | split; [reflexivity | split; [cbn [s_objs]; rewrite Len; lia |]]]; cbn [s_env s_objs s_cells].
  - unfold cs. rewrite set_length. exact (i_len _ _ _ I).
  - intros b d Ed. destruct (Nat.eq_dec a b) as [<- | N]; [congruence |]. rewrite Cother in Ed by exact N. exact (i_cell _ _ _ I _ _ Ed).
  - intros o' n' k' E'. destruct (Live _ _ _ E') as (N & E2). destruct (i_some _ _ _ I _ _ _ E2) as (Q1 & Q2).
    rewrite Cn by exact N. auto.
  - intros o' E'. destruct (Nat.eq_dec o o') as [<- | N]; [exact Zero |]. rewrite Cn by exact N.
    rewrite Other in E' by exact N. exact (i_none _ _ _ I _ E').
  - intros o' n' k' E'. destruct (Live _ _ _ E') as (N & E2). pose proof (i_kind _ _ _ I _ _ _ E2) as K.
    destruct k' as [b | b | p b]; cbn [kind_ok s_cells s_objs] in *.
    + rewrite Cother; [exact K |]. intros <-. apply N. exact (i_uniq _ _ _ I _ _ _ _ _ _ E E2 R).
    + rewrite Cother; [exact K |]. intros <-. apply N. exact (i_uniq _ _ _ I _ _ _ _ _ _ E E2 R).
    + destruct K as (np & Ep). exists np. rewrite Other; [exact Ep |]. intros <-.
      pose proof (patients_in _ _ _ _ _ E2) as Hp. unfold cnt in Zero. cbn [s_env s_objs] in Zero. rewrite Pat in Zero. lia.
  - intros o1 o2 n1 n2 k1 k2 E1 E2 R12. destruct (Live _ _ _ E1) as (_ & E1'). destruct (Live _ _ _ E2) as (_ & E2').
    exact (i_uniq _ _ _ I _ _ _ _ _ _ E1' E2' R12).
  - intros b d Ed. destruct (Nat.eq_dec a b) as [<- | N]; [congruence |]. rewrite Cother in Ed by exact N.
    destruct (i_own _ _ _ I _ _ Ed) as (o' & n' & k' & Eo & Ro). exists o', n', k'. split; [| exact Ro].
    rewrite Other; [exact Eo |]. intros <-. rewrite E in Eo. injection Eo as _ <-. congruence.
  - exact (i_names _ _ _ I).
  - intros o' n' k' _ E'. destruct (Live _ _ _ E') as (_ & E2). eauto.
Qed.

Lemma drop_ok st T M o : Inv st (o :: T) M ->
  exists st', drop st o = Some st' /\ Inv st' T M /\ later st st'.
Proof.
  intros I. unfold drop. destruct (held_top _ _ _ _ I) as (n & k & E).
  destruct (Nat.lt_ge_cases n 2) as [Hn | Hn]; [| exact (dec_less _ _ _ _ _ _ 1 I E Hn)].
  destruct k as [a | a | p a].
  - apply (dec_owner _ _ _ _ _ _ a 1 I E Hn). auto.
  - apply (dec_owner _ _ _ _ _ _ a 1 I E Hn). auto.
  - pose proof (at_lt _ _ _ E) as L. destruct (i_some _ _ _ I _ _ _ E) as (S1 & S2).
    destruct (i_kind _ _ _ I _ _ _ E) as (np & Ep).
    set (os := set_at (s_objs st) o None).
    assert (Same : at_ os o = None) by (apply at_set_same; exact L).
    assert (Other : forall j, o <> j -> at_ os j = at_ (s_objs st) j) by (intros; apply at_set_other; assumption).
    assert (Len : List.length os = List.length (s_objs st)) by apply set_length.
    assert (Np : o <> p) by (intros <-; rewrite E in Ep; discriminate).
    assert (Pat : forall q, count (patients os) q + (if Nat.eq_dec p q then 1 else 0) = count (patients (s_objs st)) q).
    { intro q. pose proof (patients_set (s_objs st) o _ None q E) as Hp. cbn [patient count_occ] in Hp. fold os in Hp.
      destruct (Nat.eq_dec p q); lia. }
    assert (Live : forall o' n' k', at_ os o' = Some (mkObj n' k') -> o <> o' /\ at_ (s_objs st) o' = Some (mkObj n' k')).
    { intros o' n' k' E'. destruct (Nat.eq_dec o o') as [<- | N]; [congruence |]. rewrite Other in E' by exact N. auto. }
    assert (Zero : cnt (with_objs st os) (p :: T) o = 0).
    { unfold cnt in *. cbn [with_objs s_env s_objs]. cbn [count_occ] in *. specialize (Pat o).
      destruct (Nat.eq_dec p o); [congruence |]. destruct (Nat.eq_dec o o); [lia | congruence]. }
    assert (Cn : forall o', o <> o' -> cnt (with_objs st os) (p :: T) o' = cnt st (o :: T) o').
    { intros o' N. unfold cnt. cbn [with_objs s_env s_objs]. specialize (Pat o'). cbn [count_occ].
      destruct (Nat.eq_dec o o'); [congruence |]. destruct (Nat.eq_dec p o'); lia. }
    assert (I1 : Inv (with_objs st os) (p :: T) M).
    { constructor; cbn [with_objs s_env s_objs s_cells].
      - exact (i_len _ _ _ I).
      - exact (i_cell _ _ _ I).
      - intros o' n' k' E'. destruct (Live _ _ _ E') as (N & E2). destruct (i_some _ _ _ I _ _ _ E2) as (Q1 & Q2).
        rewrite Cn by exact N. auto.
      - intros o' E'. destruct (Nat.eq_dec o o') as [<- | N]; [exact Zero |]. rewrite Cn by exact N.
        rewrite Other in E' by exact N. exact (i_none _ _ _ I _ E').
      - intros o' n' k' E'. destruct (Live _ _ _ E') as (N & E2). pose proof (i_kind _ _ _ I _ _ _ E2) as K.
        destruct k' as [b | b | q b]; cbn [kind_ok with_objs s_cells s_objs] in *; try exact K.
        destruct K as (nq & Eq). exists nq. rewrite Other; [exact Eq |]. intros <-. rewrite E in Eq. discriminate.
      - intros o1 o2 n1 n2 k1 k2 E1 E2 R12. destruct (Live _ _ _ E1) as (_ & E1'). destruct (Live _ _ _ E2) as (_ & E2').
        exact (i_uniq _ _ _ I _ _ _ _ _ _ E1' E2' R12).
      - intros b d Ed. destruct (i_own _ _ _ I _ _ Ed) as (o' & n' & k' & Eo & Ro). exists o', n', k'. split; [| exact Ro].
        rewrite Other; [exact Eo |]. intros <-. rewrite E in Eo. injection Eo as _ <-. discriminate.
      - exact (i_names _ _ _ I). }
    assert (L1 : later st (with_objs st os)).
    { split; [reflexivity | split; [cbn [with_objs s_objs]; rewrite Len; lia |]].
      intros o' n' k' _ E'. cbn [with_objs s_objs] in E'. destruct (Live _ _ _ E') as (_ & E2). eauto. }
    assert (Ep1 : at_ (s_objs (with_objs st os)) p = Some (mkObj np (OTrace a))) by (cbn [with_objs s_objs]; rewrite Other; assumption).
    assert (D : exists st', decref 1 (with_objs st os) p = Some st' /\ Inv st' T M /\ later (with_objs st os) st').
    { destruct (Nat.lt_ge_cases np 2) as [Hp | Hp].
      - apply (dec_owner _ _ _ _ _ _ a 0 I1 Ep1 Hp). auto.
      - exact (dec_less _ _ _ _ _ _ 0 I1 Ep1 Hp). }
    destruct D as (st' & D & I' & L').
    exists st'. split; [| split; [exact I' | exact (later_trans _ _ _ L1 L')]].
    change (decref 2 st o) with
      (match at_ (s_objs st) o with
       | None => None
       | Some (mkObj n k) =>
         if 2 <=? n then Some (with_objs st (set_at (s_objs st) o (Some (mkObj (n - 1) k))))
         else match k with
              | OHeader a | OTrace a => delete (with_objs st (set_at (s_objs st) o None)) a
              | OInner owner _ => decref 1 (with_objs st (set_at (s_objs st) o None)) owner
              end
       end).
    rewrite E. destruct (Nat.leb_spec 2 n); [lia |]. exact D.
Qed.

Lemma create_ok st T M c : Inv st T M ->
  let '(st', o) := create st c in
  Inv st' (o :: T) (M ++ [c]) /\ later st st' /\ refd st' o (List.length M, false).
Proof.
  intros I. unfold create. set (a := List.length (s_cells st)). set (o := List.length (s_objs st)).
  set (k := match snd c with None => OHeader a | Some _ => OTrace a end).
  pose proof (i_len _ _ _ I) as Len. fold a in Len.
  assert (R : ref_of k = (a, false)) by (unfold k; destruct (snd c); reflexivity).
  assert (NP : patient (Some (mkObj 1 k)) = []) by (unfold k; destruct (snd c); reflexivity).
  assert (Pat : patients (s_objs st ++ [Some (mkObj 1 k)]) = patients (s_objs st)).
  { rewrite patients_app, NP, app_nil_r. reflexivity. }
  assert (Back : forall o' n' k', at_ (s_objs st ++ [Some (mkObj 1 k)]) o' = Some (mkObj n' k') ->
    o' = o /\ n' = 1 /\ k' = k \/ o' <> o /\ at_ (s_objs st) o' = Some (mkObj n' k')).
  { intros o' n' k' E. rewrite at_app in E. fold o in E. destruct (Nat.eqb_spec o' o) as [-> | N].
    - injection E as <- <-. auto.
    - auto. }
  assert (New : at_ (s_objs st) o = None) by apply at_end.
  assert (Z0 : cnt st T o = 0) by exact (i_none _ _ _ I _ New).
  split; [constructor | split; [split; [reflexivity | split] |]]; cbn [s_env s_objs s_cells].
  - rewrite !app_length. cbn. fold a. lia.
  - intros b d E. rewrite at_app in E. fold a in E. destruct (Nat.eqb_spec b a) as [-> | N].
    + injection E as <-. rewrite nth_error_app2 by lia. rewrite Len, Nat.sub_diag. reflexivity.
    + pose proof (i_cell _ _ _ I _ _ E) as Hc. rewrite nth_error_app1; [exact Hc |].
      apply nth_error_Some. congruence.
  - intros o' n' k' E. destruct (Back _ _ _ E) as [(-> & -> & ->) | (N & E2)].
    + unfold cnt in *. cbn [s_env s_objs]. rewrite Pat. cbn [count_occ]. destruct (Nat.eq_dec o o); [lia | congruence].
    + destruct (i_some _ _ _ I _ _ _ E2) as (Q1 & Q2). unfold cnt in *. cbn [s_env s_objs]. rewrite Pat. cbn [count_occ].
      destruct (Nat.eq_dec o o'); [congruence | auto].
  - intros o' E. rewrite at_app in E. fold o in E. destruct (Nat.eqb_spec o' o) as [_ | N]; [discriminate |].
    pose proof (i_none _ _ _ I _ E) as Q. unfold cnt in *. cbn [s_env s_objs]. rewrite Pat. cbn [count_occ].
    destruct (Nat.eq_dec o o'); [congruence | lia].
  - intros o' n' k' E. destruct (Back _ _ _ E) as [(-> & -> & ->) | (N & E2)].
    + destruct c as [h [s |]]; cbn in k; unfold k; cbn [kind_ok s_cells]; rewrite at_app; fold a; rewrite Nat.eqb_refl; eauto.
    + pose proof (i_kind _ _ _ I _ _ _ E2) as K. destruct k' as [b | b | p b]; cbn [kind_ok s_cells s_objs] in *.
      * destruct K as (h & K). exists h. rewrite at_app. fold a. pose proof (at_lt _ _ _ K). fold a in H.
        destruct (Nat.eqb_spec b a); [lia | exact K].
      * destruct K as (h & s & K). exists h, s. rewrite at_app. fold a. pose proof (at_lt _ _ _ K). fold a in H.
        destruct (Nat.eqb_spec b a); [lia | exact K].
      * destruct K as (np & K). exists np. rewrite at_app. fold o. pose proof (at_lt _ _ _ K). fold o in H.
        destruct (Nat.eqb_spec p o); [lia | exact K].
  - assert (Fresh : forall o' n' k', at_ (s_objs st) o' = Some (mkObj n' k') -> ref_of k' <> (a, false)).
    { intros o' n' k' E H. pose proof (i_kind _ _ _ I _ _ _ E) as K. destruct k' as [b | b | p b]; cbn in H; try discriminate;
        injection H as ->; cbn in K.
      - destruct K as (h & K). pose proof (at_lt _ _ _ K). fold a in H. lia.
      - destruct K as (h & s & K). pose proof (at_lt _ _ _ K). fold a in H. lia. }
    intros o1 o2 n1 n2 k1 k2 E1 E2 R12.
    destruct (Back _ _ _ E1) as [(-> & -> & ->) | (N1 & E1')]; destruct (Back _ _ _ E2) as [(-> & -> & ->) | (N2 & E2')].
    + reflexivity.
    + exfalso. apply (Fresh _ _ _ E2'). congruence.
    + exfalso. apply (Fresh _ _ _ E1'). congruence.
    + exact (i_uniq _ _ _ I _ _ _ _ _ _ E1' E2' R12).
  - intros b d E. rewrite at_app in E. fold a in E. destruct (Nat.eqb_spec b a) as [-> | N].
    + exists o, 1, k. split; [| exact R]. rewrite at_app. fold o. now rewrite Nat.eqb_refl.
    + destruct (i_own _ _ _ I _ _ E) as (o' & n' & k' & Eo & Ro). exists o', n', k'. split; [| exact Ro].
      rewrite at_app. fold o. pose proof (at_lt _ _ _ Eo). fold o in H. destruct (Nat.eqb_spec o' o); [lia | exact Eo].
  - exact (i_names _ _ _ I).
  - rewrite app_length. cbn. lia.
  - intros o' n' k' Ho E. destruct (Back _ _ _ E) as [(-> & _) | (N & E2)]; [unfold o in Ho; lia | eauto].
  - exists 1, k. split; [| congruence]. cbn [s_objs]. rewrite at_app. fold o. now rewrite Nat.eqb_refl.
Qed.

(** The object of an inner header. *)
Lemma inner_ok st T M o n a : Inv st T M -> at_ (s_objs st) o = Some (mkObj n (OTrace a)) ->
  exists st' i, m_header o st (mkObj n (OTrace a)) = Some (st', inl i) /\
    Inv st' (i :: T) M /\ later st st' /\ refd st' i (a, true).
Proof.
  intros I E. unfold m_header. cbn [o_kind].
  destruct (i_kind _ _ _ I _ _ _ E) as (h & s & Ec). rewrite Ec.
  destruct (find_inner (s_objs st) a) as [i |] eqn:Ef.
  - destruct (find_inner_some _ _ _ Ef) as (m & p & Ei).
    destruct (incref_ok _ _ _ _ _ _ I Ei) as (st' & Hs & I' & L' & R' & _). rewrite Hs. cbn [option_map].
    exists st', i. auto.
  - destruct (incref_ok _ _ _ _ _ _ I E) as (st1 & Hs & I1 & L1 & R1 & Cs & Len & PatE & Back). rewrite Hs.
    set (i := List.length (s_objs st1)). set (x := Some (mkObj 1 (OInner o a))).
    exists (with_objs st1 (s_objs st1 ++ [x])), i. split; [reflexivity |].
    assert (Pat : forall q, count (patients (s_objs st1 ++ [x])) q
                            = count (patients (s_objs st1)) q + if Nat.eq_dec o q then 1 else 0).
    { intro q. rewrite patients_app, count_occ_app. cbn [x patient count_occ]. destruct (Nat.eq_dec o q); lia. }
    assert (Bk : forall o' n' k', at_ (s_objs st1 ++ [x]) o' = Some (mkObj n' k') ->
      o' = i /\ n' = 1 /\ k' = OInner o a \/ o' <> i /\ at_ (s_objs st1) o' = Some (mkObj n' k')).
    { intros o' n' k' E'. rewrite at_app in E'. fold i in E'. destruct (Nat.eqb_spec o' i) as [-> | N].
      - injection E' as <- <-. auto.
      - auto. }
    assert (Z0 : cnt st1 (o :: T) i = 0) by (apply (i_none _ _ _ I1), at_end).
    assert (Cn : forall q, cnt (with_objs st1 (s_objs st1 ++ [x])) (i :: T) q
                           = cnt st1 (o :: T) q + if Nat.eq_dec i q then 1 else 0).
    { intro q. unfold cnt. cbn [with_objs s_env s_objs]. rewrite Pat. cbn [count_occ].
      destruct (Nat.eq_dec o q), (Nat.eq_dec i q); lia. }
    assert (Old : forall o' n' k', at_ (s_objs st1) o' = Some (mkObj n' k') ->
                  at_ (s_objs st1 ++ [x]) o' = Some (mkObj n' k')).
    { intros o' n' k' E'. rewrite at_app. fold i. pose proof (at_lt _ _ _ E') as Hl. fold i in Hl.
      destruct (Nat.eqb_spec o' i); [lia | exact E']. }
    assert (NoRef : forall o' n' k', at_ (s_objs st1) o' = Some (mkObj n' k') -> ref_of k' <> (a, true)).
    { intros o' n' k' E' H. destruct k' as [b | b | p b]; cbn in H; try discriminate. injection H as ->.
      destruct (Back _ _ _ E') as (m & Em). exact (find_inner_none _ _ Ef _ _ _ Em). }
    assert (L2 : later st1 (with_objs st1 (s_objs st1 ++ [x]))).
    { split; [reflexivity | split; cbn [with_objs s_objs]; [rewrite app_length; lia |]].
      intros o' n' k' Ho E'. destruct (Bk _ _ _ E') as [(-> & _) | (N & E2)]; [unfold i in Ho; lia | eauto]. }
    split; [| split; [exact (later_trans _ _ _ L1 L2) |]].
    + constructor; cbn [with_objs s_env s_objs s_cells].
      * exact (i_len _ _ _ I1).
      * exact (i_cell _ _ _ I1).
      * intros o' n' k' E'. rewrite Cn. destruct (Bk _ _ _ E') as [(-> & -> & ->) | (N & E2)].
        -- destruct (Nat.eq_dec i i); [lia | congruence].
        -- destruct (Nat.eq_dec i o'); [congruence |]. rewrite Nat.add_0_r. exact (i_some _ _ _ I1 _ _ _ E2).
      * intros o' E'. rewrite at_app in E'. fold i in E'. destruct (Nat.eqb_spec o' i) as [_ | N]; [discriminate |].
        rewrite Cn. destruct (Nat.eq_dec i o'); [congruence |]. rewrite (i_none _ _ _ I1 _ E'). reflexivity.
      * intros o' n' k' E'. destruct (Bk _ _ _ E') as [(-> & -> & ->) | (N & E2)].
        -- cbn [kind_ok s_objs]. destruct R1 as (n1 & k1 & E1 & _). destruct (Back _ _ _ E1) as (m & Em).
           rewrite E in Em. injection Em as _ <-. exists n1. exact (Old _ _ _ E1).
        -- pose proof (i_kind _ _ _ I1 _ _ _ E2) as K. destruct k' as [b | b | p b]; cbn [kind_ok with_objs s_cells s_objs] in *; try exact K.
           destruct K as (np & K). exists np. exact (Old _ _ _ K).
      * intros o1 o2 n1 n2 k1 k2 E1 E2 R12.
        destruct (Bk _ _ _ E1) as [(-> & -> & ->) | (N1 & E1')]; destruct (Bk _ _ _ E2) as [(-> & -> & ->) | (N2 & E2')].
        -- reflexivity.
        -- exfalso. apply (NoRef _ _ _ E2'). cbn in R12. congruence.
        -- exfalso. apply (NoRef _ _ _ E1'). cbn in R12. congruence.
        -- exact (i_uniq _ _ _ I1 _ _ _ _ _ _ E1' E2' R12).
      * intros b d Ed. destruct (i_own _ _ _ I1 _ _ Ed) as (o' & n' & k' & Eo & Ro). exists o', n', k'. split; [exact (Old _ _ _ Eo) | exact Ro].
      * exact (i_names _ _ _ I1).
    + exists 1, (OInner o a). split; [| reflexivity]. cbn [with_objs s_objs]. rewrite at_app. fold i. now rewrite Nat.eqb_refl.
Qed.

(** ** Names *)
Definition names_ok (st : pst) (E : names) : Prop :=
  forall x, match lookup (s_env st) x with
            | Some o => exists r, E x = Some r /\ refd st o r
            | None => E x = None
            end.

Lemma lookup_count : forall en x o, lookup en x = Some o -> 1 <= count (map snd en) o.
Proof.
  induction en as [| [y o'] en IH]; intros x o H; [discriminate |]. cbn [lookup map snd count_occ] in *.
  destruct (Nat.eqb_spec x y) as [-> | N].
  - injection H as ->. destruct (Nat.eq_dec o o); [lia | congruence].
  - specialize (IH _ _ H). destruct (Nat.eq_dec o' o); lia.
Qed.
Lemma lookup_held st T x o : lookup (s_env st) x = Some o -> 1 <= cnt st T o.
Proof. intro H. pose proof (lookup_count _ _ _ H). unfold cnt. lia. Qed.

Lemma names_later st st' T M E : later st st' -> Inv st' T M -> names_ok st E -> names_ok st' E.
Proof.
  intros L I N x. pose proof L as (En & _). rewrite En. specialize (N x). destruct (lookup (s_env st) x) as [o |] eqn:Ex; [| exact N].
  destruct N as (r & Er & R). exists r. split; [exact Er |]. apply (refd_later _ _ _ _ _ _ L I R).
  apply (lookup_held _ _ x). rewrite En. exact Ex.
Qed.

Lemma bind_count : forall en x o q,
  count (map snd (bind_name en x o)) q + count (match lookup en x with Some old => [old] | None => [] end) q
  = count (map snd en) q + if Nat.eq_dec o q then 1 else 0.
Proof.
  induction en as [| [y o'] en IH]; intros x o q; cbn [bind_name lookup].
  - cbn [map snd count_occ]. destruct (Nat.eq_dec o q); reflexivity.
  - destruct (Nat.eqb_spec x y) as [-> | N]; cbn [map snd count_occ].
    + destruct (Nat.eq_dec o q), (Nat.eq_dec o' q); lia.
    + specialize (IH x o q). destruct (Nat.eq_dec o' q); lia.
Qed.
Lemma bind_lookup : forall en x o y, lookup (bind_name en x o) y = if x =? y then Some o else lookup en y.
Proof.
  induction en as [| [z o'] en IH]; intros x o y; cbn [bind_name lookup].
  - rewrite Nat.eqb_sym. reflexivity.
  - destruct (Nat.eqb_spec x z) as [-> | N]; cbn [lookup].
    + rewrite (Nat.eqb_sym y z). destruct (z =? y); reflexivity.
    + rewrite IH. destruct (Nat.eqb_spec y z) as [-> | Ny]; [| reflexivity].
      destruct (Nat.eqb_spec x z); [congruence | reflexivity].
Qed.
Lemma bind_in : forall en x o y, In y (map fst (bind_name en x o)) -> y = x \/ In y (map fst en).
Proof.
  induction en as [| [z o'] en IH]; intros x o y; cbn [bind_name map fst In].
  - intuition.
  - destruct (Nat.eqb_spec x z) as [-> | N]; cbn [map fst In]; [intuition |].
    intros [-> | H]; [auto |]. destruct (IH _ _ _ H); auto.
Qed.
Lemma bind_nodup : forall en x o, NoDup (map fst en) -> NoDup (map fst (bind_name en x o)).
Proof.
  induction en as [| [z o'] en IH]; intros x o H; cbn [bind_name map fst].
  - constructor; [intros [] | constructor].
  - inversion H as [| ? ? H1 H2]. subst. destruct (Nat.eqb_spec x z) as [-> | N]; cbn [map fst]; constructor; auto.
    intro Hi. destruct (bind_in _ _ _ _ Hi); congruence.
Qed.
Lemma unbind_count : forall en x o q, lookup en x = Some o ->
  count (map snd (unbind_name en x)) q + (if Nat.eq_dec o q then 1 else 0) = count (map snd en) q.
Proof.
  induction en as [| [y o'] en IH]; intros x o q H; [discriminate |]. cbn [unbind_name lookup] in *.
  destruct (Nat.eqb_spec x y) as [-> | N]; cbn [map snd count_occ].
  - injection H as ->. destruct (Nat.eq_dec o q); lia.
  - specialize (IH x o q H). destruct (Nat.eq_dec o' q); lia.
Qed.
Lemma unbind_in : forall en x y, In y (map fst (unbind_name en x)) -> In y (map fst en).
Proof.
  induction en as [| [z o'] en IH]; intros x y; cbn [unbind_name map fst In]; [auto |].
  destruct (x =? z); cbn [map fst In]; [auto |]. intros [-> | H]; [auto |]. right. exact (IH _ _ H).
Qed.
Lemma unbind_nodup : forall en x, NoDup (map fst en) -> NoDup (map fst (unbind_name en x)).
Proof.
  induction en as [| [z o'] en IH]; intros x H; cbn [unbind_name map fst]; [exact H |].
  inversion H as [| ? ? H1 H2]. subst. destruct (x =? z); cbn [map fst]; [exact H2 |].
  constructor; [| auto]. intro Hi. apply H1. exact (unbind_in _ _ _ Hi).
Qed.
Lemma lookup_not_in : forall en x, ~ In x (map fst en) -> lookup en x = None.
Proof.
  induction en as [| [z o'] en IH]; intros x H; cbn [lookup]; [reflexivity |]. cbn [map fst In] in H.
  destruct (Nat.eqb_spec x z); [exfalso; auto | apply IH; auto].
Qed.
Lemma unbind_lookup : forall en x y, NoDup (map fst en) ->
  lookup (unbind_name en x) y = if x =? y then None else lookup en y.
Proof.
  induction en as [| [z o'] en IH]; intros x y H; cbn [unbind_name lookup].
  - destruct (x =? y); reflexivity.
  - inversion H as [| ? ? H1 H2]. subst. destruct (Nat.eqb_spec x z) as [-> | N]; cbn [lookup].
    + rewrite (Nat.eqb_sym y z). destruct (Nat.eqb_spec z y) as [<- | Ny]; [apply lookup_not_in; exact H1 | reflexivity].
    + rewrite IH by exact H2. destruct (Nat.eqb_spec y z) as [-> | Ny]; [| reflexivity].
      destruct (Nat.eqb_spec x z); [congruence | reflexivity].
Qed.

(** Changing the names changes who holds the references. *)
Lemma names_inv st T T' M en : Inv st T M -> NoDup (map fst en) ->
  (forall q, count (map snd en) q + count T' q = count (map snd (s_env st)) q + count T q) ->
  Inv (with_env st en) T' M.
Proof.
  intros I ND H. assert (Cn : forall q, cnt (with_env st en) T' q = cnt st T q).
  { intro q. specialize (H q). unfold cnt. cbn [with_env s_env s_objs]. lia. }
  destruct I as [A B C D F G J K]. constructor; cbn [with_env s_env s_objs s_cells]; try assumption.
  - intros o n k E. rewrite Cn. exact (C o n k E).
  - intros o E. rewrite Cn. exact (D o E).
Qed.

(** ** Expressions *)
Lemma is_trace_kind st T M o n k : Inv st T M -> at_ (s_objs st) o = Some (mkObj n k) ->
  is_trace M (ref_of k) = match k with OTrace _ => true | _ => false end.
Proof.
  intros I E. pose proof (i_kind _ _ _ I _ _ _ E) as K. unfold is_trace. destruct k as [a | a | p a]; cbn [ref_of fst snd].
  - destruct K as (h & K). rewrite (i_cell _ _ _ I _ _ K). reflexivity.
  - destruct K as (h & s & K). rewrite (i_cell _ _ _ I _ _ K). reflexivity.
  - destruct (nth_error M a) as [[h [s |]] |]; reflexivity.
Qed.

Lemma later_env st st' : later st st' -> s_env st' = s_env st.
Proof. intros (E & _). exact E. Qed.

Lemma call_ok {A} st T M M' T' o n k (f : pst -> pobj -> eres A) st1 r : Inv st (o :: T) M ->
  at_ (s_objs st) o = Some (mkObj n k) -> f st (mkObj n k) = Some (st1, r) ->
  Inv st1 (o :: T') M' -> later st st1 ->
  exists st2, call st o f = Some (st2, r) /\ Inv st2 T' M' /\ later st st2 /\ later st1 st2.
Proof.
  intros I E F I1 L1. destruct (drop_ok _ _ _ _ I1) as (st2 & D & I2 & L2). exists st2.
  split; [| split; [exact I2 | split; [exact (later_trans _ _ _ L1 L2) | exact L2]]].
  unfold call. rewrite E, F, D. reflexivity.
Qed.

Lemma swap_inv st a b T M : Inv st (a :: b :: T) M -> Inv st (b :: a :: T) M.
Proof. apply Inv_perm. intro o. cbn [count_occ]. destruct (Nat.eq_dec a o), (Nat.eq_dec b o); reflexivity. Qed.

Lemma refd_top st T M o r st' : later st st' -> Inv st' (o :: T) M -> refd st o r -> refd st' o r.
Proof.
  intros L I R. apply (refd_later _ _ _ _ _ _ L I R). unfold cnt. cbn [count_occ]. destruct (Nat.eq_dec o o); [lia | congruence].
Qed.

Lemma eval_ok : forall e st T M E, Inv st T M -> names_ok st E ->
  exists st', later st st' /\
    match meval M E e with
    | (M', inl r) => exists o, eval st e = Some (st', inl o) /\ Inv st' (o :: T) M' /\ refd st' o r
    | (M', inr x) => eval st e = Some (st', inr x) /\ Inv st' T M'
    end.
Proof.
  induction e as [x | e IH | items | items smp | t]; intros st T M E I N; cbn [meval eval].
  - specialize (N x). destruct (lookup (s_env st) x) as [o |] eqn:Ex.
    + destruct N as (r & Er & n & k & Eo & R). rewrite Er.
      destruct (incref_ok _ _ _ _ _ _ I Eo) as (st' & Hs & I' & L' & R' & _). exists st'. split; [exact L' |].
      exists o. rewrite Hs. split; [reflexivity | split; [exact I' | congruence]].
    + rewrite N. exists st. split; [apply later_refl | auto].
  - destruct (IH st T M E I N) as (st1 & L1 & H). destruct (meval M E e) as [M1 [r | x]].
    + destruct H as (o & Ev & I1 & n & k & Eo & R). rewrite Ev.
      rewrite <- R. rewrite (is_trace_kind _ _ _ _ _ _ I1 Eo). destruct k as [a | a | p a].
      * destruct (call_ok _ _ _ _ _ _ _ _ (m_header o) st1 (inr AttributeError) I1 Eo eq_refl I1 (later_refl _)) as (st2 & C & I2 & L2 & _).
        exists st2. split; [exact (later_trans _ _ _ L1 L2) |]. auto.
      * destruct (inner_ok _ _ _ _ _ _ I1 Eo) as (st2 & i & Hm & I2 & L2 & R2).
        destruct (call_ok _ _ _ _ _ _ _ _ (m_header o) st2 (inl i) I1 Eo Hm (swap_inv _ _ _ _ _ I2) L2) as (st3 & C & I3 & L3 & L23).
        exists st3. split; [exact (later_trans _ _ _ L1 L3) |]. exists i. split; [exact C | split; [exact I3 |]].
        exact (refd_top _ _ _ _ _ _ L23 I3 R2).
      * destruct (call_ok _ _ _ _ _ _ _ _ (m_header o) st1 (inr AttributeError) I1 Eo eq_refl I1 (later_refl _)) as (st2 & C & I2 & L2 & _).
        exists st2. split; [exact (later_trans _ _ _ L1 L2) |]. auto.
    + destruct H as (Ev & I1). rewrite Ev. exists st1. auto.
  - destruct (to_map [] items) as [h |].
    + pose proof (create_ok _ _ _ (h, None) I) as C. destruct (create st (h, None)) as [st' o]. destruct C as (I' & L' & R').
      exists st'. split; [exact L' |]. exists o. auto.
    + exists st. split; [apply later_refl | auto].
  - destruct (to_map [] items) as [h |]; [destruct (to_doubles smp) as [s |] |].
    + pose proof (create_ok _ _ _ (h, Some s) I) as C. destruct (create st (h, Some s)) as [st' o]. destruct C as (I' & L' & R').
      exists st'. split; [exact L' |]. exists o. auto.
    + exists st. split; [apply later_refl | auto].
    + exists st. split; [apply later_refl | auto].
  - pose proof (create_ok _ _ _ (t_hdr t, Some (t_smp t)) I) as C.
    destruct (create st (t_hdr t, Some (t_smp t))) as [st' o]. destruct C as (I' & L' & R').
    exists st'. split; [exact L' |]. exists o. auto.
Qed.

(** ** Statements *)
Lemma replace_length M i h : i < List.length M -> List.length (replace M i h) = List.length M.
Proof.
  intro H. unfold replace. rewrite !app_length, firstn_length, skipn_length.
  destruct (nth_error M i) as [[h0 s] |] eqn:E; [cbn; lia |]. apply nth_error_None in E. lia.
Qed.
Lemma replace_same M i h s : nth_error M i = Some (h, s) -> replace M i h = M.
Proof.
  intro E. unfold replace. rewrite E. rewrite <- (firstn_skipn i M) at 3. f_equal.
  revert i E. induction M as [| x M IH]; intros [| i] E; cbn in *; try discriminate; [injection E as ->; reflexivity |].
  exact (IH i E).
Qed.
Lemma replace_nth M i h s h' j : nth_error M i = Some (h, s) ->
  nth_error (replace M i h') j = if i =? j then Some (h', s) else nth_error M j.
Proof.
  intro E. assert (L : i < List.length M) by (apply nth_error_Some; congruence).
  unfold replace. rewrite E. revert i j E L.
  induction M as [| x M IH]; intros i j E L; [cbn in L; lia |].
  destruct i as [| i].
  - destruct j as [| j]; reflexivity.
  - destruct j as [| j]; [reflexivity |]. cbn [firstn app nth_error skipn Nat.eqb]. apply IH; [exact E | cbn in L; lia].
Qed.

Lemma set_inv st T M a h s h' : Inv st T M -> at_ (s_cells st) a = Some (h, s) ->
  Inv (with_cells st (set_at (s_cells st) a (Some (h', s)))) T (replace M a h')
  /\ later st (with_cells st (set_at (s_cells st) a (Some (h', s)))).
Proof.
  intros I Ec. pose proof (i_cell _ _ _ I _ _ Ec) as Em. pose proof (at_lt _ _ _ Ec) as L.
  set (cs := set_at (s_cells st) a (Some (h', s))).
  assert (Same : at_ cs a = Some (h', s)) by (apply at_set_same; exact L).
  assert (Other : forall b, a <> b -> at_ cs b = at_ (s_cells st) b) by (intros; apply at_set_other; assumption).
  split.
  - constructor; cbn [with_cells s_cells s_objs s_env].
    + unfold cs. rewrite set_length, replace_length; [exact (i_len _ _ _ I) |]. rewrite <- (i_len _ _ _ I). exact L.
    + intros b c E. rewrite (replace_nth _ _ _ _ _ _ Em). destruct (Nat.eqb_spec a b) as [<- | N].
      * rewrite Same in E. congruence.
      * rewrite Other in E by exact N. exact (i_cell _ _ _ I _ _ E).
    + exact (i_some _ _ _ I).
    + exact (i_none _ _ _ I).
    + intros o n k E. pose proof (i_kind _ _ _ I _ _ _ E) as K.
      destruct k as [b | b | p b]; cbn [kind_ok with_cells s_cells s_objs] in *; try exact K.
      * destruct (Nat.eq_dec a b) as [<- | N]; [| rewrite Other by exact N; exact K].
        destruct K as (h0 & K). rewrite Ec in K. injection K as <- ->. eauto.
      * destruct (Nat.eq_dec a b) as [<- | N]; [| rewrite Other by exact N; exact K].
        destruct K as (h0 & s0 & K). rewrite Ec in K. injection K as <- ->. eauto.
    + exact (i_uniq _ _ _ I).
    + intros b c E. destruct (Nat.eq_dec a b) as [<- | N].
      * exact (i_own _ _ _ I _ _ Ec).
      * rewrite Other in E by exact N. exact (i_own _ _ _ I _ _ E).
    + exact (i_names _ _ _ I).
  - split; [reflexivity | split; [reflexivity |]]. intros o n k _ E. exists n. exact E.
Qed.

(** A method of headers on an object. *)
Lemma header_cell st T M o n k : Inv st T M -> at_ (s_objs st) o = Some (mkObj n k) ->
  match k with
  | OTrace _ => hdr_of st (mkObj n k) = None
  | OHeader a | OInner _ a => exists h s, at_ (s_cells st) a = Some (h, s) /\ hdr_of st (mkObj n k) = Some (a, Some (h, s))
  end.
Proof.
  intros I E. pose proof (i_kind _ _ _ I _ _ _ E) as K. unfold hdr_of. cbn [o_kind]. destruct k as [a | a | p a].
  - destruct K as (h & K). rewrite K. eauto.
  - reflexivity.
  - destruct K as (np & Ep). destruct (i_kind _ _ _ I _ _ _ Ep) as (h & s & K). rewrite K. eauto.
Qed.

Lemma on_header_ok st M E e f (m : pst -> pobj -> eres pyout) : Inv st [] M -> names_ok st E ->
  (forall st ob, hdr_of st ob = None -> m st ob = Some (st, inr AttributeError)) ->
  (forall st ob a h s, hdr_of st ob = Some (a, Some (h, s)) -> at_ (s_cells st) a = Some (h, s) ->
     exists st' r, m st ob = Some (st', r) /\ shown r = snd (f h) /\
       (fst (f h) = h /\ st' = st \/ st' = with_cells st (set_at (s_cells st) a (Some (fst (f h), s))))) ->
  exists st' r, on (eval st e) (fun st o => call st o m) = Some (st', r) /\
    Inv st' [] (fst (on_header M E e f)) /\ later st st' /\ shown r = snd (on_header M E e f).
Proof.
  intros I N Hn Hs. unfold on_header, on. destruct (eval_ok e st [] M E I N) as (st1 & L1 & H).
  destruct (meval M E e) as [M1 [r | x]].
  - destruct H as (o & Ev & I1 & n & k & Eo & R). rewrite Ev. subst r.
    rewrite (is_trace_kind _ _ _ _ _ _ I1 Eo).
    pose proof (header_cell _ _ _ _ _ _ I1 Eo) as Hc.
    assert (Tr : forall a, k = OTrace a -> hdr_of st1 (mkObj n k) = None ->
      exists st' r, call st1 o m = Some (st', r) /\ Inv st' [] M1 /\ later st st' /\ shown r = ORaised AttributeError).
    { intros a _ Hd. destruct (call_ok _ _ _ _ _ _ _ _ m st1 (inr AttributeError) I1 Eo (Hn _ _ Hd) I1 (later_refl _)) as (st2 & C & I2 & L2 & _).
      exists st2, (inr AttributeError). split; [exact C | split; [exact I2 | split; [exact (later_trans _ _ _ L1 L2) | reflexivity]]]. }
    assert (Hd : forall a h s, at_ (s_cells st1) a = Some (h, s) -> hdr_of st1 (mkObj n k) = Some (a, Some (h, s)) ->
      exists st' r, call st1 o m = Some (st', r) /\ Inv st' [] (replace M1 a (fst (f h))) /\ later st st' /\ shown r = snd (f h)).
    { intros a h s Ec Eh. destruct (Hs _ _ _ _ _ Eh Ec) as (st2 & r & Em & Sr & Hst).
      assert (Q : Inv st2 [o] (replace M1 a (fst (f h))) /\ later st1 st2).
      { destruct Hst as [(Fh & ->) | ->].
        - rewrite Fh, (replace_same _ _ _ s (i_cell _ _ _ I1 _ _ Ec)). split; [exact I1 | apply later_refl].
        - apply (set_inv _ _ _ _ h _ _ I1 Ec). }
      destruct Q as (Q & L2).
      destruct (call_ok _ _ _ _ _ _ _ _ m st2 r I1 Eo Em Q L2) as (st3 & C & I3 & L3 & _).
      exists st3, r. split; [exact C | split; [exact I3 | split; [exact (later_trans _ _ _ L1 L3) | exact Sr]]]. }
    destruct k as [a | a | p a]; cbn [ref_of fst].
    + destruct Hc as (h & s & Ec & Eh). rewrite (i_cell _ _ _ I1 _ _ Ec). cbn [fst snd]. exact (Hd a h s Ec Eh).
    + destruct (i_kind _ _ _ I1 _ _ _ Eo) as (h & s & Ec). rewrite (i_cell _ _ _ I1 _ _ Ec). cbn [fst snd]. exact (Tr a eq_refl Hc).
    + destruct Hc as (h & s & Ec & Eh). rewrite (i_cell _ _ _ I1 _ _ Ec). cbn [fst snd]. exact (Hd a h s Ec Eh).
  - destruct H as (Ev & I1). rewrite Ev. exists st1, (inr x). auto.
Qed.

Lemma on_trace_ok st M E e other f (m : pst -> pobj -> eres pyout) : Inv st [] M -> names_ok st E ->
  (forall st ob, match o_kind ob with OTrace _ => False | _ => True end -> m st ob = Some (st, inr other)) ->
  (forall st ob a h s, o_kind ob = OTrace a -> at_ (s_cells st) a = Some (h, Some s) ->
     m st ob = Some (st, inl (f (mkTrace h s)))) ->
  exists st' r, on (eval st e) (fun st o => call st o m) = Some (st', r) /\
    Inv st' [] (fst (on_trace M E e other f)) /\ later st st' /\ shown r = snd (on_trace M E e other f).
Proof.
  intros I N Hn Hs. unfold on_trace, on. destruct (eval_ok e st [] M E I N) as (st1 & L1 & H).
  destruct (meval M E e) as [M1 [r | x]].
  - destruct H as (o & Ev & I1 & n & k & Eo & R). rewrite Ev. subst r.
    assert (Go : forall r, m st1 (mkObj n k) = Some (st1, r) ->
      exists st' r', call st1 o m = Some (st', r') /\ Inv st' [] M1 /\ later st st' /\ shown r' = shown r).
    { intros r Em. destruct (call_ok _ _ _ _ _ _ _ _ m st1 r I1 Eo Em I1 (later_refl _)) as (st2 & C & I2 & L2 & _).
      exists st2, r. split; [exact C | split; [exact I2 | split; [exact (later_trans _ _ _ L1 L2) | reflexivity]]]. }
    pose proof (i_kind _ _ _ I1 _ _ _ Eo) as K.
    destruct k as [a | a | p a]; cbn [ref_of fst snd].
    + destruct K as (h & K). rewrite (i_cell _ _ _ I1 _ _ K). cbn [fst snd].
      exact (Go (inr other) (Hn st1 (mkObj n (OHeader a)) Logic.I)).
    + destruct K as (h & s & K). rewrite (i_cell _ _ _ I1 _ _ K). cbn [fst snd].
      exact (Go (inl (f (mkTrace h s))) (Hs st1 (mkObj n (OTrace a)) a h s eq_refl K)).
    + assert (Q : (match nth_error M1 a with
                   | Some (h, Some s) => (M1, ORaised other)
                   | _ => (M1, ORaised other) end) = (M1, ORaised other)).
      { destruct (nth_error M1 a) as [[h [s |]] |]; reflexivity. }
      change (match nth_error M1 a with
              | Some (h, Some s) => (M1, ORaised other)
              | _ => (M1, ORaised other) end) with
        (match nth_error M1 a with
              | Some (h, Some s) => (M1, ORaised other)
              | Some (h, None) => (M1, ORaised other)
              | None => (M1, ORaised other) end) in Q.
      rewrite Q. cbn [fst snd]. exact (Go (inr other) (Hn st1 (mkObj n (OInner p a)) Logic.I)).
  - destruct H as (Ev & I1). rewrite Ev. exists st1, (inr x). auto.
Qed.

Lemma exec_ok st M E s : Inv st [] M -> names_ok st E ->
  exists st' r, exec st s = Some (st', r) /\
    let '(M', E', o) := mexec M E s in Inv st' [] M' /\ names_ok st' E' /\ shown r = o.
Proof.
  intros I N. destruct s as [x e | x | e k v | e k | e | e | e | e1 e2]; cbn [exec mexec].
  - destruct (eval_ok e st [] M E I N) as (st1 & L1 & H). destruct (meval M E e) as [M1 [r | ex]]; unfold on.
    + destruct H as (o & Ev & I1 & R). rewrite Ev.
      pose proof (names_later _ _ _ _ _ L1 I1 N) as N1.
      set (st2 := with_env st1 (bind_name (s_env st1) x o)).
      assert (I2 : Inv st2 (match lookup (s_env st1) x with Some old => [old] | None => [] end) M1).
      { apply (names_inv _ [o] _ _ _ I1); [apply bind_nodup, (i_names _ _ _ I1) |]. intro q.
        pose proof (bind_count (s_env st1) x o q) as B. cbn [count_occ]. destruct (Nat.eq_dec o q); lia. }
      assert (N2 : names_ok st2 (refer E x (Some r))).
      { intro y. unfold st2, refer. cbn [with_env s_env]. rewrite bind_lookup. destruct (Nat.eqb_spec x y) as [<- | Ny].
        - exists r. split; [reflexivity | exact R].
        - exact (N1 y). }
      destruct (lookup (s_env st1) x) as [old |].
      * destruct (drop_ok _ _ _ _ I2) as (st3 & D & I3 & L3). fold st2. rewrite D. exists st3, (inl ONothing).
        split; [reflexivity | split; [exact I3 | split; [exact (names_later _ _ _ _ _ L3 I3 N2) | reflexivity]]].
      * exists st2, (inl ONothing). auto.
    + destruct H as (Ev & I1). rewrite Ev. exists st1, (inr ex).
      split; [reflexivity | split; [exact I1 | split; [exact (names_later _ _ _ _ _ L1 I1 N) | reflexivity]]].
  - pose proof (N x) as Nx. destruct (lookup (s_env st) x) as [o |] eqn:Ex.
    + destruct Nx as (r & Er & R). rewrite Er.
      set (st2 := with_env st (unbind_name (s_env st) x)).
      assert (I2 : Inv st2 [o] M).
      { apply (names_inv _ [] _ _ _ I); [apply unbind_nodup, (i_names _ _ _ I) |]. intro q.
        pose proof (unbind_count (s_env st) x o q Ex) as B. cbn [count_occ]. destruct (Nat.eq_dec o q); lia. }
      assert (N2 : names_ok st2 (refer E x None)).
      { intro y. unfold st2, refer. cbn [with_env s_env]. rewrite unbind_lookup by exact (i_names _ _ _ I).
        destruct (Nat.eqb_spec x y) as [<- | Ny]; [reflexivity | exact (N y)]. }
      destruct (drop_ok _ _ _ _ I2) as (st3 & D & I3 & L3). rewrite D. exists st3, (inl ONothing).
      split; [reflexivity | split; [exact I3 | split; [exact (names_later _ _ _ _ _ L3 I3 N2) | reflexivity]]].
    + rewrite Nx. exists st, (inr NameError). auto.
  - set (f := fun h => match to_key k, to_value v with
                       | Some k, Some v => (hset h k v, ONothing) | _, _ => (h, ORaised TypeError) end).
    destruct (on_header_ok st M E e f (m_set k v) I N) as (st' & r & Ex & I' & L' & Sr).
    + intros s ob Hd. unfold m_set. rewrite Hd. reflexivity.
    + intros s ob a h sm Hd Ec. unfold m_set, f. rewrite Hd. destruct (to_key k); [destruct (to_value v) |].
      * eexists _, _. split; [reflexivity | split; [reflexivity | right; reflexivity]].
      * eexists _, _. split; [reflexivity | split; [reflexivity | left; auto]].
      * eexists _, _. split; [reflexivity | split; [reflexivity | left; auto]].
    + exists st', r. rewrite Ex. split; [reflexivity |]. destruct (on_header M E e f) as [M' o].
      split; [exact I' | split; [exact (names_later _ _ _ _ _ L' I' N) | exact Sr]].
  - set (f := fun h => (h, match to_key k with Some k => OValue (hget h k) | None => ORaised TypeError end)).
    destruct (on_header_ok st M E e f (m_get k) I N) as (st' & r & Ex & I' & L' & Sr).
    + intros s ob Hd. unfold m_get. rewrite Hd. reflexivity.
    + intros s ob a h sm Hd Ec. unfold m_get, f. rewrite Hd. destruct (to_key k);
        (eexists _, _; split; [reflexivity | split; [reflexivity | left; auto]]).
    + exists st', r. rewrite Ex. split; [reflexivity |]. destruct (on_header M E e f) as [M' o].
      split; [exact I' | split; [exact (names_later _ _ _ _ _ L' I' N) | exact Sr]].
  - set (f := fun h => (h, match decode_keys (hkeys h) with Some l => OKeys l | None => ORaised UnicodeDecodeError end)).
    destruct (on_header_ok st M E e f m_keys I N) as (st' & r & Ex & I' & L' & Sr).
    + intros s ob Hd. unfold m_keys. rewrite Hd. reflexivity.
    + intros s ob a h sm Hd Ec. unfold m_keys, f. rewrite Hd. eexists _, _. split; [reflexivity |].
      split; [destruct (decode_keys (hkeys h)); reflexivity | left; auto].
    + exists st', r. rewrite Ex. split; [reflexivity |]. destruct (on_header M E e f) as [M' o].
      split; [exact I' | split; [exact (names_later _ _ _ _ _ L' I' N) | exact Sr]].
  - destruct (on_trace_ok st M E e AttributeError (fun t => OSamples (t_smp t)) m_samples I N) as (st' & r & Ex & I' & L' & Sr).
    + intros s [n [a | a | p a]]; cbn [o_kind]; intro Hk; [reflexivity | destruct Hk | reflexivity].
    + intros s [n k] a h sm; cbn [o_kind]; intros -> Ec. unfold m_samples. cbn [o_kind]. rewrite Ec. reflexivity.
    + exists st', r. rewrite Ex. split; [reflexivity |]. destruct (on_trace M E e _ _) as [M' o].
      split; [exact I' | split; [exact (names_later _ _ _ _ _ L' I' N) | exact Sr]].
  - destruct (on_trace_ok st M E e TypeError OWritten m_write I N) as (st' & r & Ex & I' & L' & Sr).
    + intros s [n [a | a | p a]]; cbn [o_kind]; intro Hk; [reflexivity | destruct Hk | reflexivity].
    + intros s [n k] a h sm; cbn [o_kind]; intros -> Ec. unfold m_write. cbn [o_kind]. rewrite Ec. reflexivity.
    + exists st', r. rewrite Ex. split; [reflexivity |]. destruct (on_trace M E e _ _) as [M' o].
      split; [exact I' | split; [exact (names_later _ _ _ _ _ L' I' N) | exact Sr]].
  - destruct (eval_ok e1 st [] M E I N) as (st1 & L1 & H). destruct (meval M E e1) as [M1 [r1 | ex]]; unfold on.
    + destruct H as (o1 & Ev & I1 & R1). rewrite Ev.
      pose proof (names_later _ _ _ _ _ L1 I1 N) as N1.
      destruct (eval_ok e2 st1 [o1] M1 E I1 N1) as (st2 & L2 & H2). destruct (meval M1 E e2) as [M2 [r2 | ex]].
      * destruct H2 as (o2 & Ev2 & I2 & R2). rewrite Ev2.
        pose proof (refd_top _ _ _ _ _ _ L2 (swap_inv _ _ _ _ _ I2) R1) as R12.
        assert (Eq : (o1 =? o2) = (fst r1 =? fst r2) && Bool.eqb (snd r1) (snd r2)).
        { destruct R12 as (n1 & k1 & E1 & <-). destruct R2 as (n2 & k2 & E2 & <-).
          destruct (Nat.eqb_spec o1 o2) as [<- | Ne].
          - rewrite E1 in E2. injection E2 as <- <-. rewrite Nat.eqb_refl, Bool.eqb_reflx. reflexivity.
          - symmetry. apply Bool.not_true_is_false. intro Hb. apply andb_prop in Hb. destruct Hb as (Hb1 & Hb2).
            apply Ne. apply (i_uniq _ _ _ I2 _ _ _ _ _ _ E1 E2). apply Nat.eqb_eq in Hb1. apply Bool.eqb_prop in Hb2.
            destruct (ref_of k1), (ref_of k2). cbn in *. congruence. }
        destruct (drop_ok _ _ _ _ (swap_inv _ _ _ _ _ I2)) as (st3 & D3 & I3 & L3). rewrite D3.
        destruct (drop_ok _ _ _ _ I3) as (st4 & D4 & I4 & L4). rewrite D4.
        exists st4, (inl (OBool (o1 =? o2))). split; [reflexivity | split; [exact I4 | split]].
        -- exact (names_later _ _ _ _ _ (later_trans _ _ _ L1 (later_trans _ _ _ L2 (later_trans _ _ _ L3 L4))) I4 N).
        -- cbn [shown]. now rewrite Eq.
      * destruct H2 as (Ev2 & I2). rewrite Ev2. destruct (drop_ok _ _ _ _ I2) as (st3 & D3 & I3 & L3). rewrite D3.
        exists st3, (inr ex). split; [reflexivity | split; [exact I3 | split; [| reflexivity]]].
        exact (names_later _ _ _ _ _ (later_trans _ _ _ L1 (later_trans _ _ _ L2 L3)) I3 N).
    + destruct H as (Ev & I1). rewrite Ev. exists st1, (inr ex).
      split; [reflexivity | split; [exact I1 | split; [exact (names_later _ _ _ _ _ L1 I1 N) | reflexivity]]].
Qed.

Lemma run_ok : forall l st M E, Inv st [] M -> names_ok st E ->
  exists os st', run st l = Some (os, st') /\
    let '(os', M', E') := mrun M E l in os = os' /\ Inv st' [] M' /\ names_ok st' E'.
Proof.
  induction l as [| s l IH]; intros st M E I N; cbn [run mrun].
  - exists [], st. auto.
  - destruct (exec_ok st M E s I N) as (st1 & r & Ex & H). rewrite Ex.
    destruct (mexec M E s) as [[M1 E1] o]. destruct H as (I1 & N1 & Sr).
    destruct (IH st1 M1 E1 I1 N1) as (os & st2 & Er & H2). rewrite Er.
    destruct (mrun M1 E1 l) as [[os' M2] E2]. destruct H2 as (-> & I2 & N2).
    exists (shown r :: os'), st2. split; [reflexivity |]. split; [congruence | auto].
Qed.

Lemma start_ok : Inv start [] [] /\ names_ok start (fun _ => None).
Proof.
  split; [| intro x; reflexivity].
  assert (No : forall A i, at_ (@nil (option A)) i = None) by (intros A [| i]; reflexivity).
  constructor; cbn [start s_cells s_objs s_env]; try reflexivity; intros; rewrite ?No in *; try discriminate.
  constructor.
Qed.

(** What lives when no statement runs. *)
Lemma live_named st M E a : Inv st [] M -> names_ok st E ->
  (at_ (s_cells st) a <> None <-> exists x i, E x = Some (a, i)).
Proof.
  intros I N. split.
  - intro H. destruct (at_ (s_cells st) a) as [c |] eqn:Ec; [| congruence]. clear H.
    destruct (i_own _ _ _ I _ _ Ec) as (o & n & k & Eo & R).
    assert (Named : forall o, 1 <= count (map snd (s_env st)) o -> exists x, lookup (s_env st) x = Some o).
    { pose proof (i_names _ _ _ I) as ND. revert ND. generalize (s_env st) as en. clear.
      induction en as [| [y o'] en IH]; intros ND o H; [cbn in H; lia |]. cbn [map snd count_occ] in H.
      inversion ND as [| ? ? N1 N2]. subst. destruct (Nat.eq_dec o' o) as [-> | Ne].
      - exists y. cbn [lookup]. now rewrite Nat.eqb_refl.
      - destruct (IH N2 o H) as (x & Ex). exists x. cbn [lookup]. destruct (Nat.eqb_spec x y) as [-> | Nx]; [| exact Ex].
        rewrite (lookup_not_in _ _ N1) in Ex. discriminate. }
    assert (Get : forall o n k, at_ (s_objs st) o = Some (mkObj n k) -> 1 <= count (map snd (s_env st)) o ->
                  exists x, E x = Some (ref_of k)).
    { intros o' n' k' Eo' H'. destruct (Named _ H') as (x & Ex). exists x. specialize (N x). rewrite Ex in N.
      destruct N as (r & Er & m & k2 & E2 & R2). rewrite Eo' in E2. injection E2 as _ <-. congruence. }
    destruct (i_some _ _ _ I _ _ _ Eo) as (S1 & S2). unfold cnt in S1. cbn [count_occ] in S1.
    destruct (count (map snd (s_env st)) o) as [| m] eqn:Cm.
    + destruct (patients_find (s_objs st) o ltac:(lia)) as (w & nw & b & Ew).
      destruct (i_kind _ _ _ I _ _ _ Ew) as (no & Eo2). rewrite Eo in Eo2. injection Eo2 as _ ->.
      cbn in R. injection R as ->.
      destruct (i_some _ _ _ I _ _ _ Ew) as (W1 & W2). unfold cnt in W1. cbn [count_occ] in W1.
      destruct (count (map snd (s_env st)) w) as [| mw] eqn:Cw.
      * destruct (patients_find (s_objs st) w ltac:(lia)) as (w2 & nw2 & b2 & Ew2).
        destruct (i_kind _ _ _ I _ _ _ Ew2) as (n3 & E3). rewrite Ew in E3. discriminate.
      * destruct (Get _ _ _ Ew ltac:(lia)) as (x & Ex). exists x, true. exact Ex.
    + destruct (Get _ _ _ Eo ltac:(lia)) as (x & Ex). exists x, false. rewrite <- R; exact Ex.
  - intros (x & i & Ex). specialize (N x). destruct (lookup (s_env st) x) as [o |]; [| congruence].
    destruct N as (r & Er & n & k & Eo & R). rewrite Ex in Er. injection Er as <-.
    pose proof (i_kind _ _ _ I _ _ _ Eo) as K. destruct k as [b | b | p b]; cbn in R; injection R as -> _.
    + destruct K as (h & K). congruence.
    + destruct K as (h & s & K). congruence.
    + destruct K as (np & Ep). destruct (i_kind _ _ _ I _ _ _ Ep) as (h & s & K). congruence.
Qed.
