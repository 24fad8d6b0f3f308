(** Facts about the sorted reader: the order of keys, the position map, and the
    reader as a position map over a plain reader. *)
From Coq Require Import Permutation Sorted.
From Verif Require Import BaseFacts Platform Fp TraceHdr SegyTypes SegyCodec ISegy Sorted1D ReaderFacts
     ReadSpec ReadFacts SortedSpec.
From Coq Require Import SpecFloat.

(** ** The order of keys *)
Definition rank := (Z * Z * Z * Z)%type.
Definition rlt (a b : rank) : Prop :=
  let '(a1, a2, a3, a4) := a in let '(b1, b2, b3, b4) := b in
  a1 < b1 \/ a1 = b1 /\ (a2 < b2 \/ a2 = b2 /\ (a3 < b3 \/ a3 = b3 /\ a4 < b4)).
Definition frank (f : spec_float) : rank :=
  match f with
  | S754_infinity s => (1, (if s then -2 else 2), 0, 0)
  | S754_finite s m e => (1, (if s then -1 else 1), (if s then - e else e), (if s then Zneg m else Zpos m))
  | _ => (1, 0, 0, 0)
  end.
Definition vrank (v : value) : rank :=
  match v with VInt x => (0, x, 0, 0) | VDbl d => frank (d_dec d) end.

Lemma rlt_irrefl a : ~ rlt a a.
Proof. destruct a as [[[? ?] ?] ?]. cbn. lia. Qed.
Lemma rlt_trans a b c : rlt a b -> rlt b c -> rlt a c.
Proof. destruct a as [[[? ?] ?] ?], b as [[[? ?] ?] ?], c as [[[? ?] ?] ?]. cbn. lia. Qed.
Lemma rlt_tri a b : rlt a b \/ a = b \/ rlt b a.
Proof.
  destruct a as [[[a1 a2] a3] a4], b as [[[b1 b2] b3] b4]. cbn.
  destruct (Z.lt_trichotomy a1 b1) as [?|[->|?]]; [left; lia| |right; right; lia].
  destruct (Z.lt_trichotomy a2 b2) as [?|[->|?]]; [left; lia| |right; right; lia].
  destruct (Z.lt_trichotomy a3 b3) as [?|[->|?]]; [left; lia| |right; right; lia].
  destruct (Z.lt_trichotomy a4 b4) as [?|[->|?]]; [left; lia|right; left; reflexivity|right; right; lia].
Qed.

Lemma fcompare_rank f g : f <> S754_nan -> g <> S754_nan ->
  (match SFcompare f g with Some Lt => true | _ => false end) = true <-> rlt (frank f) (frank g).
Proof.
  intros Hf Hg. destruct f as [s|s| |s m e]; [| |contradiction|]; (destruct g as [s'|s'| |s' m' e']; [| |contradiction|]);
    destruct s; try destruct s'; cbn [SFcompare frank rlt]; try (split; [discriminate|lia]); try (split; [lia|reflexivity]).
  - destruct (Z.compare_spec e e') as [->|K|K]; [|split; [discriminate|lia]|split; [lia|reflexivity]].
    change (Pos.compare_cont Eq m m') with (Pos.compare m m').
    destruct (Pos.compare_spec m m'); cbn [CompOpp]; (split; [try discriminate|try reflexivity]); lia.
  - destruct (Z.compare_spec e e') as [->|K|K]; [|split; [lia|reflexivity]|split; [discriminate|lia]].
    change (Pos.compare_cont Eq m m') with (Pos.compare m m').
    destruct (Pos.compare_spec m m'); (split; [try discriminate|try reflexivity]); lia.
Qed.

Lemma dec_not_nan d : d_is_nan d = false -> d_dec d <> S754_nan.
Proof.
  unfold d_is_nan, d_dec, fdec. cbv zeta. set (e := fexpo 52 11 d). set (m := fmant 52 d).
  assert (M : 0 <= m) by (unfold m, fmant; apply Z.mod_pos_bound; reflexivity).
  clearbody e m. destruct (e =? 2 ^ 11 - 1).
  - cbn [andb]. intros H. destruct (m =? 0); [discriminate|discriminate H].
  - intros _. destruct (e =? 0); [destruct m; discriminate|].
    assert (P : 0 < m + 2 ^ 52) by lia. destruct (m + 2 ^ 52); try discriminate; lia.
Qed.

Lemma before_rank a b : number a -> number b -> before a b = true <-> rlt (vrank a) (vrank b).
Proof.
  destruct a as [x|x], b as [y|y]; cbn [number before vrank]; intros Ha Hb.
  - cbn [rlt]. rewrite Z.ltb_lt. lia.
  - split; [intros _|reflexivity]. destruct (d_dec y); cbn [frank rlt]; lia.
  - split; [discriminate|]. destruct (d_dec x); cbn [frank rlt]; lia.
  - unfold d_lt. apply fcompare_rank; apply dec_not_nan; assumption.
Qed.

Lemma vlt_before a b : vlt a b = before a b.
Proof. destruct a, b; reflexivity. Qed.
Lemma key_ok_number v : key_ok v = true <-> number v.
Proof. destruct v; cbn [key_ok number]; [tauto|]. apply negb_true_iff. Qed.

Lemma before_false a b : number a -> number b -> before a b = false <-> ~ rlt (vrank a) (vrank b).
Proof.
  intros Ha Hb. pose proof (before_rank a b Ha Hb) as K. destruct (before a b); [|split; [intros _ X; apply K in X; discriminate|reflexivity]].
  split; [discriminate|]. intros N. exfalso. apply N, K. reflexivity.
Qed.
Lemma same_rank a b : number a -> number b -> same_key a b = true <-> vrank a = vrank b.
Proof.
  intros Ha Hb. unfold same_key. rewrite andb_true_iff, !negb_true_iff, !before_false by assumption.
  split.
  - intros [N1 N2]. destruct (rlt_tri (vrank a) (vrank b)) as [?|[?|?]]; tauto.
  - intros ->. split; apply rlt_irrefl.
Qed.
Lemma same_key_sym a b : same_key a b = same_key b a.
Proof. unfold same_key. apply andb_comm. Qed.

Lemma Forall_impl_in {A} (P Q : A -> Prop) l : (forall x, In x l -> P x -> Q x) -> Forall P l -> Forall Q l.
Proof. intros H F. rewrite Forall_forall in *. intros x Hx. apply H; auto. Qed.

(** ** The position map with the traces at the positions *)
Section Map.
Context {A : Type}.
Variable key : A -> value.

Definition gmap : Type := list (value * list A).
Fixpoint gadd (m : gmap) (x : A) : gmap :=
  match m with
  | [] => [(key x, [x])]
  | (k, ps) :: m' =>
    if before k (key x) then (k, ps) :: gadd m' x
    else if before (key x) k then (key x, [x]) :: m
    else (k, ps ++ [x]) :: m'
  end.
Definition flat (m : gmap) : list A := concat (map snd m).
Definition of_key (v : value) (l : list A) : list A := filter (fun x => same_key (key x) v) l.

(** Increasing keys, non-empty groups of one key, and every key is one of an
    element. *)
Definition glt (a b : value * list A) : Prop := before (fst a) (fst b) = true.
Definition group_ok (g : value * list A) : Prop :=
  number (fst g) /\ snd g <> [] /\ Forall (fun x => number (key x) /\ same_key (key x) (fst g) = true) (snd g) /\
  exists x, In x (snd g) /\ key x = fst g.
Definition gok (m : gmap) : Prop := StronglySorted glt m /\ Forall group_ok m.

Lemma gadd_head m x k g : In (k, g) (gadd m x) -> k = key x \/ exists g', In (k, g') m.
Proof.
  induction m as [|[k0 ps] m IH]; cbn [gadd].
  - intros [H|[]]. injection H as <- <-. auto.
  - destruct (before k0 (key x)); [|destruct (before (key x) k0)].
    + intros [H|H]; [injection H as <- <-; right; exists ps; left; reflexivity|].
      apply IH in H as [?|(g' & ?)]; [auto|]. right. exists g'. right. assumption.
    + intros [H|H]; [injection H as <- <-; auto|]. right. exists g. exact H.
    + intros [H|H]; [injection H as <- <-; right; exists ps; left; reflexivity|]. right. exists g. right. exact H.
Qed.

Lemma gadd_ok m x : gok m -> number (key x) -> gok (gadd m x).
Proof.
  intros [S G] N. induction m as [|[k ps] m IH]; cbn [gadd].
  - split; [repeat constructor|]. constructor; [|constructor]. split; [exact N|]. split; [discriminate|]. cbn [fst snd].
    split; [|exists x; split; [left; reflexivity|reflexivity]]. constructor; [|constructor]. split; [exact N|].
    apply same_rank; auto.
  - inversion S as [|? ? S2 F]; subst. inversion G as [|? ? G1 G2]; subst.
    pose proof G1 as (Nk & Ne & Gk & Ex). cbn [fst snd] in *. destruct (before k (key x)) eqn:B1; [|destruct (before (key x) k) eqn:B2].
    + destruct (IH S2 G2) as [I1 I2]. split; [|constructor; assumption]. constructor; [exact I1|].
      apply Forall_forall. intros [k2 g2] H2. unfold glt. cbn [fst]. apply gadd_head in H2 as [->|(g' & H2)]; [exact B1|].
      rewrite Forall_forall in F. apply (F _ H2).
    + split.
      * constructor; [exact S|]. constructor; [exact B2|]. eapply Forall_impl_in; [|exact F].
        intros [k2 g2] H2 K. unfold glt in *. cbn [fst] in *. rewrite Forall_forall in G2. destruct (G2 _ H2) as (N2 & _). cbn [fst] in N2.
        apply before_rank in K; [|assumption|assumption]. apply before_rank in B2; [|assumption|assumption].
        apply before_rank; [assumption|assumption|]. exact (rlt_trans _ _ _ B2 K).
      * constructor; [|exact G]. split; [exact N|]. split; [discriminate|]. cbn [fst snd].
        split; [|exists x; split; [left; reflexivity|reflexivity]]. constructor; [|constructor]. split; [exact N|].
        apply same_rank; auto.
    + split.
      * constructor; [exact S2|exact F].
      * constructor; [|exact G2]. split; [exact Nk|]. cbn [fst snd]. split; [destruct ps; discriminate|]. split.
        -- apply Forall_app. split; [exact Gk|]. constructor; [|constructor]. split; [exact N|].
           unfold same_key. rewrite B1, B2. reflexivity.
        -- destruct Ex as (y & Y1 & Y2). exists y. split; [apply in_app_iff; left; exact Y1|exact Y2].
Qed.

Lemma gadd_perm m x : Permutation (flat (gadd m x)) (flat m ++ [x]).
Proof.
  induction m as [|[k ps] m IH]; cbn [gadd]; [reflexivity|].
  destruct (before k (key x)); [|destruct (before (key x) k)]; unfold flat in *; cbn [map concat snd] in *.
  - rewrite <- app_assoc. apply Permutation_app_head, IH.
  - cbn [app]. apply (Permutation_app_comm [x]).
  - rewrite <- !app_assoc. apply Permutation_app_head, Permutation_app_comm.
Qed.

Lemma of_key_none v l : Forall (fun x => same_key (key x) v = false) l -> of_key v l = [].
Proof. intros F. induction F as [|x l H _ IH]; cbn [of_key filter]; [reflexivity|]. rewrite H. exact IH. Qed.
Lemma of_key_app v l1 l2 : of_key v (l1 ++ l2) = of_key v l1 ++ of_key v l2.
Proof. apply filter_app. Qed.

(** No element behind a key has that key or a smaller one. *)
Lemma behind m v : gok m -> number v -> Forall (fun g => before v (fst g) = true) m -> of_key v (flat m) = [].
Proof.
  intros [_ G] N F. apply of_key_none. apply Forall_forall. intros x Hx. unfold flat in Hx.
  apply in_concat in Hx as (g & Hg & Hx). apply in_map_iff in Hg as ([k g'] & <- & Hg). cbn [snd] in Hx.
  rewrite Forall_forall in G, F. specialize (F _ Hg). destruct (G _ Hg) as (Nk & _ & Gk & _). cbn [fst snd] in *.
  rewrite Forall_forall in Gk. destruct (Gk _ Hx) as [Nx Sx].
  destruct (same_key (key x) v) eqn:E; [|reflexivity]. exfalso.
  apply same_rank in E; [|assumption|assumption]. apply same_rank in Sx; [|assumption|assumption].
  apply before_rank in F; [|assumption|assumption]. rewrite <- E, Sx in F. exact (rlt_irrefl _ F).
Qed.

Lemma gadd_of_key m x v : gok m -> number (key x) -> number v ->
  of_key v (flat (gadd m x)) = of_key v (flat m) ++ of_key v [x].
Proof.
  intros [S G] N Nv. induction m as [|[k ps] m IH]; cbn [gadd]; [reflexivity|].
  inversion S as [|? ? S2 F]; subst. inversion G as [|? ? G1 G2]; subst. pose proof G1 as (Nk & _ & Gk & _). cbn [fst snd] in *.
  destruct (before k (key x)) eqn:B1; [|destruct (before (key x) k) eqn:B2]; unfold flat in *; cbn [map concat snd] in *.
  - rewrite !of_key_app, IH by assumption. apply app_assoc.
  - change (of_key v ([x] ++ flat ((k, ps) :: m)) = of_key v (flat ((k, ps) :: m)) ++ of_key v [x]).
    rewrite of_key_app. destruct (same_key (key x) v) eqn:E.
    + assert (Z : of_key v (flat ((k, ps) :: m)) = []).
      { apply behind; [split; assumption|exact Nv|].
        apply same_rank in E; [|assumption|assumption]. apply before_rank in B2; [|assumption|assumption].
        assert (Q : rlt (vrank v) (vrank k)) by (rewrite <- E; exact B2).
        constructor; [apply before_rank; assumption|]. eapply Forall_impl_in; [|exact F]. intros [k2 g2] H2 K. unfold glt in K. cbn [fst] in *.
        rewrite Forall_forall in G2. destruct (G2 _ H2) as (N2 & _). cbn [fst] in N2.
        apply before_rank; [assumption|assumption|]. apply before_rank in K; [|assumption|assumption]. exact (rlt_trans _ _ _ Q K). }
      rewrite Z. apply app_nil_r.
    + assert (Z : of_key v [x] = []) by (apply of_key_none; constructor; [exact E|constructor]).
      rewrite Z, app_nil_r. reflexivity.
  - rewrite !of_key_app, <- !app_assoc. f_equal. destruct (same_key (key x) v) eqn:E.
    + change (concat (map snd m)) with (flat m). rewrite (behind m v); [rewrite app_nil_r; reflexivity|split; assumption|exact Nv|].
      assert (Sk : vrank (key x) = vrank k) by (apply same_rank; [assumption|assumption|unfold same_key; rewrite B1, B2; reflexivity]).
      apply same_rank in E; [|assumption|assumption].
      eapply Forall_impl_in; [|exact F]. intros [k2 g2] H2 K. unfold glt in K. cbn [fst] in *.
      rewrite Forall_forall in G2. destruct (G2 _ H2) as (N2 & _). cbn [fst] in N2.
      apply before_rank; [assumption|assumption|]. apply before_rank in K; [|assumption|assumption]. rewrite <- E, Sk. exact K.
    + assert (Z : of_key v [x] = []) by (apply of_key_none; constructor; [exact E|constructor]).
      rewrite Z. cbn [app]. rewrite app_nil_r. reflexivity.
Qed.

Definition build (l : list A) : gmap := fold_left gadd l [].

Lemma build_gen : forall l m xs, Forall (fun x => number (key x)) l -> gok m -> Permutation (flat m) xs ->
  (forall v, number v -> of_key v (flat m) = of_key v xs) ->
  let m' := fold_left gadd l m in
  gok m' /\ Permutation (flat m') (xs ++ l) /\ forall v, number v -> of_key v (flat m') = of_key v (xs ++ l).
Proof.
  induction l as [|x l IH]; intros m xs N G P K; cbn [fold_left].
  - cbv zeta. rewrite app_nil_r. auto.
  - inversion N as [|? ? N1 N2]; subst. replace (xs ++ x :: l) with ((xs ++ [x]) ++ l) by (rewrite <- app_assoc; reflexivity).
    apply IH; [exact N2|apply gadd_ok; assumption| |].
    + rewrite gadd_perm. apply Permutation_app_tail, P.
    + intros v Nv. rewrite gadd_of_key, of_key_app, K by assumption. reflexivity.
Qed.
Lemma build_ok l : Forall (fun x => number (key x)) l ->
  gok (build l) /\ Permutation (flat (build l)) l /\ forall v, number v -> of_key v (flat (build l)) = of_key v l.
Proof.
  intros N. apply (build_gen l [] []); [exact N|split; constructor|constructor|reflexivity].
Qed.

Lemma flat_sorted m : gok m -> StronglySorted (fun a b => before (key b) (key a) = false) (flat m).
Proof.
  intros [S G]. induction m as [|[k ps] m IH]; cbn [flat map concat snd]; [constructor|].
  inversion S as [|? ? S2 F]; subst. inversion G as [|? ? G1 G2]; subst. destruct G1 as (Nk & _ & Gk & _). cbn [fst snd] in *.
  specialize (IH S2 G2). unfold flat in *.
  assert (T : forall a b, In a ps -> In b (concat (map snd m)) -> before (key b) (key a) = false).
  { intros a b Ha Hb. apply in_concat in Hb as (g & Hg & Hb). apply in_map_iff in Hg as ([k2 g'] & <- & Hg). cbn [snd] in Hb.
    rewrite Forall_forall in F, G2, Gk. specialize (F _ Hg). unfold glt in F. destruct (G2 _ Hg) as (N2 & _ & Gk2 & _). cbn [fst snd] in *.
    rewrite Forall_forall in Gk2. destruct (Gk _ Ha) as [Na Sa]. destruct (Gk2 _ Hb) as [Nb Sb].
    apply before_false; [assumption|assumption|]. apply same_rank in Sa; [|assumption|assumption]. apply same_rank in Sb; [|assumption|assumption].
    apply before_rank in F; [|assumption|assumption]. rewrite Sa, Sb. intros X. exact (rlt_irrefl _ (rlt_trans _ _ _ F X)). }
  clear F S G. induction ps as [|a ps IHp]; cbn [app]; [exact IH|].
  inversion Gk as [|? ? [Na Sa] Gk2]; subst. constructor.
  - apply IHp; [exact Gk2|]. intros x y Hx. apply T. right. exact Hx.
  - apply Forall_app. split.
    + eapply Forall_impl; [|exact Gk2]. intros y [Ny Sy]. apply before_false; [assumption|assumption|].
      apply same_rank in Sa; [|assumption|assumption]. apply same_rank in Sy; [|assumption|assumption].
      rewrite Sa, Sy. apply rlt_irrefl.
    + apply Forall_forall. intros y Hy. apply T; [left; reflexivity|exact Hy].
Qed.
End Map.

(** ** The position map of the code *)
Section Positions.
Context {T : Type}.
Variable key : (Z * T) -> value.
Definition positions (m : gmap (A := Z * T)) : kmap := map (fun g => (fst g, map fst (snd g))) m.

Lemma kadd_positions m x : kadd (positions m) (key x) (fst x) = positions (gadd key m x).
Proof.
  induction m as [|[k ps] m IH]; cbn [gadd positions map kadd fst snd]; [reflexivity|].
  rewrite (vlt_before k (key x)), (vlt_before (key x) k). destruct (before k (key x)); [|destruct (before (key x) k)]; cbn [positions map fst snd].
  - f_equal. exact IH.
  - reflexivity.
  - rewrite map_app. reflexivity.
Qed.

Lemma kfind_positions m v : gok key m -> number v ->
  match kfind (positions m) v with Some ps => ps | None => [] end = map fst (of_key key v (flat m)).
Proof.
  intros [S G] N. induction m as [|[k ps] m IH]; cbn [positions map kfind fst snd]; [reflexivity|].
  inversion S as [|? ? S2 F]; subst. inversion G as [|? ? G1 G2]; subst. pose proof G1 as (Nk & _ & Gk & _). cbn [fst snd] in *.
  rewrite (vlt_before k v), (vlt_before v k). unfold flat. cbn [map concat snd]. rewrite of_key_app. fold (flat m).
  destruct (before k v) eqn:B1; [|destruct (before v k) eqn:B2].
  - fold (positions m). rewrite (IH S2 G2).
    replace (of_key key v ps) with (@nil (Z * T)); [reflexivity|]. symmetry. apply of_key_none.
    eapply Forall_impl; [|exact Gk]. intros x [Nx Sx]. apply same_rank in Sx; [|assumption|assumption].
    destruct (same_key (key x) v) eqn:E; [|reflexivity]. exfalso. apply same_rank in E; [|assumption|assumption].
    apply before_rank in B1; [|assumption|assumption]. rewrite <- Sx, E in B1. exact (rlt_irrefl _ B1).
  - rewrite <- of_key_app. change (ps ++ flat m) with (flat ((k, ps) :: m)).
    rewrite (behind key ((k, ps) :: m) v); [reflexivity|split; assumption|exact N|].
    constructor; [exact B2|]. eapply Forall_impl_in; [|exact F]. intros [k2 g2] H2 K. unfold glt in K. cbn [fst] in *.
    rewrite Forall_forall in G2. destruct (G2 _ H2) as (N2 & _). cbn [fst] in N2.
    apply before_rank in K; [|assumption|assumption]. apply before_rank in B2; [|assumption|assumption].
    apply before_rank; [assumption|assumption|]. exact (rlt_trans _ _ _ B2 K).
  - assert (Sk : vrank k = vrank v) by (apply same_rank; [assumption|assumption|unfold same_key; rewrite B1, B2; reflexivity]).
    rewrite (behind key m v); [rewrite app_nil_r|split; assumption|exact N|].
    + f_equal. clear - Gk Sk Nk N. induction Gk as [|x ps [Nx Sx] _ IH]; cbn [of_key filter]; [reflexivity|].
      replace (same_key (key x) v) with true; [f_equal; exact IH|].
      symmetry. apply same_rank; [assumption|assumption|]. apply same_rank in Sx; [|assumption|assumption]. congruence.
    + eapply Forall_impl_in; [|exact F]. intros [k2 g2] H2 K. unfold glt in K. cbn [fst] in *.
      rewrite Forall_forall in G2. destruct (G2 _ H2) as (N2 & _). cbn [fst] in N2.
      apply before_rank in K; [|assumption|assumption]. apply before_rank; [assumption|assumption|]. rewrite <- Sk. exact K.
Qed.
End Positions.

(** What the iterators have still to visit. *)
Definition unvisited (r : kmap) : list Z := concat (map snd r).
Definition no_empty (r : kmap) : Prop := Forall (fun g => snd g <> []) r.

Lemma advance_ok r pos k ps m : r = (k, pos :: ps) :: m -> no_empty r ->
  no_empty (advance r) /\ unvisited (advance r) = ps ++ unvisited m.
Proof.
  intros -> N. inversion N as [|? ? _ N2]; subst. destruct ps as [|q ps]; cbn [advance].
  - split; [exact N2|reflexivity].
  - split; [constructor; [discriminate|exact N2]|reflexivity].
Qed.

(** ** The reader over a plain reader *)
Section Reader.
Variables (p : platform) (s0 : isegy).
Hypothesis A : p_max_alloc p < 2 ^ 63.

(** The states of the base reader: position [q], remembered position [c] and
    sample buffer size [b]. *)
Definition B (c b q : Z) : isegy :=
  mkI (mkFile (fdata (i_file s0)) q) (i_bh s0) (i_maps s0) (i_text s0) (i_stanzas s0) (i_endian s0) (i_bps s0)
      (i_spt s0) b (i_first s0) c (i_eod s0).
Definition bufok (b : Z) : Prop := 0 <= b <= p_max_alloc p /\ (is_fixed (i_bh s0) = true -> b = i_bufsz s0).

(** At [pos] there is the trace [t]. *)
Definition at_pos (x : Z * trace) : Prop :=
  0 <= fst x < 2 ^ 63 /\
  exists q' b', bufok b' /\ forall c b, bufok b ->
    read_trace p (B c b (fst x)) = Ok (snd x, B q' b' q') /\
    read_header p (B c b (fst x)) = Ok (t_hdr (snd x), B q' b q').

Lemma trace_at q b t s' : r_inv p (B q b q) -> bufok b -> read_trace p (B q b q) = Ok (t, s') ->
  at_pos (q, t) /\ exists q' b', s' = B q' b' q' /\ bufok b' /\ r_inv p s' /\
    forall b2, bufok b2 -> read_header p (B q b2 q) = Ok (t_hdr t, B q' b2 q').
Proof.
  intros I Hb H. pose proof (read_trace_inv _ _ _ _ A I H) as (I1 & SR & _ & _).
  destruct s' as [f bh ms tx st en bps spt bz fi cu eo].
  pose proof SR as (R1 & R2 & R3 & R4 & R5 & R6 & R7 & R8 & R9 & R10).
  cbn [B i_file i_bh i_maps i_text i_stanzas i_endian i_bps i_spt i_bufsz i_first i_cur i_eod] in *. subst.
  destruct f as [fd fp]. cbn [fdata] in R10. subst fd.
  pose proof I1 as (C1 & _ & _ & _ & _ & _ & Bf1 & Fx1). cbn [i_file i_cur fpos i_bufsz i_bh i_spt i_bps] in *. subst cu.
  assert (Hb' : bufok bz).
  { split; [exact Bf1|]. intros FX. rewrite (Fx1 FX). destruct I as (_ & _ & _ & _ & _ & _ & _ & Fx). specialize (Fx FX).
    cbn [B i_bufsz i_spt i_bps i_bh] in Fx. destruct Hb as [_ Hb]. rewrite <- (Hb FX). symmetry. exact Fx. }
  assert (K : forall c b2, bufok b2 ->
    read_trace p (B c b2 q) = Ok (t, B fp bz fp) /\ read_header p (B c b2 q) = Ok (t_hdr t, B fp b2 fp)).
  { intros c b2 [Hb2 Hf2]. 
    assert (Hf : is_fixed (i_bh (B q b q)) = true -> b2 = i_bufsz (B q b q)).
    { intros FX. cbn [B i_bufsz i_bh] in *. rewrite (Hf2 FX). symmetry. apply Hb, FX. }
    pose proof (read_trace_buf _ _ _ _ _ A I Hb2 Hf H) as T. pose proof (r_inv_buf _ _ _ I Hb2 Hf) as I2.
    pose proof (read_trace_inv _ _ _ _ A I2 T) as (_ & _ & _ & _ & _ & RH). split; [exact T|exact RH]. }
  split.
  - split; [destruct I as (_ & C & _); exact C|]. exists fp, bz. split; [exact Hb'|exact K].
  - exists fp, bz. split; [reflexivity|]. split; [exact Hb'|]. split; [exact I1|]. intros b2 Hb2. apply K, Hb2.
Qed.

Definition keyv (name : string) (t : trace) : value := match hget (t_hdr t) name with Some v => v | None => VInt 0 end.
Definition pkey (name : string) (x : Z * trace) : value := keyv name (snd x).

Lemma read_all_scan name : forall n q b ts sE, r_inv p (B q b q) -> bufok b -> read_all p n (B q b q) = Ok (ts, sE) ->
  exists xs, map snd xs = ts /\ Forall at_pos xs /\
    (Forall (has_key name) ts -> forall b2 m, bufok b2 -> exists c,
       scan p n name (B q b2 q) (positions m) = Ok (positions (fold_left (gadd (pkey name)) xs m), B c b2 c)) /\
    (forall ts1 t ts2, ts = ts1 ++ t :: ts2 -> Forall (has_key name) ts1 -> hget (t_hdr t) name = None ->
       forall b2 m, bufok b2 -> scan p n name (B q b2 q) m = Throw ESedaman).
Proof.
  induction n as [|n IH]; intros q b ts sE I Hb H; cbn [read_all scan] in *.
  - change (has_trace (B q b q)) with (negb (q =? i_eod s0)) in *.
    destruct (negb (q =? i_eod s0)) eqn:HT; [discriminate|]. injection H as <- <-. exists []. split; [reflexivity|].
    split; [constructor|]. split.
    + intros _ b2 m _. exists q. change (has_trace (B q b2 q)) with (negb (q =? i_eod s0)). rewrite HT. reflexivity.
    + intros [|? ?]; discriminate.
  - change (has_trace (B q b q)) with (negb (q =? i_eod s0)) in *.
    destruct (negb (q =? i_eod s0)) eqn:HT.
    2:{ injection H as <- <-. exists []. split; [reflexivity|]. split; [constructor|]. split.
        + intros _ b2 m _. exists q. change (has_trace (B q b2 q)) with (negb (q =? i_eod s0)). rewrite HT. reflexivity.
        + intros [|? ?]; discriminate. }
    apply bind_ok in H as ([t s1] & E & H). apply bind_ok in H as ([l s2] & E2 & H). injection H as <- <-.
    destruct (trace_at _ _ _ _ I Hb E) as (At & q' & b' & -> & Hb' & I1 & RH).
    destruct (IH _ _ _ _ I1 Hb' E2) as (xs & X1 & X2 & X3 & X4).
    exists ((q, t) :: xs). split; [cbn [map snd]; rewrite X1; reflexivity|]. split; [constructor; assumption|]. split.
    + intros F b2 m Hb2. inversion F as [|? ? (v & V1 & V2) F2]; subst.
      change (has_trace (B q b2 q)) with (negb (q =? i_eod s0)). rewrite HT. rewrite (RH _ Hb2). cbn [bind]. cbv zeta.
      rewrite V1. replace (key_ok v) with true by (symmetry; apply key_ok_number, V2).
      cbn [fold_left]. pose proof (kadd_positions (pkey name) m (q, t)) as K.
      unfold pkey at 1 in K. cbn [fst snd] in K. unfold keyv in K. rewrite V1 in K.
      change (fpos (i_file (B q b2 q))) with q. rewrite K. apply X3; assumption.
    + intros ts1 t1 ts2 Et F N b2 m Hb2. change (has_trace (B q b2 q)) with (negb (q =? i_eod s0)). rewrite HT.
      rewrite (RH _ Hb2). cbn [bind]. cbv zeta. destruct ts1 as [|t0 ts1].
      * cbn [app] in Et. injection Et as <- <-. rewrite N. reflexivity.
      * cbn [app] in Et. injection Et as <- ->. inversion F as [|? ? (v & V1 & V2) F2]; subst.
        rewrite V1. replace (key_ok v) with true by (symmetry; apply key_ok_number, V2).
        apply (X4 ts1 t1 ts2 eq_refl F2 N), Hb2.
Qed.

(** The invariant of the iteration: [rest] still to come. *)
Definition ready (m : gmap (A := Z * trace)) (rest : list (Z * trace)) (s : sorted) : Prop :=
  exists c b q, s_base s = B c b q /\ bufok b /\ s_map s = positions m /\ no_empty (s_rest s) /\
    unvisited (s_rest s) = map fst rest /\ Forall at_pos rest.

Lemma seek_B c b q pos : 0 <= pos < 2 ^ 63 -> seek_base (B c b q) pos = Ok (B c b pos).
Proof. intros H. unfold seek_base, fseek. replace (_ && _) with true by lia. reflexivity. Qed.

Lemma rest_cons s (x : Z * trace) (rest : list (Z * trace)) : no_empty (s_rest s) -> unvisited (s_rest s) = fst x :: map fst rest ->
  exists k ps m, s_rest s = (k, fst x :: ps) :: m /\ ps ++ unvisited m = map fst rest.
Proof.
  intros N U. destruct (s_rest s) as [|[k [|pos ps]] m]; [discriminate| |].
  - inversion N as [|? ? X _]; subst. contradiction X. reflexivity.
  - unfold unvisited in U. cbn [map concat snd app] in U. injection U as -> U. exists k, ps, m. split; [reflexivity|exact U].
Qed.

Lemma read_at_traces : forall xs n c b q, Forall at_pos xs -> bufok b -> 0 <= n ->
  exists c' b' q', bufok b' /\
    read_at (read_trace p) (map fst xs) n (B c b q) = Ok (firstn (Z.to_nat n) (map snd xs), B c' b' q').
Proof.
  induction xs as [|[pos t] xs IH]; intros n c b q F Hb Hn; cbn [map read_at fst snd].
  - exists c, b, q. rewrite firstn_nil. auto.
  - inversion F as [|? ? (R & q1 & b1 & Hb1 & K) F2]; subst. cbn [fst snd] in *. destruct (Z.eqb_spec n 0) as [->|N].
    + exists c, b, q. auto.
    + rewrite seek_B by exact R. cbn [bind]. destruct (K c b Hb) as [-> _]. cbn [bind].
      destruct (IH (n - 1) q1 b1 q1 F2 Hb1 ltac:(lia)) as (c' & b' & q' & Hb' & ->). cbn [bind].
      exists c', b', q'. split; [exact Hb'|]. replace (Z.to_nat n) with (S (Z.to_nat (n - 1))) by lia. reflexivity.
Qed.
Lemma read_at_headers : forall xs n c b q, Forall at_pos xs -> bufok b -> 0 <= n ->
  exists c' b' q', bufok b' /\
    read_at (read_header p) (map fst xs) n (B c b q) = Ok (map t_hdr (firstn (Z.to_nat n) (map snd xs)), B c' b' q').
Proof.
  induction xs as [|[pos t] xs IH]; intros n c b q F Hb Hn; cbn [map read_at fst snd].
  - exists c, b, q. rewrite firstn_nil. auto.
  - inversion F as [|? ? (R & q1 & b1 & Hb1 & K) F2]; subst. cbn [fst snd] in *. destruct (Z.eqb_spec n 0) as [->|N].
    + exists c, b, q. auto.
    + rewrite seek_B by exact R. cbn [bind]. destruct (K c b Hb) as [_ ->]. cbn [bind].
      destruct (IH (n - 1) q1 b q1 F2 Hb ltac:(lia)) as (c' & b' & q' & Hb' & ->). cbn [bind].
      exists c', b', q'. split; [exact Hb'|]. replace (Z.to_nat n) with (S (Z.to_nat (n - 1))) by lia. reflexivity.
Qed.

Lemma filter_fst {X Y} (f : X -> bool) (g : Y -> X) l : map g (filter (fun y => f (g y)) l) = filter f (map g l).
Proof. induction l as [|y l IH]; cbn [map filter]; [reflexivity|]. destruct (f (g y)); cbn [map]; rewrite IH; reflexivity. Qed.

Lemma of_key_with name v xs : Forall (has_key name) (map snd xs) ->
  map snd (of_key (pkey name) v xs) = with_key name v (map snd xs).
Proof.
  intros F. unfold of_key, pkey. rewrite (filter_fst (fun t => same_key (keyv name t) v)).
  unfold with_key. apply filter_ext_in. intros t Ht. rewrite Forall_forall in F. destruct (F _ Ht) as (x & X & _).
  unfold keyv. rewrite X. reflexivity.
Qed.

Section Calls.
Variables (name : string) (xs : list (Z * trace)).
Hypothesis Hat : Forall at_pos xs.
Hypothesis Hkey : Forall (has_key name) (map snd xs).
Let m := build (pkey name) xs.

Lemma numbers : Forall (fun x => number (pkey name x)) xs.
Proof.
  rewrite Forall_map in Hkey. eapply Forall_impl; [|exact Hkey]. intros x (v & V1 & V2). unfold pkey, keyv. rewrite V1. exact V2.
Qed.

Lemma get_pos v : number v ->
  match kfind (positions m) v with Some ps => ps | None => [] end = map fst (of_key (pkey name) v xs).
Proof.
  intros N. destruct (build_ok (pkey name) xs numbers) as (G & _ & K). rewrite (kfind_positions (pkey name) m v G N).
  unfold m. rewrite K by exact N. reflexivity.
Qed.
Lemma of_key_at v : Forall at_pos (of_key (pkey name) v xs).
Proof. apply Forall_forall. intros x Hx. apply filter_In in Hx as [Hx _]. rewrite Forall_forall in Hat. auto. Qed.

Lemma get_traces_ok v n rest s : ready m rest s -> number v -> 0 <= n ->
  exists s', get_traces p s v n = Ok (firstn (Z.to_nat n) (with_key name v (map snd xs)), s') /\ ready m rest s'.
Proof.
  intros (c & b & q & E1 & Hb & E2 & E3 & E4 & E5) N Hn. unfold get_traces, get_by. rewrite E2. pose proof (get_pos v N) as G.
  rewrite <- of_key_with by exact Hkey.
  destruct (kfind (positions m) v) as [ps|].
  - subst ps. rewrite E1. destruct (read_at_traces _ n c b q (of_key_at v) Hb Hn) as (c' & b' & q' & Hb' & ->). cbn [bind].
    eexists. split; [reflexivity|]. exists c', b', q'. cbn [s_base s_map s_rest]. auto 10.
  - destruct (of_key (pkey name) v xs); [|discriminate]. cbn [map]. rewrite firstn_nil. exists s. split; [reflexivity|].
    exists c, b, q. auto 10.
Qed.
Lemma get_headers_ok v n rest s : ready m rest s -> number v -> 0 <= n ->
  exists s', get_headers p s v n = Ok (map t_hdr (firstn (Z.to_nat n) (with_key name v (map snd xs))), s') /\ ready m rest s'.
Proof.
  intros (c & b & q & E1 & Hb & E2 & E3 & E4 & E5) N Hn. unfold get_headers, get_by. rewrite E2. pose proof (get_pos v N) as G.
  rewrite <- of_key_with by exact Hkey.
  destruct (kfind (positions m) v) as [ps|].
  - subst ps. rewrite E1. destruct (read_at_headers _ n c b q (of_key_at v) Hb Hn) as (c' & b' & q' & Hb' & ->). cbn [bind].
    eexists. split; [reflexivity|]. exists c', b', q'. cbn [s_base s_map s_rest]. auto 10.
  - destruct (of_key (pkey name) v xs); [|discriminate]. cbn [map]. rewrite firstn_nil. exists s. split; [reflexivity|].
    exists c, b, q. auto 10.
Qed.

Lemma calls_ok : forall cs rest s a, ready m rest s -> Forall good_call cs ->
  answers name (map snd xs) (map fst m) (map snd rest) cs = Some a ->
  exists s', do_calls p cs s = Ok (a, s').
Proof.
  induction cs as [|k cs IH]; intros rest s a Hr Hg H; cbn [answers do_calls] in *.
  - injection H as <-. exists s. reflexivity.
  - inversion Hg as [|? ? G1 G2]; subst. destruct k as [| |v n|v n| |]; cbn [do_call].
    + destruct rest as [|x rest]; [discriminate|]. cbn [map] in H.
      destruct (answers name (map snd xs) (map fst m) (map snd rest) cs) as [a'|] eqn:Ea; [|discriminate]. injection H as <-.
      destruct Hr as (c & b & q & E1 & Hb & E2 & E3 & E4 & E5). inversion E5 as [|? ? (R & q1 & b1 & Hb1 & K) E6]; subst.
      destruct (rest_cons _ _ _ E3 E4) as (k & ps & m' & Er & Eu).
      unfold s_read_trace, s_read. rewrite Er, E1, seek_B by exact R. cbn [bind]. destruct (K c b Hb) as [-> _]. cbn [bind].
      rewrite <- Er. destruct (advance_ok _ _ _ _ _ Er E3) as [N1 U1].
      destruct (IH rest (mkS (B q1 b1 q1) (s_map s) (advance (s_rest s))) a') as (s' & ->); [|exact G2|exact Ea|].
      * exists q1, b1, q1. cbn [s_base s_map s_rest]. rewrite U1. auto 10.
      * exists s'. reflexivity.
    + destruct rest as [|x rest]; [discriminate|]. cbn [map] in H.
      destruct (answers name (map snd xs) (map fst m) (map snd rest) cs) as [a'|] eqn:Ea; [|discriminate]. injection H as <-.
      destruct Hr as (c & b & q & E1 & Hb & E2 & E3 & E4 & E5). inversion E5 as [|? ? (R & q1 & b1 & Hb1 & K) E6]; subst.
      destruct (rest_cons _ _ _ E3 E4) as (k & ps & m' & Er & Eu).
      unfold s_read_header, s_read. rewrite Er, E1, seek_B by exact R. cbn [bind]. destruct (K c b Hb) as [_ ->]. cbn [bind].
      rewrite <- Er. destruct (advance_ok _ _ _ _ _ Er E3) as [N1 U1].
      destruct (IH rest (mkS (B q1 b q1) (s_map s) (advance (s_rest s))) a') as (s' & ->); [|exact G2|exact Ea|].
      * exists q1, b, q1. cbn [s_base s_map s_rest]. rewrite U1. auto 10.
      * exists s'. reflexivity.
    + destruct (answers name (map snd xs) (map fst m) (map snd rest) cs) as [a'|] eqn:Ea; [|discriminate]. injection H as <-.
      destruct G1 as [N Hn]. destruct (get_traces_ok v n rest s Hr N Hn) as (s1 & -> & Hr1). cbn [bind].
      destruct (IH rest s1 a' Hr1 G2 Ea) as (s' & ->). exists s'. reflexivity.
    + destruct (answers name (map snd xs) (map fst m) (map snd rest) cs) as [a'|] eqn:Ea; [|discriminate]. injection H as <-.
      destruct G1 as [N Hn]. destruct (get_headers_ok v n rest s Hr N Hn) as (s1 & -> & Hr1). cbn [bind].
      destruct (IH rest s1 a' Hr1 G2 Ea) as (s' & ->). exists s'. reflexivity.
    + destruct (answers name (map snd xs) (map fst m) (map snd rest) cs) as [a'|] eqn:Ea; [|discriminate]. injection H as <-.
      cbn [bind]. destruct (IH rest s a' Hr G2 Ea) as (s' & ->). exists s'. cbn [bind]. do 4 f_equal.
      destruct Hr as (c & b & q & E1 & Hb & E2 & _). unfold get_keys. rewrite E2. unfold positions. rewrite map_map. reflexivity.
    + destruct (answers name (map snd xs) (map fst m) (map snd rest) cs) as [a'|] eqn:Ea; [|discriminate]. injection H as <-.
      cbn [bind]. destruct (IH rest s a' Hr G2 Ea) as (s' & ->). exists s'. cbn [bind]. do 4 f_equal.
      destruct Hr as (c & b & q & E1 & Hb & E2 & E3 & E4 & _). unfold s_has_trace.
      destruct rest as [|x rest].
      * destruct (s_rest s) as [|[k [|pos ps]] m']; [reflexivity| |discriminate]. inversion E3 as [|? ? X _]. contradiction X. reflexivity.
      * destruct (s_rest s); [discriminate|reflexivity].
Qed.

Lemma build_sorted : sorted_by name (map snd xs) (map snd (flat m)) /\ keys_of name (map snd xs) (map fst m).
Proof.
  destruct (build_ok (pkey name) xs numbers) as (G & P & K). fold m in G, P, K.
  assert (Hk2 : Forall (has_key name) (map snd (flat m))).
  { apply Forall_forall. intros t Ht. apply (Permutation_in _ (Permutation_map snd P)) in Ht.
    rewrite Forall_forall in Hkey. auto. }
  split.
  - split; [symmetry; apply Permutation_map, P|]. split.
    + pose proof (flat_sorted (pkey name) m G) as S. clear - S.
      induction S as [|x l S IH F]; cbn [map]; [constructor|]. constructor; [exact IH|]. rewrite Forall_map.
      eapply Forall_impl; [|exact F]. intros y Hy a b Ha Hb. unfold pkey, keyv in Hy. rewrite Ha, Hb in Hy. exact Hy.
    + intros v N. rewrite <- !of_key_with by assumption. rewrite K by exact N. reflexivity.
  - destruct G as [S F]. split; [|split].
    + clear - S. induction S as [|x l S IH F]; cbn [map]; [constructor|]. constructor; [exact IH|]. rewrite Forall_map. exact F.
    + intros k Hk. apply in_map_iff in Hk as ([k' g] & <- & Hg). cbn [fst]. rewrite Forall_forall in F.
      destruct (F _ Hg) as (_ & _ & _ & x & Hx & Ex). cbn [fst snd] in *.
      assert (In x xs). { apply (Permutation_in _ P). unfold flat. apply in_concat. exists g. split; [|exact Hx]. apply (in_map snd) in Hg. exact Hg. }
      exists (snd x). split; [apply in_map; assumption|]. rewrite Forall_map in Hkey. rewrite Forall_forall in Hkey.
      destruct (Hkey _ H) as (v & V1 & _). unfold pkey, keyv in Ex. rewrite V1 in Ex. rewrite V1. congruence.
    + intros t v Ht V. apply in_map_iff in Ht as (x & <- & Hx). pose proof Hx as Hx'. apply (Permutation_in _ (Permutation_sym P)) in Hx.
      unfold flat in Hx. apply in_concat in Hx as (g & Hg & Hx). apply in_map_iff in Hg as ([k g'] & <- & Hg). cbn [snd] in Hx.
      exists k. split; [apply (in_map fst) in Hg; exact Hg|]. rewrite Forall_forall in F. destruct (F _ Hg) as (_ & _ & Gk & _). cbn [fst snd] in *.
      rewrite Forall_forall in Gk. destruct (Gk _ Hx) as [_ Sx]. unfold pkey, keyv in Sx. rewrite V in Sx. exact Sx.
Qed.
End Calls.
End Reader.

(** ** The sorted reader of a file *)
Theorem sorted_reader p content maps s name n ts sE : p_max_alloc p < 2 ^ 63 -> len content < 2 ^ 63 ->
  opened p content maps s -> read_all p n s = Ok (ts, sE) -> ts <> [] -> Forall (has_key name) ts ->
  exists so out ks, sorted_open p n name s = Ok so /\ sorted_by name ts out /\ keys_of name ts ks /\
    forall cs a, Forall good_call cs -> answers name ts ks out cs = Some a -> exists s', do_calls p cs so = Ok (a, s').
Proof.
  intros A L O H Ne F. destruct (opened_inv _ _ _ _ O A L) as (I & _).
  pose proof I as (C & _ & _ & _ & _ & _ & Bf & Fx).
  assert (Es : B s (i_cur s) (i_bufsz s) (i_cur s) = s).
  { unfold B. rewrite <- C at 1. destruct s as [[fd fp] ? ? ? ? ? ? ? ? ? ? ?]. reflexivity. }
  assert (Hb : bufok p s (i_bufsz s)) by (split; auto).
  pose proof (read_all_scan p s A name n (i_cur s) (i_bufsz s) ts sE) as K. rewrite Es in K.
  destruct (K I Hb H) as (xs & <- & At & Sc & _).
  destruct (Sc F (i_bufsz s) [] Hb) as (c & Sc'). rewrite Es in Sc'. cbn [positions map] in Sc'.
  destruct (build_sorted name xs F) as (S1 & S2).
  exists (mkS (B s c (i_bufsz s) c) (positions (build (pkey name) xs)) (positions (build (pkey name) xs))),
    (map snd (flat (build (pkey name) xs))), (map fst (build (pkey name) xs)).
  destruct (build_ok (pkey name) xs (numbers name xs F)) as ((G1 & G2) & P & _).
  split.
  { unfold sorted_open. rewrite Sc'. cbn [bind]. fold (build (pkey name) xs).
    destruct (build (pkey name) xs) as [|g m] eqn:Eb; [|reflexivity].
    apply Permutation_nil in P. subst xs. contradiction Ne. reflexivity. }
  split; [exact S1|]. split; [exact S2|]. intros cs a Hg Ha.
  apply (calls_ok p s name xs At F cs (flat (build (pkey name) xs))); [|exact Hg|exact Ha].
  exists c, (i_bufsz s), c. cbn [s_base s_map s_rest]. split; [reflexivity|]. split; [exact Hb|]. split; [reflexivity|]. split.
  - unfold no_empty, positions. rewrite Forall_map. eapply Forall_impl; [|exact G2]. intros [k g] (_ & Ng & _). cbn [fst snd] in *.
    destruct g; [contradiction|discriminate].
  - split.
    + unfold unvisited, positions, flat. rewrite map_map. cbn [snd]. rewrite concat_map, map_map. reflexivity.
    + apply Forall_forall. intros x Hx. apply (Permutation_in _ P) in Hx. rewrite Forall_forall in At. auto.
Qed.

Theorem sorted_missing p content maps s name n ts sE ts1 t ts2 : p_max_alloc p < 2 ^ 63 -> len content < 2 ^ 63 ->
  opened p content maps s -> read_all p n s = Ok (ts, sE) -> ts = ts1 ++ t :: ts2 -> Forall (has_key name) ts1 ->
  hget (t_hdr t) name = None -> sorted_open p n name s = Throw ESedaman.
Proof.
  intros A L O H Et F N. destruct (opened_inv _ _ _ _ O A L) as (I & _).
  pose proof I as (C & _ & _ & _ & _ & _ & Bf & Fx).
  assert (Es : B s (i_cur s) (i_bufsz s) (i_cur s) = s).
  { unfold B. rewrite <- C at 1. destruct s as [[fd fp] ? ? ? ? ? ? ? ? ? ? ?]. reflexivity. }
  assert (Hb : bufok p s (i_bufsz s)) by (split; auto).
  pose proof (read_all_scan p s A name n (i_cur s) (i_bufsz s) ts sE) as K. rewrite Es in K.
  destruct (K I Hb H) as (xs & _ & _ & _ & Sc). specialize (Sc ts1 t ts2 Et F N (i_bufsz s) [] Hb). rewrite Es in Sc.
  unfold sorted_open. rewrite Sc. reflexivity.
Qed.
