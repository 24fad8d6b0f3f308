(** Headers as dicts (C92, C93). *)
From Coq Require Import String Ascii Reals Lia.
From Flocq Require Import IEEE754.BinarySingleNaN.
From Verif Require Import BaseFacts Fp FpSpec FpReal TraceHdr HdrFacts SegyTypes SegdTypes PyBind PySpec PyFacts
  PyTrace PyTraceSpec PyTraceFacts PyDictSpec.
Local Open Scope list_scope.
Local Open Scope Z_scope.

(** ** Keys *)
Lemma of_to_string l : bytes l -> of_string (to_string l) = l.
Proof.
  intro H. unfold of_string, to_string. rewrite list_ascii_of_string_of_list_ascii, map_map.
  induction H as [| b l Hb _ IH]; cbn [map]; [reflexivity |]. rewrite IH. f_equal. unfold is_byte in Hb.
  rewrite nat_ascii_embedding by lia. lia.
Qed.
Lemma to_string_inj a b : bytes a -> bytes b -> to_string a = to_string b -> a = b.
Proof. intros Ha Hb E. rewrite <- (of_to_string a Ha), <- (of_to_string b Hb), E. reflexivity. Qed.

Lemma char_bytes c l : utf8_char c l -> bytes l.
Proof.
  unfold bytes, is_byte. intros H. destruct H as [c R|c a b -> Sb R|c a b d -> Sb Sd R N|c a b d e -> Sb Sd Se R];
    unfold six in *; repeat constructor; lia.
Qed.
Lemma utf8_bytes u l : utf8 u l -> bytes l.
Proof.
  induction 1 as [| c u l m H _ IH]; [constructor |]. apply Forall_app. split; [exact (char_bytes _ _ H) | exact IH].
Qed.
Lemma key_ok k b : key_text k b -> to_key k = Some (to_string b) /\ bytes b.
Proof.
  unfold to_key. destruct k as [z | d | u | c]; cbn [key_text]; try contradiction.
  - intro H. cbn [as_string]. rewrite (utf8_encoded _ _ H). split; [reflexivity | exact (utf8_bytes _ _ H)].
  - intros (-> & H). split; [reflexivity | exact H].
Qed.

Lemma value_ok v : number64 v -> exists w, to_value v = Some w /\ is_value v w.
Proof.
  destruct v as [z | d | u | c]; cbn [number64 to_value is_value]; try contradiction.
  - intro H. exists (VInt z). 
    assert (B : in_i 64 z = true) by (apply andb_true_intro; split; [apply Z.leb_le | apply Z.ltb_lt]; change (64 - 1) with 63; lia).
    rewrite B. auto.
  - intros _. exists (VDbl d). auto.
Qed.

(** ** Programs *)
Lemma run_app : forall a b st, run st (a ++ b) =
  match run st a with
  | None => None
  | Some (os, st1) => option_map (fun '(os2, st2) => (os ++ os2, st2)) (run st1 b)
  end.
Proof.
  induction a as [| s a IH]; intros b st; cbn [app run].
  - destruct (run st b) as [[os st2] |]; reflexivity.
  - destruct (exec st s) as [[st1 o] |]; [| reflexivity]. rewrite IH.
    destruct (run st1 a) as [[os st2] |]; [| reflexivity]. cbn [option_map].
    destruct (run st2 b) as [[os3 st3] |]; reflexivity.
Qed.

(** After any program. *)
Lemma after prog : exists os st M E, run start prog = Some (os, st) /\ Inv st [] M /\ names_ok st E /\
  forall l, exists st', run start (prog ++ l) = Some (os ++ fst (fst (mrun M E l)), st').
Proof.
  destruct start_ok as (I0 & N0). destruct (run_ok prog start [] _ I0 N0) as (os & st & R & H).
  destruct (mrun [] (fun _ => None) prog) as [[os' M] E]. destruct H as (<- & I & N).
  exists os, st, M, E. split; [exact R | split; [exact I | split; [exact N |]]]. intro l. rewrite run_app, R.
  destruct (run_ok l st M E I N) as (os2 & st2 & R2 & H2). rewrite R2. exists st2. cbn [option_map].
  destruct (mrun M E l) as [[os3 M3] E3]. destruct H2 as (-> & _). reflexivity.
Qed.

Lemma inner_trace st T M E x a : Inv st T M -> names_ok st E -> E x = Some (a, true) ->
  exists h s, nth_error M a = Some (h, Some s).
Proof.
  intros I N Ex. specialize (N x). destruct (lookup (s_env st) x) as [o |]; [| congruence].
  destruct N as (r & Er & n & k & Eo & R). rewrite Ex in Er. injection Er as <-.
  destruct k as [b | b | p b]; cbn in R; try discriminate. injection R as ->.
  destruct (i_kind _ _ _ I _ _ _ Eo) as (np & Ep). destruct (i_kind _ _ _ I _ _ _ Ep) as (h & s & K).
  exists h, s. exact (i_cell _ _ _ I _ _ K).
Qed.

Lemma app_inj {A} : forall (a b c d : list A), List.length a = List.length c -> a ++ b = c ++ d -> a = c /\ b = d.
Proof.
  induction a as [| x a IH]; intros b [| y c] d L H; try discriminate; [auto |]. injection H as -> H.
  destruct (IH b c d ltac:(cbn in L; lia) H) as (-> & ->). auto.
Qed.
Lemma mrun_cons s l M E : fst (fst (mrun M E (s :: l)))
  = snd (mexec M E s) :: fst (fst (mrun (fst (fst (mexec M E s))) (snd (fst (mexec M E s))) l)).
Proof.
  cbn [mrun]. destruct (mexec M E s) as [[M1 E1] o]. cbn [fst snd]. destruct (mrun M1 E1 l) as [[os M2] E2]. reflexivity.
Qed.
Lemma mrun_length : forall l M E, List.length (fst (fst (mrun M E l))) = List.length l.
Proof.
  induction l as [| s l IH]; intros M E; [reflexivity |]. cbn [mrun]. destruct (mexec M E s) as [[M1 E1] o].
  specialize (IH M1 E1). destruct (mrun M1 E1 l) as [[os M2] E2]. cbn [fst List.length] in *. congruence.
Qed.

Lemma set_get prog x y k k' b b' v os same w w' st : key_text k b -> key_text k' b' -> number64 v ->
  run start (prog ++ [Is (EVar x) (EVar y); GetItem (EVar x) k; GetItem (EVar y) k'])
    = Some (os ++ [OBool same; OValue w; OValue w'], st) ->
  exists st' u, run start (prog ++ [SetItem (EVar x) k v; GetItem (EVar y) k']) = Some (os ++ [ONothing; OValue u], st') /\
    (same = true -> b = b' -> exists n, u = Some n /\ is_value v n) /\
    (same = false \/ b <> b' -> u = w').
Proof.
  intros Hk Hk' Hv R. destruct (key_ok _ _ Hk) as (Tk & Bk). destruct (key_ok _ _ Hk') as (Tk' & Bk').
  destruct (value_ok _ Hv) as (n & Tv & Vn).
  destruct (after prog) as (os0 & st0 & M & E & R0 & I & N & Go).
  destruct (Go [Is (EVar x) (EVar y); GetItem (EVar x) k; GetItem (EVar y) k']) as (st1 & R1). rewrite R in R1.
  pose proof (mrun_length [Is (EVar x) (EVar y); GetItem (EVar x) k; GetItem (EVar y) k'] M E) as Lm.
  remember (fst (fst (mrun M E [Is (EVar x) (EVar y); GetItem (EVar x) k; GetItem (EVar y) k']))) as q eqn:Eq.
  injection R1 as R1 _.
  assert (Eos : os = os0 /\ [OBool same; OValue w; OValue w'] = q).
  { clear Eq.
    assert (L : List.length os = List.length os0).
    { apply (f_equal (@List.length _)) in R1. rewrite !app_length, Lm in R1. cbn [List.length] in R1. lia. }
    exact (app_inj _ _ _ _ L R1). }
  destruct Eos as (-> & Eos). rewrite Eq in Eos. clear Eq R1 Lm.
  rewrite !mrun_cons in Eos. injection Eos as Ei Ea Eb.
  revert Ei Ea Eb. cbn [mexec meval]. destruct (E x) as [rx |] eqn:Ex; [| discriminate].
  destruct (E y) as [ry |] eqn:Ey; [| discriminate]. cbn [fst snd]. intro Es. injection Es as Es.
  unfold on_header. cbn [meval]. rewrite Ex.
  destruct (nth_error M (fst rx)) as [[hx sx] |] eqn:Mx; [| discriminate].
  destruct (is_trace M rx) eqn:Tx; [discriminate |]. cbn [fst snd]. intros _.
  rewrite (replace_same _ _ _ _ Mx), Ey.
  destruct (nth_error M (fst ry)) as [[hy sy] |] eqn:My; [| discriminate].
  destruct (is_trace M ry) eqn:Ty; [discriminate |]. cbn [fst snd]. rewrite Tk'.
  intro Ew'. injection Ew' as Ew'.
  assert (Hsame : same = Nat.eqb (fst rx) (fst ry)).
  { rewrite Es. destruct (Nat.eqb_spec (fst rx) (fst ry)) as [Hf | _]; [| reflexivity]. cbn [andb].
    destruct rx as [a i], ry as [a' j]. cbn [fst snd] in *. subst a'. unfold is_trace in Tx, Ty. cbn [fst snd] in Tx, Ty.
    rewrite Mx in Tx, Ty. destruct i, j; try reflexivity.
    - destruct (inner_trace _ _ _ _ _ _ I N Ex) as (h & s & Mh). rewrite Mx in Mh. injection Mh as -> ->. discriminate.
    - destruct (inner_trace _ _ _ _ _ _ I N Ey) as (h & s & Mh). rewrite Mx in Mh. injection Mh as -> ->. discriminate. }
  destruct (Go [SetItem (EVar x) k v; GetItem (EVar y) k']) as (st2 & R2).
  set (M' := replace M (fst rx) (hset hx (to_string b) n)).
  assert (My' : nth_error M' (fst ry) = Some (if same then hset hx (to_string b) n else hy, sy)).
  { unfold M'. rewrite (replace_nth _ _ _ _ _ _ Mx), Hsame. destruct (Nat.eqb_spec (fst rx) (fst ry)) as [Hf | _]; [| exact My].
    rewrite Hf in Mx. rewrite Mx in My. injection My as _ ->. reflexivity. }
  assert (Ty' : is_trace M' ry = false).
  { unfold is_trace in *. rewrite My'. rewrite My in Ty. exact Ty. }
  exists st2, (hget (if same then hset hx (to_string b) n else hy) (to_string b')).
  split; [| split].
  - rewrite R2. do 2 f_equal. f_equal. cbn [mrun mexec]. unfold on_header. cbn [meval]. rewrite Ex, Mx, Tx, Tk, Tv. cbn [fst snd].
    fold M'. rewrite Ey, My', Ty', Tk'. reflexivity.
  - intros -> <-. exists n. split; [apply hget_hset_same | exact Vn].
  - intro Hd. rewrite Ew'. destruct same; [| reflexivity]. destruct Hd as [Hd | Hd]; [discriminate |].
    rewrite hget_hset_other by (intro Hs; apply Hd; symmetry; exact (to_string_inj _ _ Bk' Bk Hs)).
    symmetry in Hsame. apply Nat.eqb_eq in Hsame. rewrite Hsame in Mx. rewrite Mx in My. injection My as -> _. reflexivity.
Qed.

(** ** New traces *)
Lemma finite_below d r : holds d r -> d_lt (d_abs d) d_inf = true.
Proof.
  intro H. destruct (d_abs_holds _ _ H) as (A & B & _). unfold d_lt.
  assert (F : is_finite_SF (d_dec (d_abs d)) = true) by (rewrite d_dec_finite; assumption).
  assert (Ei : d_dec d_inf = SpecFloat.S754_infinity false) by (vm_compute; reflexivity).
  rewrite Ei. destruct (d_dec (d_abs d)) as [s | s | | s m e]; try discriminate; destruct s; reflexivity.
Qed.
Lemma samples_ok l : sample_list l -> exists ds, to_doubles l = Some ds /\ Forall2 sample l ds.
Proof.
  induction 1 as [| v l Hv _ IH]; [exists []; auto |]. destruct IH as (ds & E & F). cbn [to_doubles]. rewrite E.
  destruct v as [z | d | u | c]; try contradiction; cbn [as_member].
  - destruct (i2d_holds z Hv) as (Hh & _). rewrite (finite_below _ _ Hh). exists (i2d z :: ds).
    split; [reflexivity | constructor; [| exact F]]. split; assumption.
  - exists (d :: ds). split; [reflexivity | constructor; [reflexivity | exact F]].
Qed.

Definition conv (kv : pyval * pyval) (sw : string * value) : Prop :=
  exists u e, fst kv = PStr u /\ utf8 u e /\ fst sw = to_string e /\ is_value (snd kv) (snd sw).
Lemma utf8_det u a b : utf8 u a -> utf8 u b -> a = b.
Proof. intros Ha Hb. apply utf8_encoded in Ha, Hb. congruence. Qed.
Lemma conv_key kv sw kv' sw' : conv kv sw -> conv kv' sw' -> fst kv = fst kv' <-> fst sw = fst sw'.
Proof.
  intros (u & e & K & U & S1 & _) (u' & e' & K' & U' & S' & _). split; intro H.
  - assert (u = u') by congruence. subst u'. rewrite (utf8_det _ _ _ U U') in S1. congruence.
  - assert (e = e') by (apply to_string_inj; [exact (utf8_bytes _ _ U) | exact (utf8_bytes _ _ U') | congruence]). subst e'.
    apply dec_complete in U, U'. congruence.
Qed.
Lemma hget_none h k : ~ In k (map fst h) -> hget h k = None.
Proof.
  induction h as [| [k' v] h IH]; intro H; cbn [hget]; [reflexivity |]. cbn [map fst In] in H.
  destruct (String.eqb_spec k k') as [-> | N]; [exfalso; auto | apply IH; auto].
Qed.
Lemma hget_in h k v : NoDup (map fst h) -> In (k, v) h -> hget h k = Some v.
Proof.
  induction h as [| [k' v'] h IH]; intros ND H; [destruct H |]. cbn [hget]. inversion ND as [| ? ? N1 N2]. subst.
  destruct H as [H | H].
  - injection H as -> ->. now rewrite String.eqb_refl.
  - destruct (String.eqb_spec k k') as [-> | N]; [| exact (IH N2 H)].
    exfalso. apply N1. exact (in_map fst _ _ H).
Qed.
Lemma map_ok : forall items pre preh, Forall2 conv pre preh -> NoDup (map fst (pre ++ items)) -> Forall item items ->
  exists h, to_map preh items = Some (preh ++ h) /\ Forall2 conv items h.
Proof.
  induction items as [| [k v] items IH]; intros pre preh F ND H.
  - exists []. rewrite app_nil_r. auto.
  - inversion H as [| ? ? ((u & e & K & U) & Hv) H2]. subst. cbn [fst snd] in *. subst k.
    destruct (value_ok _ Hv) as (w & Tv & Vw).
    assert (C : conv (PStr u, v) (to_string e, w)) by (exists u, e; auto).
    assert (Fresh : hget preh (to_string e) = None).
    { apply hget_none. intro Hi. rewrite map_app in ND. apply NoDup_remove_2 in ND. apply ND, in_or_app. left.
      apply in_map_iff in Hi. destruct Hi as (sw & Es & Hi). clear - F C Es Hi.
      induction F as [| kv sw' pre preh Hc _ IH]; [destruct Hi |]. destruct Hi as [<- | Hi].
      - left. exact (proj2 (conv_key _ _ _ _ Hc C) Es).
      - right. exact (IH Hi). }
    cbn [to_map]. unfold to_key. cbn [as_string]. rewrite (utf8_encoded _ _ U). cbn [option_map]. rewrite Tv, Fresh.
    destruct (IH (pre ++ [(PStr u, v)]) (preh ++ [(to_string e, w)])) as (h & E & F2).
    + apply Forall2_app; [exact F | auto].
    + rewrite <- app_assoc. exact ND.
    + exact H2.
    + exists ((to_string e, w) :: h). rewrite E, <- app_assoc. auto.
Qed.
Lemma conv_nodup items h : Forall2 conv items h -> NoDup (map fst items) -> NoDup (map fst h).
Proof.
  induction 1 as [| kv sw items h C F IH]; intro ND; [constructor |]. inversion ND as [| ? ? N1 N2]. subst.
  cbn [map]. constructor; [| auto]. intro Hi. apply N1. apply in_map_iff in Hi. destruct Hi as (sw' & Es & Hi).
  clear - F C Es Hi. induction F as [| kv' sw2 items h C' _ IH]; [destruct Hi |]. destruct Hi as [<- | Hi].
  - left. exact (proj2 (conv_key _ _ _ _ C' C) Es).
  - right. exact (IH Hi).
Qed.
Lemma conv_keys items h : Forall2 conv items h -> exists us, decode_keys (map fst h) = Some us /\ map PStr us = map fst items.
Proof.
  induction 1 as [| kv sw items h (u & e & K & U & S1 & _) F IH]; [exists []; auto |].
  destruct IH as (us & E & Eq). exists (u :: us). cbn [map decode_keys]. rewrite S1, of_to_string by exact (utf8_bytes _ _ U).
  rewrite (dec_complete _ _ U), E. split; [reflexivity |]. cbn [map]. congruence.
Qed.

Lemma new_trace prog x items smp k b : dict items -> sample_list smp -> key_text k b ->
  exists os st ds us w,
    run start (prog ++ [Assign x (ENewTrace items smp); Samples (EVar x); Keys (EHeaderOf (EVar x)); GetItem (EHeaderOf (EVar x)) k])
    = Some (os ++ [ONothing; OSamples ds; OKeys us; OValue w], st) /\
    Forall2 sample smp ds /\ Permutation.Permutation (map PStr us) (map fst items) /\
    (forall u v, In (PStr u, v) items -> utf8 u b -> exists n, w = Some n /\ is_value v n) /\
    ((forall u v, In (PStr u, v) items -> ~ utf8 u b) -> w = None).
Proof.
  intros (ND & HI) HS HK. destruct (after prog) as (os & st & M & E & _ & I & N & Go).
  destruct (Go [Assign x (ENewTrace items smp); Samples (EVar x); Keys (EHeaderOf (EVar x)); GetItem (EHeaderOf (EVar x)) k]) as (st' & R).
  destruct (samples_ok smp HS) as (ds & Ed & Fd).
  destruct (map_ok items [] [] (Forall2_nil _) ND HI) as (h & Eh & Fh). cbn [app] in Eh.
  destruct (conv_keys _ _ Fh) as (us & Ek & Eus). destruct (key_ok _ _ HK) as (Tk & Bk).
  assert (NDh : NoDup (map fst h)) by exact (conv_nodup _ _ Fh ND).
  assert (Mn : nth_error (M ++ [(h, Some ds)]) (List.length M) = Some (h, Some ds)).
  { rewrite nth_error_app2 by lia. now rewrite Nat.sub_diag. }
  exists os, st', ds, us, (hget h (to_string b)). split; [| split; [exact Fd | split; [rewrite Eus; apply Permutation.Permutation_refl | split]]].
  - rewrite R. do 2 f_equal. f_equal.
    assert (Ex : refer E x (Some (List.length M, false)) x = Some (List.length M, false)) by (unfold refer; now rewrite Nat.eqb_refl).
    assert (T1 : is_trace (M ++ [(h, Some ds)]) (List.length M, false) = true) by (unfold is_trace; cbn [fst snd]; now rewrite Mn).
    assert (T2 : is_trace (M ++ [(h, Some ds)]) (List.length M, true) = false) by (unfold is_trace; cbn [fst snd]; now rewrite Mn).
    set (M' := M ++ [(h, Some ds)]) in *. set (E' := refer E x (Some (List.length M, false))) in *.
    assert (X1 : mexec M E (Assign x (ENewTrace items smp)) = (M', E', ONothing)).
    { cbn [mexec meval]. rewrite Eh, Ed. reflexivity. }
    assert (X2 : mexec M' E' (Samples (EVar x)) = (M', E', OSamples ds)).
    { cbn [mexec]. unfold on_trace. cbn [meval]. rewrite Ex. cbn [fst snd]. rewrite Mn. reflexivity. }
    assert (X3 : mexec M' E' (Keys (EHeaderOf (EVar x))) = (M', E', OKeys us)).
    { cbn [mexec]. unfold on_header. cbn [meval]. rewrite Ex, T1. cbn [fst snd]. rewrite Mn, T2. cbn [fst snd].
      rewrite (replace_same _ _ _ _ Mn). unfold hkeys. rewrite Ek. reflexivity. }
    assert (X4 : mexec M' E' (GetItem (EHeaderOf (EVar x)) k) = (M', E', OValue (hget h (to_string b)))).
    { cbn [mexec]. unfold on_header. cbn [meval]. rewrite Ex, T1. cbn [fst snd]. rewrite Mn, T2. cbn [fst snd].
      rewrite (replace_same _ _ _ _ Mn), Tk. reflexivity. }
    rewrite mrun_cons, X1. cbn [fst snd]. rewrite mrun_cons, X2. cbn [fst snd]. rewrite mrun_cons, X3. cbn [fst snd].
    rewrite mrun_cons, X4. reflexivity.
  - intros u v Hi U. assert (Q : exists n, In (to_string b, n) h /\ is_value v n).
    { clear - Fh Hi U. induction Fh as [| kv sw items h (u' & e & K & U' & S1 & V) _ IH]; [destruct Hi |].
      destruct Hi as [-> | Hi].
      - cbn [fst snd] in *. injection K as ->. rewrite (utf8_det _ _ _ U' U) in S1. exists (snd sw). split; [| exact V].
        left. destruct sw as [s n]. cbn in *. congruence.
      - destruct (IH Hi) as (n & A & B). exists n. split; [right; exact A | exact B]. }
    destruct Q as (n & Q & V). exists n. split; [exact (hget_in _ _ _ NDh Q) | exact V].
  - intro Hno. apply hget_none. intro Hi. apply in_map_iff in Hi. destruct Hi as (sw & Es & Hi).
    clear - Fh Hno Es Hi Bk. induction Fh as [| kv sw' items h (u' & e & K & U' & S1 & V) _ IH]; [destruct Hi |].
    destruct Hi as [-> | Hi].
    + assert (e = b) by (apply to_string_inj; [exact (utf8_bytes _ _ U') | exact Bk | congruence]). subst e.
      destruct kv as [k0 v0]. cbn in K. subst k0. exact (Hno u' v0 (or_introl eq_refl) U').
    + apply IH; [| exact Hi]. intros u v H2. exact (Hno u v (or_intror H2)).
Qed.

(** ** For the examples *)
Lemma utf8_A : utf8 [65] [65].
Proof. apply (UCons 65 [] [65] []); [apply U1; lia | constructor]. Qed.
Lemma utf8_B : utf8 [66] [66].
Proof. apply (UCons 66 [] [66] []); [apply U1; lia | constructor]. Qed.
