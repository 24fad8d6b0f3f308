(** Lemmas about the SEG-D writer on a disk of limited size (C109). *)
From Coq Require Import Lia.
From Verif Require Import BaseFacts Platform Fp TraceHdr SegyTypes SegyCodec ISegy OSegy SegdTypes OSegd StepX OSegdX Procs CtorX FileSpec WriterFacts FileFacts
  DiskX DiskSpec DiskFacts CrashSpec CrashFacts StartX StartFacts DiskD DiskDSpec.
Local Open Scope Z_scope.

(** [m] does what [x] does, and notes the writes that make the difference. *)
Definition notes {S A} (pr : S -> file) (m : LG S A) (x : St S A) : Prop := forall s l0, exists l,
  m (s, l0) = (fst (x s), (snd (x s), l0 ++ l)) /\ appends l /\ fops l (pr s) = Ok (pr (snd (x s))).

Section Notes.
Context {S : Type} (pr : S -> file).
Lemma notes_bind {A B} (m : LG S A) x (k : A -> LG S B) y :
  notes pr m x -> (forall a, notes pr (k a) (y a)) -> notes pr (xbind m k) (xbind x y).
Proof.
  intros Hm Hk s l0. destruct (Hm s l0) as (l & E & A1 & F). unfold xbind. rewrite E. destruct (x s) as [[a|e|] s1]; cbn [fst snd] in *.
  - destruct (Hk a s1 (l0 ++ l)) as (l2 & E2 & A2 & F2). exists (l ++ l2). rewrite E2, <- app_assoc.
    split; [reflexivity|]. split; [apply Forall_app; auto|]. rewrite fops_app, F. exact F2.
  - exists l. auto.
  - exists l. auto.
Qed.
Lemma notes_nil {A} (m : LG S A) x : (forall s l0, m (s, l0) = (fst (x s), (snd (x s), l0)) /\ pr (snd (x s)) = pr s) -> notes pr m x.
Proof. intros H s l0. destruct (H s l0) as (E & F). exists []. rewrite app_nil_r. split; [exact E|]. split; [constructor|]. cbn [fops]. rewrite F. reflexivity. Qed.
Lemma notes_lift {A} (o : outcome A) : notes pr (xlift o) (xlift o).
Proof. apply notes_nil. auto. Qed.
Lemma notes_ret {A} (a : A) : notes pr (xret a) (xret a).
Proof. apply notes_nil. auto. Qed.
Lemma notes_throw {A} e : notes pr (@xthrow _ A e) (xthrow e).
Proof. apply notes_nil. auto. Qed.
Lemma notes_get : notes pr (g_do xget) xget.
Proof. apply notes_nil. auto. Qed.
Lemma notes_ext {A} (m : LG S A) x y : (forall s, x s = y s) -> notes pr m x -> notes pr m y.
Proof. intros E H s l0. rewrite <- E. apply H. Qed.
End Notes.

Definition idf (f : file) : file := f.
Lemma n_write d : notes idf (gf_write d) (xf_write d).
Proof. intros f l0. exists [FWrite d]. split; [reflexivity|]. split; [repeat constructor; eauto|]. reflexivity. Qed.
Lemma n_block n w : notes idf (gf_block n w) (xf_block n w).
Proof. apply notes_bind; [apply notes_lift|]. intro. apply n_write. Qed.
Lemma n_gNs p m : notes idf (gf_gNs p m) (xf_gNs p m).
Proof.
  induction m as [|[k []] m IH]; cbn [gf_gNs xf_gNs]; [apply notes_ret| |apply notes_lift]. apply notes_bind; [apply n_block|]. intros []. exact IH.
Qed.
Lemma n_ch_sets p g1 g2 cs : notes idf (gf_ch_sets p g1 g2 cs) (xf_ch_sets p g1 g2 cs).
Proof.
  induction cs as [|c cs IH]; cbn [gf_ch_sets xf_ch_sets]; [apply notes_ret|]. apply notes_bind; [|intros []; exact IH].
  destruct (_ && _); [apply notes_lift|apply n_block].
Qed.
Lemma n_zeros n : notes idf (gf_zeros n) (xf_zeros n).
Proof. induction n as [|n IH]; cbn [gf_zeros xf_zeros]; [apply notes_ret|]. apply notes_bind; [apply n_write|intros []; exact IH]. Qed.
Lemma n_scan_types p g1 g2 sets : notes idf (gf_scan_types p g1 g2 sets) (xf_scan_types p g1 g2 sets).
Proof.
  induction sets as [|cs sets IH]; cbn [gf_scan_types xf_scan_types]; [apply notes_ret|]. destruct (negb _); [apply notes_throw|].
  apply notes_bind; [apply n_ch_sets|intros []]. apply notes_bind; [apply n_zeros|intros []; exact IH].
Qed.
Lemma n_blks n : forall bs, notes idf (gf_blks n bs) (xf_blks n bs).
Proof.
  induction n as [|n IH]; intros [|b bs]; cbn [gf_blks xf_blks]; try apply notes_ret; [apply notes_lift|]. destruct (_ <? 32); [apply notes_lift|].
  apply notes_bind; [apply n_write|intros []; apply IH].
Qed.
Lemma n_segd p a : notes idf (g_segd p a) (x_segd p a).
Proof.
  unfold g_segd, x_segd. cbv zeta. apply notes_bind; [apply notes_lift|intro m]. destruct (negb _); [apply notes_throw|].
  apply notes_bind; [apply notes_lift|intros _]. apply notes_bind; [apply n_block|intros []]. apply notes_bind; [apply n_block|intros []].
  apply notes_bind; [apply n_gNs|intros []]. apply notes_bind; [apply n_scan_types|intros []].
  apply notes_bind; [apply n_blks|intros []]. apply notes_bind; [apply n_blks|intros []]. apply notes_bind; [apply notes_get|intro]. apply notes_ret.
Qed.

Lemma n_put d : notes od_file (gd_put d) (xd_put d).
Proof. intros s l0. exists [FWrite d]. split; [reflexivity|]. split; [repeat constructor; eauto|]. reflexivity. Qed.
Lemma n_exts p h n : forall i, notes od_file (gd_exts p h n i) (xd_exts p h n i).
Proof.
  induction n as [|n IH]; intro i; cbn [gd_exts xd_exts]; [apply notes_ret|]. apply notes_bind; [apply notes_get|intro s].
  destruct (p_flat_bufs p); [|apply notes_lift]. apply notes_bind; [apply notes_lift|intro b]. apply notes_bind; [apply n_put|intros []; apply IH].
Qed.
Lemma n_samples p t : notes od_file (gd_samples p t) (xd_samples p t).
Proof.
  intros s l0. unfold gd_samples, xd_samples, xbind, xlift, g_do, xget, xd_buf. cbn [fst snd].
  destruct (d_sample_writer p (g1_format_code (od_g1 s))) as [[bits sw]|e|]; cbn [fst snd];
    [|exists []; rewrite app_nil_r; split; [reflexivity|split; [constructor|reflexivity]]..].
  destruct (o_samp_buf p s (len (t_smp t)) bits) as [buf|e|]; cbn [fst snd];
    [|exists []; rewrite app_nil_r; split; [reflexivity|split; [constructor|reflexivity]]..].
  destruct (o_ch_set s (t_hdr t)) as [c|e|]; cbn [fst snd];
    [|exists []; rewrite app_nil_r; split; [reflexivity|split; [constructor|reflexivity]]..].
  destruct (write_smps p sw (od_pend s) _ buf) as [[pend dc]|e|]; cbn [fst snd];
    [|exists []; rewrite app_nil_r; split; [reflexivity|split; [constructor|reflexivity]]..].
  exists [FWrite (fst dc ++ snd dc)]. split; [reflexivity|]. split; [repeat constructor; eauto|reflexivity].
Qed.
Lemma n_trace p t : notes od_file (gd_write_trace p t) (xd_write_trace p t).
Proof.
  unfold gd_write_trace, xd_write_trace. apply notes_bind; [apply notes_get|intro s]. destruct (_ =? _); [apply notes_throw|].
  apply notes_bind; [apply notes_bind; [apply notes_lift|intro; apply n_put]|intros []]. apply notes_bind; [apply notes_lift|intro].
  apply notes_bind; [apply n_exts|intros []]. apply n_samples.
Qed.

(** ** The stream *)
Lemma appends_run cap sch l k f f' : follows cap k f -> at_end f -> k_at k = len (k_disk k) -> appends l -> fops l f = Ok f' ->
  at_end f' /\ fdata f' = fdata f ++ data l /\
  match k_ops cap sch l k with
  | (true, k') => follows cap k' f' /\ k_at k' = len (k_disk k')
  | (false, k') => full cap k' (fdata f')
  end.
Proof.
  intros F A Ka L H. pose proof (appends_straight l L (len (fdata f))) as S.
  destruct (straight_file l f A S) as (f1 & E & A1 & D). rewrite H in E. injection E as <-.
  split; [exact A1|]. split; [exact D|]. exact (straight_run cap sch l k f f' F A Ka S H).
Qed.

(** The calls.  [beginning bs rs]: the program came to its end, or stopped. *)
Definition agrees (cap : Z) (e : dend) (k : stream) (bs : list bool) (f : file) : Prop :=
  match e with
  | DDone bs' => bs' = bs /\ follows cap k f
  | DFull bs' => (exists b more, bs = bs' ++ b :: more) /\ full cap k (fdata f)
  | _ => False
  end.
Lemma attempt_grows p ts : forall s bs s', at_end (od_file s) -> d_attempt p s ts = Ok (bs, s') ->
  at_end (od_file s') /\ exists x, fdata (od_file s') = fdata (od_file s) ++ x.
Proof.
  induction ts as [|t ts IH]; intros s bs s' A H; cbn [d_attempt] in H.
  - injection H as _ <-. split; [exact A|]. exists []. rewrite app_nil_r. reflexivity.
  - destruct (n_trace p t s []) as (l & _ & L & F). destruct (appends_file l L (od_file s) A) as (f1 & E & A1 & x & X). rewrite F in E. injection E as E.
    destruct (xd_write_trace p t s) as [o s1]. cbn [snd] in *. subst f1.
    assert (Q : exists bs1, d_attempt p s1 ts = Ok (bs1, s')).
    { destruct o; [| |discriminate]; (destruct (d_attempt p s1 ts) as [[bs1 s2]|?|]; cbn [bind] in H; [|discriminate..]; injection H as _ <-; eauto). }
    destruct Q as (bs1 & Q). destruct (IH s1 bs1 s' A1 Q) as (A2 & y & Y). split; [exact A2|]. exists (x ++ y). rewrite Y, X, app_assoc. reflexivity.
Qed.
Lemma client_agrees cap sch p ts : forall s k bs s', follows cap k (od_file s) -> at_end (od_file s) -> k_at k = len (k_disk k) ->
  d_attempt p s ts = Ok (bs, s') -> exists e k', d_client cap sch p s k ts = Ok (e, k') /\ agrees cap e k' bs (od_file s').
Proof.
  induction ts as [|t ts IH]; intros s k bs s' F A Ka H; cbn [d_attempt d_client] in *.
  - injection H as <- <-. exists (DDone []), k. cbn [agrees]. auto.
  - destruct (n_trace p t s []) as (l & E & L & Fo). destruct (xd_write_trace p t s) as [o s1] eqn:Ex. cbn [fst snd] in E, Fo.
    destruct (appends_run cap sch l k _ _ F A Ka L Fo) as (A1 & D1 & R). rewrite E. cbn [app snd fst].
    assert (Q : exists bs1, d_attempt p s1 ts = Ok (bs1, s') /\ bs = is_ok o :: bs1 /\ o <> UB).
    { destruct o; [| |discriminate]; (destruct (d_attempt p s1 ts) as [[bs1 s2]|?|]; cbn [bind] in H; [|discriminate..]; injection H as <- <-; exists bs1;
        split; [reflexivity|]; split; [reflexivity|discriminate]). }
    destruct Q as (bs1 & Q & -> & Nu). destruct (k_ops cap sch l k) as [[] k1].
    + destruct R as (F1 & Ka1). destruct (IH s1 k1 bs1 s' F1 A1 Ka1 Q) as (e & k' & Ec & Ag).
      exists (dcons (is_ok o) e), k'. split.
      * destruct o; [| |congruence]; rewrite Ec; reflexivity.
      * destruct e; cbn [dcons agrees] in *; try tauto.
        -- destruct Ag as (-> & Ag). auto.
        -- destruct Ag as ((b & more & ->) & Ag). split; [|exact Ag]. exists b, more. reflexivity.
    + exists (DFull []), k1. split; [reflexivity|]. cbn [agrees]. split; [exists (is_ok o), bs1; reflexivity|].
      destruct (attempt_grows p ts s1 bs1 s' A1 Q) as (_ & x & X). rewrite X. apply full_app, R.
Qed.

(** The program. *)
Lemma new_follows cap : 0 <= cap -> follows cap (mkStream [] 0 [] false 0) empty_file.
Proof. intro C. unfold holds_file. cbn. change (len (@nil Z)) with 0. repeat split; try lia. Qed.
Lemma new_end : at_end empty_file. Proof. reflexivity. Qed.
Lemma segd_file p a s f : x_segd p a empty_file = (Ok s, f) -> od_file s = f.
Proof.
  unfold x_segd. cbv zeta. generalize empty_file as f0. unfold xbind, xlift, xget, xret, xthrow. intro f0.
  repeat match goal with |- context [match ?x with _ => _ end] => destruct x; try discriminate end.
  intro H. injection H as <- <-. reflexivity.
Qed.

Lemma program_run cap sch p a ts r c : 0 <= cap -> on_endless p a ts = Ok (r, c) -> exists e, d_program cap sch p a ts = Ok (e, cut cap c) /\
  match e with
  | DRefused => r = None
  | DNoRoom => cap < len c
  | DDone bs => r = Some bs
  | DFull bs => cap < len c /\ exists b more, r = Some (bs ++ b :: more)
  end.
Proof.
  intros C H. unfold on_endless in H. unfold d_program. destruct (n_segd p a empty_file []) as (l & E & L & Fo). rewrite E. clear E. cbn [app fst snd].
  destruct (appends_run cap sch l _ _ _ (new_follows cap C) new_end eq_refl L Fo) as (A1 & D1 & R). unfold idf in *.
  pose proof (segd_file p a) as Sf. destruct (x_segd p a empty_file) as [o f] eqn:Ex. cbn [fst snd] in *.
  destruct (k_ops cap sch l _) as [[] k].
  - destruct R as (F1 & Ka). destruct o as [s|x|]; [| |discriminate].
    + specialize (Sf s f eq_refl). subst f. destruct (d_attempt p s ts) as [[bs s']|x|] eqn:Ea; cbn [bind] in H; [|discriminate..]. injection H as <- <-.
      destruct (client_agrees cap sch p ts s k bs s' F1 A1 Ka Ea) as (e & k' & Ec & Ag). rewrite Ec. cbn [bind]. exists e.
      destruct e; cbn [agrees] in Ag; try tauto.
      * destruct Ag as (-> & Ag). rewrite (close_follows cap k' _ Ag). auto.
      * destruct Ag as ((b & more & ->) & Ag). rewrite (close_full cap k' _ Ag). split; [reflexivity|]. split; [apply Ag|eauto].
    + injection H as <- <-. exists DRefused. rewrite (close_follows cap k f F1). auto.
  - exists DNoRoom. rewrite (close_full cap k _ R).
    assert (Q : exists x, c = fdata f ++ x).
    { destruct o as [s|x|]; [| |discriminate].
      - specialize (Sf s f eq_refl). subst f. destruct (d_attempt p s ts) as [[bs s']|x|] eqn:Ea; cbn [bind] in H; [|discriminate..]. injection H as <- <-.
        exact (proj2 (attempt_grows p ts s bs s' A1 Ea)).
      - injection H as <- <-. exists []. rewrite app_nil_r. reflexivity. }
    destruct Q as (x & ->). pose proof (close_full cap k _ (full_app cap k _ x R)) as Q1. rewrite (close_full cap k _ R) in Q1. rewrite <- Q1.
    split; [reflexivity|]. apply (full_app cap k _ x R).
Qed.

(** ** A killed program *)
Lemma calls_ops p ts : forall s bs s', at_end (od_file s) -> d_attempt p s ts = Ok (bs, s') ->
  appends (d_calls_ops p s ts) /\ fdata (od_file s') = fdata (od_file s) ++ data (d_calls_ops p s ts).
Proof.
  induction ts as [|t ts IH]; intros s bs s' A H; cbn [d_attempt d_calls_ops] in *.
  - injection H as _ <-. split; [constructor|]. unfold data. cbn [map concat]. rewrite app_nil_r. reflexivity.
  - destruct (n_trace p t s []) as (l & E & L & F). rewrite E. cbn [app fst snd].
    destruct (straight_file l (od_file s) A (appends_straight l L _)) as (f1 & E1 & A1 & D1). rewrite F in E1. injection E1 as <-.
    destruct (xd_write_trace p t s) as [o s1]. cbn [fst snd] in *.
    assert (Q : exists bs1, d_attempt p s1 ts = Ok (bs1, s')).
    { destruct o; [| |discriminate]; (destruct (d_attempt p s1 ts) as [[bs1 s2]|?|]; cbn [bind] in H; [|discriminate..]; injection H as _ <-; eauto). }
    destruct Q as (bs1 & Q). destruct (IH s1 bs1 s' A1 Q) as (L2 & D2). split; [apply Forall_app; auto|].
    rewrite D2, D1, data_app, app_assoc. reflexivity.
Qed.
Lemma program_ops p a ts r c : on_endless p a ts = Ok (r, c) -> appends (d_program_ops p a ts) /\ data (d_program_ops p a ts) = c.
Proof.
  intros H. unfold on_endless in H. unfold d_program_ops. destruct (n_segd p a empty_file []) as (l & E & L & Fo). rewrite E. clear E. cbn [app fst snd].
  destruct (straight_file l empty_file new_end (appends_straight l L _)) as (f1 & E1 & A1 & D1). unfold idf in *. rewrite Fo in E1. injection E1 as <-.
  pose proof (segd_file p a) as Sf. destruct (x_segd p a empty_file) as [[s|x|] f] eqn:Ex; cbn [fst snd] in *; [| |discriminate].
  - specialize (Sf s f eq_refl). subst f. destruct (d_attempt p s ts) as [[bs s']|x|] eqn:Ea; cbn [bind] in H; [|discriminate..]. injection H as _ <-.
    destruct (calls_ops p ts s bs s' A1 Ea) as (L2 & D2). split; [apply Forall_app; auto|]. rewrite D2, D1, data_app. reflexivity.
  - injection H as _ <-. rewrite app_nil_r. split; [exact L|]. rewrite D1. reflexivity.
Qed.
Lemma program_killed cap sch p a ts r c j : 0 <= cap -> on_endless p a ts = Ok (r, c) ->
  exists q, 0 <= q <= len c /\ k_disk (snd (k_ops cap sch (firstn j (d_program_ops p a ts)) (mkStream [] 0 [] false 0))) = firstn (Z.to_nat q) c.
Proof.
  intros C H. destruct (program_ops p a ts r c H) as (L & D).
  pose proof (straight_firstn j _ _ (appends_straight _ L (len (fdata empty_file)))) as S.
  destruct (straight_disk cap sch _ empty_file _ (new_follows cap C) new_end eq_refl S) as (q & Q1 & Q2).
  change (fdata empty_file) with (@nil Z) in *. cbn [app] in *.
  assert (P : c = data (firstn j (d_program_ops p a ts)) ++ data (skipn j (d_program_ops p a ts))) by (rewrite <- data_app, firstn_skipn; auto).
  exists q. rewrite Q2. rewrite P, len_app. pose proof (len_nonneg (data (skipn j (d_program_ops p a ts)))). split; [lia|].
  rewrite firstn_app. replace (Z.to_nat q - List.length (data (firstn j (d_program_ops p a ts))))%nat with 0%nat by (unfold len in Q1; lia).
  cbn [firstn]. rewrite app_nil_r. reflexivity.
Qed.
