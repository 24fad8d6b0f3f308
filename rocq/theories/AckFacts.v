(** C110: the calls that returned before a SEG-D writer reports a full disk. *)
From Coq Require Import Lia.
From Verif Require Import BaseFacts Platform TraceHdr SegyTypes SegyCodec ISegy OSegy SegdTypes OSegd StepX OSegdX Procs CtorX WriterFacts DRefuseFacts DiskX DiskSpec DiskFacts FileSpec CrashSpec CrashFacts StartX StartFacts
     DiskD DiskDSpec DiskDFacts.
Local Open Scope Z_scope.

Lemma calls_firstn p ts : forall m s, exists l, d_calls_ops p s ts = d_calls_ops p s (firstn m ts) ++ l.
Proof.
  induction ts as [|t ts IH]; intros [|m] s; try (eexists; reflexivity). cbn [firstn d_calls_ops].
  destruct (gd_write_trace p t (s, [])) as [o sl]. destruct (IH m (fst sl)) as (l & ->). exists l. rewrite app_assoc. reflexivity.
Qed.

Lemma client_full cap sch p ts : forall s k bs0 s' bs k', follows cap k (od_file s) -> at_end (od_file s) -> k_at k = len (k_disk k) ->
  d_attempt p s ts = Ok (bs0, s') -> d_client cap sch p s k ts = Ok (DFull bs, k') ->
  exists s1 k1, d_attempt p s (firstn (List.length bs) ts) = Ok (bs, s1) /\ k_ops cap sch (d_calls_ops p s (firstn (List.length bs) ts)) k = (true, k1) /\
    follows cap k1 (od_file s1) /\ at_end (od_file s1) /\ k_at k1 = len (k_disk k1).
Proof.
  induction ts as [|t ts IH]; intros s k bs0 s' bs k' F A Ka H C; cbn [d_attempt d_client] in *; [discriminate|].
  destruct (n_trace p t s []) as (l & E & L & Fo). destruct (xd_write_trace p t s) as [o s1] eqn:Ex. cbn [fst snd] in E, Fo.
  destruct (appends_run cap sch l k _ _ F A Ka L Fo) as (A1 & D1 & R). rewrite E in C. cbn [app snd fst] in C.
  assert (Q : exists bs1, d_attempt p s1 ts = Ok (bs1, s') /\ o <> UB).
  { destruct o; [| |discriminate]; (destruct (d_attempt p s1 ts) as [[bs1 s2]|?|]; cbn [bind] in H; [|discriminate..]; injection H as <- <-; exists bs1;
      split; [reflexivity|discriminate]). }
  destruct Q as (bs1 & Q & Nu). destruct (k_ops cap sch l k) as [[] k1] eqn:Ek.
  - destruct R as (F1 & Ka1).
    assert (X : exists e2 k2, d_client cap sch p s1 k1 ts = Ok (e2, k2) /\ dcons (is_ok o) e2 = DFull bs).
    { destruct o; [| |congruence]; (destruct (d_client cap sch p s1 k1 ts) as [[e2 k2]|?|]; cbn [bind] in C; [|discriminate..]; injection C as C _; eauto). }
    destruct X as (e2 & k2 & X1 & X2). destruct e2 as [| |b2|b2]; try discriminate X2. injection X2 as <-.
    destruct (IH s1 k1 bs1 s' b2 k2 F1 A1 Ka1 Q X1) as (s3 & k3 & Y1 & Y2 & Y3). exists s3, k3. cbn [List.length firstn d_attempt d_calls_ops].
    rewrite E, Ex, Y1. cbn [app fst snd]. split; [destruct o; [reflexivity|reflexivity|congruence]|]. split; [|exact Y3].
    rewrite ops_app, Ek. exact Y2.
  - injection C as <- <-. exists s, k. cbn [List.length firstn d_attempt d_calls_ops k_ops]. auto.
Qed.

Lemma program_full cap sch p a ts r c bs found B : 0 <= cap -> 0 <= B -> on_endless p a ts = Ok (r, c) -> d_program cap sch p a ts = Ok (DFull bs, found) ->
  (forall j k, k_ops cap sch (firstn j (d_program_ops p a ts)) (mkStream [] 0 [] false 0) = (true, k) -> len (k_buf k) <= B) ->
  exists c', on_endless p a (firstn (List.length bs) ts) = Ok (Some bs, c') /\ len c' - B <= len found /\
    firstn (Z.to_nat (len c' - B)) found = firstn (Z.to_nat (len c' - B)) c'.
Proof.
  intros C HB H P K. destruct (program_run cap sch p a ts r c C H) as (e & P1 & P2). rewrite P in P1. injection P1 as <- ->. destruct P2 as (P2 & _).
  pose proof (program_ops p a ts r c H) as (_ & Dc).
  assert (X : exists c', on_endless p a (firstn (List.length bs) ts) = Ok (Some bs, c') /\ len c' <= cap + B /\ exists x, c = c' ++ x).
  { pose proof (fun c' => program_ops p a (firstn (List.length bs) ts) (Some bs) c') as Po.
    unfold on_endless in H, Po |- *. unfold d_program in P. unfold d_program_ops in K, Dc, Po.
    destruct (n_segd p a empty_file []) as (l & E & L & Fo). rewrite E in P, K, Dc, Po. cbn [app fst snd] in P, K, Dc, Po.
    destruct (appends_run cap sch l _ _ _ (new_follows cap C) new_end eq_refl L Fo) as (A1 & D1 & R). unfold idf in *.
    pose proof (segd_file p a) as Sf. destruct (x_segd p a empty_file) as [o f] eqn:Ex. cbn [fst snd] in *.
    destruct (k_ops cap sch l _) as [[] k] eqn:Ek; [|destruct o; discriminate P].
    destruct o as [s|x|]; [|discriminate..]. specialize (Sf s f eq_refl). subst f. destruct R as (F1 & Ka).
    destruct (d_attempt p s ts) as [[bs0 s']|x|] eqn:Ea; cbn [bind] in H; [|discriminate..].
    destruct (d_client cap sch p s k ts) as [[e k1]|x|] eqn:Ec; cbn [bind] in P; [|discriminate..]. injection P as -> _.
    destruct (client_full cap sch p ts s k bs0 s' bs k1 F1 A1 Ka Ea Ec) as (s1 & k2 & Y1 & Y2 & Y3 & Y4 & Y5).
    rewrite Y1 in *. cbn [bind] in *. exists (fdata (od_file s1)). split; [reflexivity|]. destruct (Po _ eq_refl) as (_ & Po2).
    destruct (calls_firstn p ts (List.length bs) s) as (l2 & El). rewrite El in K, Dc. rewrite app_assoc in K, Dc. split.
    - specialize (K (List.length (l ++ d_calls_ops p s (firstn (List.length bs) ts))) k2). rewrite firstn_app, Nat.sub_diag, firstn_all in K. cbn [firstn] in K.
      rewrite app_nil_r, ops_app, Ek in K. specialize (K Y2). destruct Y3 as (_ & Q1 & Q2 & _ & Q3). unfold at_end in Y4. lia.
    - rewrite data_app, Po2 in Dc. exists (data l2). symmetry. exact Dc. }
  destruct X as (c' & X1 & X2 & x & ->). exists c'. split; [exact X1|]. unfold cut. rewrite len_app in P2.
  assert (Lf : len (firstn (Z.to_nat cap) (c' ++ x)) = cap) by (unfold len in *; rewrite firstn_length, app_length; lia).
  split; [lia|]. rewrite firstn_firstn. replace (Nat.min (Z.to_nat (len c' - B)) (Z.to_nat cap)) with (Z.to_nat (len c' - B)) by lia.
  rewrite firstn_app. replace (Z.to_nat (len c' - B) - List.length c')%nat with O by (unfold len; lia). cbn [firstn]. apply app_nil_r.
Qed.

(** ** A stream without a buffer *)
Lemma eager_run cap sch n : (forall i, n <= Z.of_nat (sch i)) -> forall l k k', appends l -> len (data l) <= n -> k_buf k = [] ->
  k_ops cap sch l k = (true, k') -> k_buf k' = [].
Proof.
  intro S. induction l as [|o l IH]; intros k k' L D B H; cbn [k_ops] in H; [injection H as <-; exact B|].
  inversion L as [|? ? (d & ->) L']; subst. unfold data in D. cbn [map concat] in D. fold (data l) in D. rewrite len_app in D.
  pose proof (len_nonneg d). pose proof (len_nonneg (data l)). specialize (S (k_n k)).
  destruct (k_op cap sch (FWrite d) k) as [[] k1] eqn:E; [|discriminate]. apply (IH k1 k' L'); [lia| |exact H].
  unfold k_op in E. destruct (k_bad k); [discriminate|]. cbn [k_n k_disk k_at k_buf] in E. rewrite B in E. cbn [app] in E. unfold k_flush in E. cbn [k_n k_disk k_at k_buf] in E.
  destruct (_ <=? cap); cbn [k_bad negb] in E; [|discriminate]. injection E as <-. cbn [k_buf]. apply skipn_all2. unfold len in *. lia.
Qed.
Lemma eager_ops cap sch p a ts r c j k : on_endless p a ts = Ok (r, c) -> (forall i, len c <= Z.of_nat (sch i)) ->
  k_ops cap sch (firstn j (d_program_ops p a ts)) (mkStream [] 0 [] false 0) = (true, k) -> len (k_buf k) <= 0.
Proof.
  intros H S K. destruct (program_ops p a ts r c H) as (L & D).
  rewrite (eager_run cap sch (len c) S (firstn j (d_program_ops p a ts)) (mkStream [] 0 [] false 0) k); [vm_compute; discriminate| | |reflexivity|exact K].
  - rewrite <- (firstn_skipn j (d_program_ops p a ts)) in L. apply Forall_app in L. apply L.
  - rewrite <- D. rewrite <- (firstn_skipn j (d_program_ops p a ts)) at 2. rewrite data_app, len_app. pose proof (len_nonneg (data (skipn j (d_program_ops p a ts)))). lia.
Qed.
