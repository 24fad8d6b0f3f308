(** C110: the calls that returned before a SEG-Y writer reports a full disk. *)
From Coq Require Import Lia.
From Verif Require Import BaseFacts Platform TraceHdr SegyTypes SegyCodec ISegy OSegy StepX OSegyX WriterFacts RefuseFacts FileSpec DiskX DiskSpec DiskFacts CrashSpec CrashFacts StartX StartFacts BlankFacts.
Local Open Scope Z_scope.

Lemma plain_call p t s o s' : at_end (o_file s) -> o_min s = MNone \/ o_first s < fpos (o_file s) -> xwrite_trace p t s = (o, s') ->
  exists x, fdata (o_file s') = fdata (o_file s) ++ x.
Proof.
  intros A M H. assert (Q : xwrite_trace p t s = x_rest p t s).
  { assert (Q2 : xwrite_trace p t s = xbind (match o_min s with MNone => xret tt | m => xset_min p m (t_hdr t) end) (fun _ => x_rest p t) s) by reflexivity.
    rewrite Q2. destruct M as [->|M]; [reflexivity|]. unfold xbind at 1.
    assert (K : (match o_min s with MNone => xret tt | m => xset_min p m (t_hdr t) end) s = (Ok tt, s)) by (destruct (o_min s); [reflexivity|apply xset_min_skip; exact M..]).
    rewrite K. reflexivity. }
  rewrite Q in H. destruct (logs_rest p t s []) as (l & _ & R & G & _). destruct (appends_file l G _ A) as (f' & R' & _ & x & D).
  rewrite R in R'. injection R' as R'. rewrite H in R'. cbn [snd] in R'. exists x. rewrite R'. exact D.
Qed.

Lemma client_held cap sch p B ts : forall s k n s' k', follows cap k (o_file s) -> standing s -> client cap sch p s k ts = Ok (DiskFull n, s', k') ->
  (forall j k1, k_ops cap sch (firstn j (all_ops p s ts)) k = (true, k1) -> len (k_buf k1) <= B) ->
  exists t s1 o, nth_error ts n = Some t /\ write_traces p s (firstn n ts) = Ok s1 /\ xwrite_trace p t s1 = (o, s') /\
    (full cap k' (fdata (o_file s1)) \/ full cap k' (fdata (o_file s'))) /\
    len (fdata (o_file s1)) <= cap + B /\ at_end (o_file s1) /\
    (n <> O \/ o_min s = MNone \/ o_first s < fpos (o_file s) -> o_min s1 = MNone \/ o_first s1 < fpos (o_file s1)).
Proof.
  induction ts as [|t ts IH]; intros s k n s' k' F St H K; cbn [client] in H; [discriminate|].
  destruct (call_ok cap sch p t s k F St) as (l & E & _ & S1 & M & Le & R). cbn [all_ops] in K. rewrite E in H, K. cbn [fst snd] in H, K.
  destruct (xwrite_trace p t s) as [o s1] eqn:X. cbn [fst snd] in *. destruct (k_ops cap sch l k) as [[] k1] eqn:Ek.
  - destruct o as [u|x|]; [|discriminate..]. apply bind_ok in H as ([[e1 s2] k2] & C & H).
    destruct e1 as [|m|m]; try discriminate H. injection H as <- <- <-.
    destruct (IH s1 k1 m s2 k2 R S1 C) as (t' & s3 & o & Q1 & Q2 & Q3 & Q4 & Q5 & Q6 & Q7).
    { intros j k3 J. apply (K (List.length l + j)%nat). rewrite firstn_app_2, ops_app, Ek. exact J. }
    exists t', s3, o. cbn [nth_error firstn write_traces]. rewrite (agrees_ok p t s u s1 X). cbn [bind].
    split; [exact Q1|]. split; [exact Q2|]. split; [exact Q3|]. split; [exact Q4|]. split; [exact Q5|]. split; [exact Q6|].
    intros _. apply Q7. right. destruct (trace_grows p s t s1 St (agrees_ok p t s u s1 X)) as (_ & (F1 & M1) & G).
    destruct (o_min s1) eqn:Em; [left; reflexivity|right..]; (destruct S1 as (A1 & _ & P1); rewrite P1 by (rewrite Em; discriminate); unfold at_end in A1; destruct St as (_ & St & _); lia).
  - injection H as <- <- <-. exists t, s, o. cbn [nth_error firstn write_traces]. specialize (K O k eq_refl).
    destruct F as (_ & F1 & F2 & _ & F3). pose proof (proj1 St) as A. unfold at_end in A. split; [reflexivity|]. split; [reflexivity|]. split; [exact X|].
    split; [exact R|]. split; [lia|]. split; [exact A|]. intros [N|M']; [congruence|exact M'].
Qed.

Lemma segy_full cap sch p w bh ls s k ts n s' k' B : len (given_texts w) <= 65536 -> w_open p w bh ls = Ok s -> follows cap k (o_file s) -> 0 <= cap -> 0 <= B ->
  client cap sch p s k ts = Ok (DiskFull n, s', k') ->
  (forall j k1, k_ops cap sch (firstn j (all_ops p s ts)) k = (true, k1) -> len (k_buf k1) <= B) ->
  exists s1, write_traces p s (firstn n ts) = Ok s1 /\ len (fdata (o_file s1)) - B <= len (snd (destroy (is_rev2 w) cap sch s' k')) /\
    (o_min s = MNone \/ n <> O -> firstn (Z.to_nat (len (fdata (o_file s1)) - B)) (snd (destroy (is_rev2 w) cap sch s' k')) =
                        firstn (Z.to_nat (len (fdata (o_file s1)) - B)) (fdata (o_file s1))).
Proof.
  intros Ln Ho F C HB H K. destruct (client_held cap sch p B ts s k n s' k' F (open_standing _ _ _ _ _ Ln Ho) H K) as (t & s1 & o & Q1 & Q2 & Q3 & Q4 & Q5 & Q6 & Q7).
  exists s1. split; [exact Q2|].
  assert (X : exists c, snd (destroy (is_rev2 w) cap sch s' k') = cut cap c /\ cap < len c /\ (o_min s = MNone \/ n <> O -> exists x, c = fdata (o_file s1) ++ x)).
  { destruct Q4 as [Q|Q].
    - exists (fdata (o_file s1)). rewrite (destroy_full _ cap sch s' k' _ Q). split; [reflexivity|]. split; [apply Q|]. intros _. exists []. rewrite app_nil_r. reflexivity.
    - exists (fdata (o_file s')). rewrite (destroy_full _ cap sch s' k' _ Q). split; [reflexivity|]. split; [apply Q|]. intro M. apply (plain_call p t s1 o s' Q6); [|exact Q3]. apply Q7. destruct M; auto. }
  destruct X as (c & -> & L & X).
  assert (Lf : len (cut cap c) = cap) by (unfold cut, len in *; rewrite firstn_length; lia). split; [lia|].
  intro M. destruct (X M) as (x & ->). unfold cut. rewrite firstn_firstn. set (d := fdata (o_file s1)) in *.
  replace (Nat.min (Z.to_nat (len d - B)) (Z.to_nat cap)) with (Z.to_nat (len d - B)) by lia.
  rewrite firstn_app. replace (Z.to_nat (len d - B) - List.length d)%nat with O by (unfold len; lia). cbn [firstn]. apply app_nil_r.
Qed.
