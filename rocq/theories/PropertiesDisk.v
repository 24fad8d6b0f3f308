(** C105: a disk that becomes full while SEG-Y traces are written. *)
From Coq Require Import Reals.
From Verif Require Import BaseFacts Platform Fp TraceHdr SegyTypes SegyCodec LayoutSpec ISegy OSegy StepX OSegyX WriterFacts RoundSpec FileSpec
     RefuseFacts DiskX DiskSpec DiskFacts PropertiesCodec PropertiesRound PropertiesRefuse.
Local Open Scope Z_scope.

(** Whatever the stream does with its buffer: the calls before the end did what
    they do on a disk without an end, and what is found on the disk afterwards is
    the beginning of the file that a disk without an end would have. *)
Theorem C105_file : forall p w bh ls s k cap sch ts e s' k', len (given_texts w) <= 65536 -> w_open p w bh ls = Ok s ->
  holds_file cap k (o_file s) -> client cap sch p s k ts = Ok (e, s', k') -> len (fdata (o_file s')) < 2 ^ 63 ->
  let found := snd (destroy (is_rev2 w) cap sch s' k') in
  match e with
  | AllWritten => write_traces p s ts = Ok s' /\ found = cut cap (fdata (o_file s') ++ stanza_bytes w s')
  | Refused n => exists t s1 x, nth_error ts n = Some t /\ write_traces p s (firstn n ts) = Ok s1 /\
      xwrite_trace p t s1 = (Throw x, s') /\ found = cut cap (fdata (o_file s') ++ stanza_bytes w s')
  | DiskFull n => exists t s1 o c, nth_error ts n = Some t /\ write_traces p s (firstn n ts) = Ok s1 /\
      xwrite_trace p t s1 = (o, s') /\ (c = fdata (o_file s1) \/ c = fdata (o_file s')) /\
      cap < len c /\ found = cut cap c
  end.
Proof.
  intros p w bh ls s k cap sch ts e s' k' Ln Ho F C L. cbv zeta.
  pose proof (client_ends cap sch p ts s k e s' k' F (open_standing _ _ _ _ _ Ln Ho) C) as Q. destruct e as [|n|n].
  - destruct Q as (W & F' & St). destruct (destroy_follows w cap sch s' k' F' (proj1 St) L) as (b & D & _). rewrite D. split; [exact W|reflexivity].
  - destruct Q as (t & s1 & x & N & W & X & F' & St). destruct (destroy_follows w cap sch s' k' F' (proj1 St) L) as (b & D & _). rewrite D.
    exists t, s1, x. auto.
  - destruct Q as (t & s1 & o & N & W & X & [Fu|Fu] & _); pose proof (destroy_full (is_rev2 w) cap sch s' k' _ Fu) as D; rewrite D;
      exists t, s1, o; eexists; (split; [exact N|split; [exact W|split; [exact X|split; [|split; [exact (proj2 (proj2 Fu))|reflexivity]]]]]); auto.
Qed.
Print Assumptions C105_file.

(** The client gets no other answers: undefined behaviour only where the call has
    it on any disk. *)
Theorem C105_answers : forall p w bh ls s k cap sch ts, len (given_texts w) <= 65536 -> w_open p w bh ls = Ok s ->
  holds_file cap k (o_file s) ->
  (exists e s' k', client cap sch p s k ts = Ok (e, s', k')) \/
  (exists n t s1 s2, nth_error ts n = Some t /\ write_traces p s (firstn n ts) = Ok s1 /\ xwrite_trace p t s1 = (UB, s2)).
Proof.
  intros p w bh ls s k cap sch ts Ln Ho F. destruct (client_ub cap sch p ts s k F (open_standing _ _ _ _ _ Ln Ho)) as (T & U).
  destruct (client cap sch p s k ts) as [[[e s'] k']|x|]; [left; eauto|destruct (T x eq_refl)|right; exact (U eq_refl)].
Qed.
Print Assumptions C105_answers.

(** With room for the whole file nothing fails and the file is complete. *)
Theorem C105_room : forall p w bh ls s k cap sch ts s', len (given_texts w) <= 65536 -> w_open p w bh ls = Ok s ->
  holds_file cap k (o_file s) -> write_traces p s ts = Ok s' -> len (fdata (o_file s') ++ stanza_bytes w s') <= cap -> cap < 2 ^ 63 ->
  exists k', client cap sch p s k ts = Ok (AllWritten, s', k') /\
    destroy (is_rev2 w) cap sch s' k' = (true, fdata (o_file s') ++ stanza_bytes w s').
Proof.
  intros p w bh ls s k cap sch ts s' Ln Ho F W R C.
  assert (R1 : len (fdata (o_file s')) <= cap) by (rewrite len_app in R; pose proof (len_nonneg (stanza_bytes w s')); lia).
  destruct (client_room cap sch p ts s k s' F (open_standing _ _ _ _ _ Ln Ho) W R1) as (k' & E & F' & St). exists k'. split; [exact E|].
  destruct (destroy_follows w cap sch s' k' F' (proj1 St)) as (b & D & B & _); [lia|]. rewrite D. unfold cut.
  rewrite firstn_all2 by (unfold len in R; lia). destruct b; [reflexivity|]. destruct (B eq_refl) as (B1 & _). lia.
Qed.
Print Assumptions C105_room.

(** That every call returns and the program ends normally does not mean that the
    file is complete: with revisions 0 and 1 the bytes still in the buffer are
    lost without a word. *)
Theorem C105_silent_refuted : forall p w bh ls s k cap ts s', len (given_texts w) <= 65536 -> w_open p w bh ls = Ok s ->
  o_min s = MNone -> is_rev2 w = false -> holds_file cap k (o_file s) -> write_traces p s ts = Ok s' ->
  cap < len (fdata (o_file s')) < 2 ^ 63 ->
  exists sch k', client cap sch p s k ts = Ok (AllWritten, s', k') /\
    destroy (is_rev2 w) cap sch s' k' = (true, cut cap (fdata (o_file s'))) /\ cut cap (fdata (o_file s')) <> fdata (o_file s').
Proof.
  intros p w bh ls s k cap ts s' Ln Ho M R F W C. exists (fun _ => O).
  destruct (client_lazy cap (fun _ => O) p ts (fun _ => eq_refl) s k s' F (open_standing _ _ _ _ _ Ln Ho) M W) as (k' & E & F').
  exists k'. split; [exact E|]. rewrite R. unfold destroy. rewrite (close_follows _ _ _ F'). split; [reflexivity|].
  intro X. apply (f_equal len) in X. destruct F as (_ & ? & ? & _). unfold cut, len in *. rewrite firstn_length in X. lia.
Qed.
Print Assumptions C105_silent_refuted.

(** Nor does the program get an exception that it could handle and go on: with
    revision 2 the end of the life of the writer is the end of the program, both
    after a call that met the full disk and when the disk had no room for bytes
    that were still in the buffer. *)
Theorem C105_rev2_terminates_refuted : forall p w bh ls s k cap sch ts e s' k', len (given_texts w) <= 65536 -> w_open p w bh ls = Ok s ->
  is_rev2 w = true -> holds_file cap k (o_file s) -> client cap sch p s k ts = Ok (e, s', k') ->
  cap < len (fdata (o_file s')) < 2 ^ 63 -> fst (destroy (is_rev2 w) cap sch s' k') = false.
Proof.
  intros p w bh ls s k cap sch ts e s' k' Ln Ho R F C L.
  pose proof (client_ends cap sch p ts s k e s' k' F (open_standing _ _ _ _ _ Ln Ho) C) as Q. destruct e as [|n|n].
  - destruct Q as (W & F' & St). destruct (destroy_follows w cap sch s' k' F' (proj1 St)) as (b & D & _ & B); [lia|]. rewrite D.
    apply B; [exact R|lia].
  - destruct Q as (t & s1 & x & N & W & X & F' & St). destruct (destroy_follows w cap sch s' k' F' (proj1 St)) as (b & D & _ & B); [lia|].
    rewrite D. apply B; [exact R|lia].
  - destruct Q as (t & s1 & o & N & W & X & [Fu|Fu] & _); rewrite (destroy_full (is_rev2 w) cap sch s' k' _ Fu), R; reflexivity.
Qed.
Print Assumptions C105_rev2_terminates_refuted.

(** Two traces of 256 and 248 bytes behind 3600 bytes of headers.  Room for 3900
    bytes: with a stream that stores everything at once the second call throws;
    with one that keeps everything in its buffer both calls return.  With
    revision 2 the program does not survive. *)
Definition fresh (s : osegy) : stream := mkStream (fdata (o_file s)) (fpos (o_file s)) [] false 0.
Definition on_disk (w : writer) (bh : bin_hdr) (cap : Z) (sch : nat -> nat) (ts : list trace) : outcome (ending * bool * Z) :=
  let* s := w_open plat_example w bh maps_num in
  let* (x, k) := client cap sch plat_example s (fresh s) ts in
  let (e, s') := (x : ending * osegy) in
  let (b, c) := destroy (is_rev2 w) cap sch s' k in Ok (e, b, len c).
Example C105_case :
  (exists s, w_open plat_example (W1 []) rev1_var maps_num = Ok s /\ o_min s = MNone /\ holds_file 3900 (fresh s) (o_file s) /\
     exists s', write_traces plat_example s [var_trace [7; 8]; var_trace [9]] = Ok s' /\ len (fdata (o_file s')) = 4104) /\
  on_disk (W1 []) rev1_var 3900 (fun _ => 5000%nat) [var_trace [7; 8]; var_trace [9]] = Ok (DiskFull 1, true, 3900) /\
  on_disk (W1 []) rev1_var 3900 (fun _ => O) [var_trace [7; 8]; var_trace [9]] = Ok (AllWritten, true, 3900) /\
  on_disk (W1 []) rev1_var 4104 (fun i => i) [var_trace [7; 8]; var_trace [9]] = Ok (AllWritten, true, 4104) /\
  on_disk (W0 []) bin_zero 3600 (fun _ => O) [var_trace [7; 8]; var_trace [9]] = Ok (AllWritten, true, 3600) /\
  on_disk (W2 [] []) (set_rev two_samples 2 1 0) 3900 (fun _ => 5000%nat) [var_trace [7; 8]; var_trace [9]] = Ok (DiskFull 1, false, 3900) /\
  on_disk (W2 [] []) (set_rev two_samples 2 1 0) 3900 (fun _ => O) [var_trace [7; 8]; var_trace [9]] = Ok (AllWritten, false, 3900).
Proof.
  split; [|repeat split; vm_compute; reflexivity].
  destruct (w_open plat_example (W1 []) rev1_var maps_num) as [s|x|] eqn:E; [|vm_compute in E; discriminate E..].
  assert (Q : (let* s := w_open plat_example (W1 []) rev1_var maps_num in
               let* s' := write_traces plat_example s [var_trace [7; 8]; var_trace [9]] in
               Ok (len (fdata (o_file s)), fpos (o_file s), o_min s, len (fdata (o_file s')))) = Ok (3600, 3600, MNone, 4104)) by (vm_compute; reflexivity).
  rewrite E in Q. cbn [bind] in Q. exists s. split; [reflexivity|].
  destruct (write_traces plat_example s [var_trace [7; 8]; var_trace [9]]) as [s'|x|]; [|discriminate Q..]. cbn [bind] in Q.
  injection Q as Q1 Q2 Q3 Q4. split; [exact Q3|]. split; [|exists s'; split; [reflexivity|exact Q4]].
  unfold holds_file, fresh. cbn [k_bad k_at k_disk k_buf]. rewrite over_nil by lia. change (len (@nil Z)) with 0. repeat split; lia.
Qed.
