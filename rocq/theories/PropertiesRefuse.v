(** C63: a SEG-Y writer that goes on after an exception. *)
From Coq Require Import Reals.
From Verif Require Import BaseFacts Platform Fp TraceHdr SegyTypes SegyCodec LayoutSpec ISegy OSegy StepX OSegyX WriterFacts RoundSpec FileSpec
     SegyEncSpec SegyEncFacts3 RefuseSpec RefuseFacts PropertiesCodec PropertiesRound.
Local Open Scope Z_scope.

(** A call has the outcome given in OSegy.v, and a successful call leaves the
    object given there. *)
Theorem C63_same_calls : forall p t s,
  fst (xwrite_trace p t s) = (let* _ := write_trace p s t in Ok tt) /\
  (forall s', write_trace p s t = Ok s' -> snd (xwrite_trace p t s) = s').
Proof.
  intros p t s. pose proof (xwrite_agrees p t s) as H. destruct (write_trace p s t) as [s1|e|]; cbn [agrees bind] in *.
  - rewrite H. split; [reflexivity|]. intros s' K. injection K as <-. reflexivity.
  - destruct H as (s' & ->). split; [reflexivity|discriminate].
  - destruct H as (s' & ->). split; [reflexivity|discriminate].
Qed.
Print Assumptions C63_same_calls.

(** C63.  A client that goes on after refused traces ends with the object, and
    the file, of a client that wrote the accepted traces alone.  Needed: nothing
    about a trace comes to light after its first header block was written, and
    some trace was accepted or the caller gave a binary header. *)
Theorem C63_refused_traces_partial : forall p w bh ls ts s bs s',
  sane_alloc p -> len (given_texts w) <= 65536 -> w_open p w bh ls = Ok s ->
  Forall (early p w bh ls) ts -> attempt p s ts = Ok (bs, s') ->
  accepted bs ts <> [] \/ ~ blank w bh ->
  write_traces p s (accepted bs ts) = Ok s'.
Proof.
  intros p w bh ls ts s bs s' HA Ln Ho He Ha Hn.
  destruct (attempt_all p w bh ls ts s bs s' HA Ln Ho He Ha) as [K|(N & M & _)]; [exact K|]. exfalso.
  destruct Hn as [Hn|Hn]; [exact (Hn N)|]. apply Hn.
  destruct (w_open_bin p w bh ls s Ho Ln) as (t0 & ext & _ & K & _). exact (proj2 (K M)).
Qed.
Print Assumptions C63_refused_traces_partial.

(** When every trace was refused, no trace is in the file. *)
Theorem C63_none_accepted_partial : forall p w bh ls ts s bs s',
  sane_alloc p -> len (given_texts w) <= 65536 -> w_open p w bh ls = Ok s ->
  Forall (early p w bh ls) ts -> attempt p s ts = Ok (bs, s') -> accepted bs ts = [] ->
  len (fdata (o_file s')) = len (fdata (o_file s)) /\
  firstn (Z.to_nat 3200) (fdata (o_file s')) = firstn (Z.to_nat 3200) (fdata (o_file s)).
Proof.
  intros p w bh ls ts s bs s' HA Ln Ho He Ha Hn.
  destruct (attempt_all p w bh ls ts s bs s' HA Ln Ho He Ha) as [K|(_ & M & W)].
  - rewrite Hn in K. cbn [write_traces] in K. injection K as ->. split; reflexivity.
  - pose proof (open_waits p w bh ls s Ln Ho M) as (_ & _ & _ & (x & b & D & L1 & L2 & T) & _).
    destruct W as (_ & _ & _ & (x' & b' & D' & L1' & L2' & T') & _).
    rewrite D, D', !len_app, L1, L2, L1', L2'. split; [reflexivity|].
    assert (Q : forall u v : list Z, len u = 3200 -> firstn (Z.to_nat 3200) (u ++ v) = u).
    { intros u v Lu. unfold len in Lu. rewrite firstn_app, firstn_all2 by lia.
      replace (Z.to_nat 3200 - List.length u)%nat with 0%nat by lia. cbn [firstn]. apply app_nil_r. }
    rewrite !Q by assumption. rewrite <- T', <- T. reflexivity.
Qed.
Print Assumptions C63_none_accepted_partial.

Definition counted_trace (n : Z) (smp : list Z) : trace :=
  mkTrace [("A"%string, VInt 3); ("SAMP_NUM"%string, VInt n); ("SAMP_INT"%string, VInt 4)] smp.
Definition real_trace (k : string) (smp : list Z) : trace :=
  mkTrace [(k, VDbl 4611686018427387904); ("SAMP_NUM"%string, VInt (len smp)); ("SAMP_INT"%string, VInt 4)] smp.
Definition rev1_var : bin_hdr := set_rev two_samples 1 0 0.
Definition rev2_three : bin_hdr := set_add (set_rev two_samples 2 1 0) 2 0.
Definition maps_three : layouts :=
  [("SEG00000"%string, lay_num); ("SEG00001"%string, [(0, ("X"%string, I32))]); ("SEG00002"%string, [])].

(** The flags and the file of a client that goes on, and the file of one that
    writes only the given traces. *)
Definition go_on (w : writer) (bh : bin_hdr) (ls : layouts) (ts : list trace) : outcome (list bool * list Z) :=
  let* s := w_open plat_example w bh ls in
  let* (bs, s') := attempt plat_example s ts in Ok (bs, fdata (o_file s')).
Definition only (w : writer) (bh : bin_hdr) (ls : layouts) (ts : list trace) : outcome (list Z) :=
  let* s := w_open plat_example w bh ls in
  let* s' := write_traces plat_example s ts in Ok (fdata (o_file s')).
Definition back (ls : layouts) (c : list Z) :=
  let* s := isegy_open plat_example c ls in
  let* (ts, _) := read_all plat_example 9 s in Ok (map show_num ts).

(** The condition on the sample count is needed: a trace with a negative count
    is refused after its header was written, and from there on the file cannot
    be read. *)
Theorem C63_negative_count_refuted :
  let ts := [var_trace [7; 8]; counted_trace (-1) []; var_trace [9]] in
  exists c, go_on (W1 []) rev1_var maps_num ts = Ok ([true; false; true], c) /\ len c = 4344 /\ back maps_num c = Throw EAlloc /\
  exists c', only (W1 []) rev1_var maps_num [var_trace [7; 8]; var_trace [9]] = Ok c' /\ len c' = 4104 /\
    back maps_num c' = Ok (map show_num [var_trace [7; 8]; var_trace [9]]).
Proof.
  cbv zeta. eexists. split; [vm_compute; reflexivity|]. split; [vm_compute; reflexivity|]. split; [vm_compute; reflexivity|].
  eexists. split; [vm_compute; reflexivity|]. split; vm_compute; reflexivity.
Qed.
Print Assumptions C63_negative_count_refuted.

(** So is the condition on further header blocks: a real number for a field of
    the second block leaves the first block in the file, between the accepted
    traces. *)
Theorem C63_second_block_refuted :
  let ts := [var_trace [7; 8]; real_trace "X" [1; 2]; var_trace [9; 10]] in
  exists a stray b, go_on (W2 [] []) rev2_three maps_three ts = Ok ([true; false; true], a ++ stray ++ b) /\
    len stray = 240 /\ only (W2 [] []) rev2_three maps_three [var_trace [7; 8]; var_trace [9; 10]] = Ok (a ++ b) /\
    only (W2 [] []) rev2_three maps_three [var_trace [7; 8]] = Ok a.
Proof.
  cbv zeta.
  assert (Q : match go_on (W2 [] []) rev2_three maps_three [var_trace [7; 8]; real_trace "X" [1; 2]; var_trace [9; 10]],
       only (W2 [] []) rev2_three maps_three [var_trace [7; 8]],
       only (W2 [] []) rev2_three maps_three [var_trace [7; 8]; var_trace [9; 10]] with
     | Ok (bs, c), Ok a, Ok b =>
       (bs, firstn (Z.to_nat 4096) c, len (slice 4096 240 c), firstn (Z.to_nat 4096) c ++ skipn (Z.to_nat 240) (skipn (Z.to_nat 4096) c)) =
       ([true; false; true], a, 240, b)
     | _, _, _ => False
     end) by (vm_compute; reflexivity).
  revert Q. generalize (go_on (W2 [] []) rev2_three maps_three [var_trace [7; 8]; real_trace "X" [1; 2]; var_trace [9; 10]]).
  generalize (only (W2 [] []) rev2_three maps_three [var_trace [7; 8]; var_trace [9; 10]]).
  generalize (only (W2 [] []) rev2_three maps_three [var_trace [7; 8]]).
  intros oa ob og Q. destruct og as [[bs c]|z|]; [|destruct Q..]. destruct oa as [a|x|]; [|destruct Q..].
  destruct ob as [b|y|]; [|destruct Q..]. apply pair_equal_spec in Q as [Q Qb]. apply pair_equal_spec in Q as [Q Ql].
  apply pair_equal_spec in Q as [Qbs Qa].
  exists a, (slice 4096 240 c), (skipn (Z.to_nat 240) (skipn (Z.to_nat 4096) c)). rewrite Qbs.
  split; [|split; [exact Ql|split; [rewrite <- Qb, Qa; reflexivity|reflexivity]]].
  unfold slice. rewrite firstn_skipn, <- Qa, firstn_skipn. reflexivity.
Qed.
Print Assumptions C63_second_block_refuted.

(** And a writer whose binary header the first trace completes: a refused first
    trace leaves its sample count and interval in the header of the file. *)
Theorem C63_blank_header_refuted :
  let ls := [("SEG00000"%string, [(0, ("X"%string, I32))])] in
  exists c, go_on (W1 []) bin_zero ls [real_trace "X" [7; 8]] = Ok ([false], c) /\ slice 3216 6 c = [0; 4; 0; 0; 0; 2] /\
  exists c', only (W1 []) bin_zero ls [] = Ok c' /\ slice 3216 6 c' = [0; 0; 0; 0; 0; 0].
Proof.
  cbv zeta. eexists. split; [vm_compute; reflexivity|]. split; [vm_compute; reflexivity|].
  eexists. split; vm_compute; reflexivity.
Qed.
Print Assumptions C63_blank_header_refuted.

(** Accepted and refused traces mixed: given headers of revision 1, and a blank
    header of revision 0 where the first trace is refused behind the completion
    of the header, the second before it. *)
Example C63_case : sane_alloc plat_example /\ ~ blank (W1 []) rev1_var /\
  (let ts := [real_trace "A" [1; 2]; var_trace [7; 8]; real_trace "A" []; var_trace [9]] in
   Forall (early plat_example (W1 []) rev1_var maps_num) ts /\
   (let* (bs, c) := go_on (W1 []) rev1_var maps_num ts in Ok (bs, back maps_num c)) =
   Ok ([false; true; false; true], Ok (map show_num [var_trace [7; 8]; var_trace [9]]))) /\
  (let ts := [real_trace "A" [1; 2; 3]; counted_trace 32768 []; var_trace [7; 8]; real_trace "A" [1; 2]; var_trace [9; 5]] in
   Forall (early plat_example (W0 []) bin_zero maps_num) ts /\
   (let* (bs, c) := go_on (W0 []) bin_zero maps_num ts in
    let* c' := only (W0 []) bin_zero maps_num [var_trace [7; 8]; var_trace [9; 5]] in
    Ok (bs, len c, if list_eq_dec Z.eq_dec c c' then true else false)) = Ok ([false; false; true; false; true], 4096, true)).
Proof.
  split; [unfold sane_alloc; cbn; lia|]. split; [vm_compute; discriminate|].
  assert (K : forall w bh n smp, header_count w bh = 1 -> 0 <= n <= 40000 -> early plat_example w bh maps_num (counted_trace n smp)).
  { intros w bh n smp H L. unfold early, further_layouts. rewrite H. split; [|intros nm l en d []].
    intros _. exists n. split; [reflexivity|]. split; [lia|]. change (p_max_alloc plat_example) with (2 ^ 40). lia. }
  assert (K2 : forall w bh smp, header_count w bh = 1 -> len smp <= 40000 -> early plat_example w bh maps_num (real_trace "A" smp)).
  { intros w bh smp H L. unfold early, further_layouts. rewrite H. split; [|intros nm l en d []].
    intros _. exists (len smp). split; [reflexivity|]. split; [apply len_nonneg|]. change (p_max_alloc plat_example) with (2 ^ 40). lia. }
  assert (K3 : forall w bh smp, header_count w bh = 1 -> len smp <= 40000 -> early plat_example w bh maps_num (var_trace smp)).
  { intros w bh smp H L. apply (K w bh (len smp) smp H). split; [apply len_nonneg|exact L]. }
  split; cbv zeta; (split; [|vm_compute; reflexivity]);
    repeat (apply Forall_cons; [first [apply K2; [reflexivity|unfold len; cbn; lia]|apply K3; [reflexivity|unfold len; cbn; lia]|apply K; [reflexivity|lia]]|]);
    apply Forall_nil.
Qed.
