(** C106: a SEG-Y file whose writing was cut off. *)
From Coq Require Import Reals.
From Verif Require Import BaseFacts Platform Fp TraceHdr SegyTypes SegyCodec LayoutSpec ISegy OSegy StepX OSegyX WriterFacts CodecSpec ReadSpec RoundSpec FileSpec
     DiskX DiskSpec DiskFacts CrashSpec CrashFacts PropertiesCodec PropertiesRound PropertiesRefuse PropertiesDisk.
Local Open Scope Z_scope.

(** The disk became full, at any point and whatever the stream did with its
    buffer, and the client gave up: the traces that are completely in the file
    come back, and the reader reports what is cut off. *)
Theorem C106_disk_full : forall p w bh nm l ls s ts sN k cap sch e s' k',
  sane_alloc p -> p_left_first p = true -> safe_layout l -> NoDup (names l) ->
  comes_back w bh l (bh_samp_per_tr (o_bh sN) mod 2 ^ 16) ts ->
  w_open p w bh ((nm, l) :: ls) = Ok s -> write_traces p s ts = Ok sN -> len (fdata (o_file sN)) < 2 ^ 63 ->
  holds_file cap k (o_file s) -> client cap sch p s k ts = Ok (e, s', k') ->
  beginning_read p ((nm, l) :: ls) (trace_back p (o_endian s) (bh_format_code (o_bh s)) l) s ts
    (snd (destroy (is_rev2 w) cap sch s' k')).
Proof. intros. eapply full_core; eassumption. Qed.
Print Assumptions C106_disk_full.

(** The program was killed after any number [j] of operations on the stream:
    nothing is closed, and what was in the buffer is lost.  The binary header was
    given to the constructor, so that nothing is stored over it. *)
Theorem C106_killed : forall p w bh nm l ls s ts sN k cap sch j,
  sane_alloc p -> p_left_first p = true -> safe_layout l -> NoDup (names l) ->
  comes_back w bh l (bh_samp_per_tr (o_bh sN) mod 2 ^ 16) ts ->
  w_open p w bh ((nm, l) :: ls) = Ok s -> write_traces p s ts = Ok sN -> len (fdata (o_file sN)) < 2 ^ 63 ->
  o_min s = MNone -> holds_file cap k (o_file s) -> k_at k = len (k_disk k) ->
  beginning_read p ((nm, l) :: ls) (trace_back p (o_endian s) (bh_format_code (o_bh s)) l) s ts
    (k_disk (snd (k_ops cap sch (firstn j (all_ops p s ts)) k))).
Proof. intros. eapply killed_core; eassumption. Qed.
Print Assumptions C106_killed.

(** Two traces of 256 and 248 bytes behind 3600 bytes of headers.  Killed after
    each of the four operations, with a stream that stores 100 bytes at each
    operation and with one that stores everything at once; the stream still has
    [b] bytes of the headers in its buffer. *)
Definition after_kill (sch : nat -> nat) (b : Z) (j : nat) : outcome (Z * outcome (list (list (option value) * list Z) * bool)) :=
  let* s := w_open plat_example (W1 []) rev1_var maps_num in
  let h := fdata (o_file s) in
  let n := Z.to_nat (len h - b) in
  let k := mkStream (firstn n h) (len h - b) (skipn n h) false 0 in
  let c := k_disk (snd (k_ops 10000 sch (firstn j (all_ops plat_example s [var_trace [7; 8]; var_trace [9]])) k)) in
  Ok (len c, let* r := isegy_open plat_example c maps_num in
             let (ts, o) := collect plat_example 9 r in Ok (map show_num ts, is_ok o)).
Definition first_two : list (list (option value) * list Z) :=
  [([Some (VInt 3); Some (VInt 2)], [7; 8]); ([Some (VInt 3); Some (VInt 1)], [9])].
Example C106_case :
  (exists s sN, w_open plat_example (W1 []) rev1_var maps_num = Ok s /\ o_min s = MNone /\
     write_traces plat_example s [var_trace [7; 8]; var_trace [9]] = Ok sN /\ len (fdata (o_file sN)) = 4104 /\
     comes_back (W1 []) rev1_var lay_num (bh_samp_per_tr (o_bh sN) mod 2 ^ 16) [var_trace [7; 8]; var_trace [9]]) /\
  map (after_kill (fun _ => 5000%nat) 0) [0%nat; 1%nat; 2%nat; 3%nat; 4%nat] =
    [Ok (3600, Ok ([], true)); Ok (3840, Ok ([], false)); Ok (3856, Ok (firstn 1 first_two, true));
     Ok (4096, Ok (firstn 1 first_two, false)); Ok (4104, Ok (first_two, true))] /\
  map (after_kill (fun _ => 100%nat) 150) [1%nat; 2%nat; 4%nat] =
    [Ok (3550, Throw EIO); Ok (3650, Ok ([], false)); Ok (3850, Ok ([], false))].
Proof.
  split; [|split; vm_compute; reflexivity].
  destruct (w_open plat_example (W1 []) rev1_var maps_num) as [s|x|] eqn:E; [|vm_compute in E; discriminate E..].
  assert (Q : (let* s := w_open plat_example (W1 []) rev1_var maps_num in
               let* s' := write_traces plat_example s [var_trace [7; 8]; var_trace [9]] in
               Ok (o_min s, len (fdata (o_file s')))) = Ok (MNone, 4104)) by (vm_compute; reflexivity).
  rewrite E in Q. cbn [bind] in Q. exists s.
  destruct (write_traces plat_example s [var_trace [7; 8]; var_trace [9]]) as [s'|x|]; [|discriminate Q..]. cbn [bind] in Q.
  injection Q as Q1 Q2. exists s'. split; [reflexivity|]. split; [exact Q1|]. split; [reflexivity|]. split; [exact Q2|].
  split; [vm_compute; reflexivity|]. split; [left; reflexivity|]. split; [reflexivity|]. split; [left; reflexivity|].
  split; [vm_compute; discriminate|]. split.
  - intros _ t I. cbn [In] in I. destruct I as [<-|[<-|[]]]; (split; [reflexivity|]);
      (eexists; eexists; split; [right; left; reflexivity|split; [reflexivity|split; [reflexivity|vm_compute; reflexivity]]]).
  - intros [C|C]; vm_compute in C; discriminate C.
Qed.
