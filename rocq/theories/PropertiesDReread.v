(** C97 and C99: a SEG-D reader that goes on after an exception. *)
From Coq Require Import String.
From Verif Require Import BaseFacts Platform Fp TraceHdr SegyTypes SegdTypes ISegd StepX ISegdX RereadSpec DRereadSpec SegdExamples SegdTrcExamples DRereadFacts.
Local Open Scope string_scope.
Local Open Scope list_scope.
Local Open Scope Z_scope.

(** Without an exception the reader is the one of ISegd.v; where that one stops,
    this one throws. *)
Theorem C97_same_calls : forall p b ls s n ts s1,
  isegd_open p b ls = Ok s -> d_take p n s = Ok (ts, s1) ->
  go_on (fun _ : unit => y_read_trace p) (y_fresh s) (repeat tt n) = Ok (map Ok ts, y_fresh s1) /\
  fst (y_read_trace p (y_fresh s1)) = (let* (t, _) := d_read_trace p s1 in Ok t).
Proof.
  intros p b ls s n ts s1 O. destruct (open_ready _ _ _ _ O) as [Rd _]. clear O. revert s ts Rd.
  induction n as [|n IH]; intros s ts Rd H; cbn [d_take repeat go_on] in *.
  - injection H as <- <-. split; [reflexivity|]. pose proof (@trace_run True I p s Rd) as K.
    destruct (d_read_trace p s) as [[t s']|e|]; cbn [runs bind] in *; [rewrite K; reflexivity| |exact K]. destruct K as (r & K & _). rewrite K. reflexivity.
  - pose proof (@trace_run True I p s Rd) as K. destruct (d_read_trace p s) as [[t s']|e|] eqn:E; cbn [runs bind] in *; [|discriminate..].
    destruct (d_take p n s') as [[l s2]|e|] eqn:E2; cbn [bind] in H; [|discriminate..]. injection H as <- <-.
    destruct (IH s' l (proj1 (read_ready p s t s' E Rd)) E2) as [A B]. rewrite K, A. split; [reflexivity|exact B].
Qed.
Print Assumptions C97_same_calls.

(** C97.  A client that catches exceptions and goes on while has_trace is true
    gets the traces that a client that stops at the first exception gets, and
    then nothing but the same exception again.

    Partial: there is enough memory, and no layout stores a real number under a
    word that the reader needs; and the client need not come to an end nor get
    every trace, see below. *)
Theorem C97_persistent_partial : forall p b ls s n os r,
  isegd_open p b ls = Ok s -> int_words ls -> persist p n (y_fresh s) = Ok (os, r) -> ~ In (Throw EAlloc) os ->
  exists ts s1 k x, os = map Ok ts ++ repeat (Throw x) k /\ d_take p (List.length ts) s = Ok (ts, s1) /\
    (k = 0%nat -> r = y_fresh s1) /\ (k <> 0%nat -> d_read_trace p s1 = Throw x).
Proof.
  intros p b ls s n os r O W H NA. destruct (open_ready _ _ _ _ O) as [Rd L]. rewrite <- L in W. exact (persist_shape p n s os r Rd W H NA).
Qed.
Print Assumptions C97_persistent_partial.

(** Going on does not lead into undefined behaviour: if it ever comes to it, a
    call before which everything went well is undefined, or memory was refused. *)
Theorem C97_defined : forall p b ls s n,
  isegd_open p b ls = Ok s -> int_words ls -> persist p n (y_fresh s) = UB ->
  exists k ts s1, d_take p k s = Ok (ts, s1) /\ (d_read_trace p s1 = UB \/ d_read_trace p s1 = Throw EAlloc).
Proof.
  intros p b ls s n O W H. destruct (open_ready _ _ _ _ O) as [Rd L]. rewrite <- L in W. exact (persist_ub p n s Rd W H).
Qed.
Print Assumptions C97_defined.

(** C99.  Whatever happened before: once the file was the reason for an exception every
    further call throws it again, and has_trace keeps its answer. *)
Theorem C99_fail_stop : forall p b ls s n1 rs1 r1 n2 rs2 r2,
  isegd_open p b ls = Ok s ->
  go_on (fun _ : unit => y_read_trace p) (y_fresh s) (repeat tt n1) = Ok (rs1, r1) -> In (Throw EIO) rs1 ->
  go_on (fun _ : unit => y_read_trace p) r1 (repeat tt n2) = Ok (rs2, r2) ->
  rs2 = repeat (Throw EIO) n2 /\ y_has_trace r2 = y_has_trace r1.
Proof.
  intros p b ls s n1 rs1 r1 n2 rs2 r2 _ H1 Hin H2.
  assert (D : forall n r rs r', y_fail r = true -> go_on (fun _ : unit => y_read_trace p) r (repeat tt n) = Ok (rs, r') -> rs = repeat (Throw EIO) n /\ r' = r).
  { clear. induction n as [|n IH]; intros r rs r' F H; cbn [repeat go_on] in *; [injection H as <- <-; auto|]. rewrite (dead_call p r F) in H.
    destruct (go_on _ r (repeat tt n)) as [[l r2]|e|] eqn:E; cbn [bind] in H; [|discriminate..]. injection H as <- <-.
    destruct (IH r l r2 F E) as [-> ->]. auto. }
  assert (F : y_fail r1 = true).
  { clear H2. revert H1 Hin. generalize (y_fresh s) as r. revert rs1. induction n1 as [|n IH]; intros rs1 r H1 Hin; cbn [repeat go_on] in H1.
    - injection H1 as <- <-. destruct Hin.
    - destruct (y_read_trace p r) as [o r2'] eqn:E. assert (N : o <> UB) by (destruct o; [discriminate..|discriminate H1]).
      assert (Q : exists rs', go_on (fun _ : unit => y_read_trace p) r2' (repeat tt n) = Ok (rs', r1) /\ rs1 = o :: rs').
      { destruct o as [a|y|]; [| |congruence]; (destruct (go_on _ r2' (repeat tt n)) as [[rs' r3]|z|]; cbn [bind] in H1; [|discriminate..];
          injection H1 as <- <-; exists rs'; auto). }
      destruct Q as (rs' & E2 & ->). destruct Hin as [->|Hin]; [|exact (IH rs' r2' E2 Hin)].
      destruct (D n r2' rs' r1 (io_read p r r2' E) E2) as [_ ->]. exact (io_read p r r2' E). }
  destruct (D n2 r1 rs2 r2 F H2) as [-> ->]. auto.
Qed.
Print Assumptions C99_fail_stop.

(** The channel and the samples of the traces, and has_trace in the end. *)
Definition d_show (p : platform) (b : list Z) (ls : ext_layouts) (n : nat) :=
  match isegd_open p b ls with
  | Ok s => match persist p n (y_fresh s) with
            | Ok (os, r) => Some (map (fun o => let* t := o in Ok (hget (t_hdr t) "CHAN", t_smp t)) os, y_has_trace r)
            | _ => None
            end
  | _ => None
  end.

(** Two records, the file cut inside its last trace; and a second record whose
    sample format the library does not know. *)
Example C97_case :
  d_show segd_plat (removelast ex_8058) [] 5 =
    Some ([Ok (Some (VInt 1), [i2d 2; i2d (-5)]); Ok (Some (VInt 1), [i2d 2]); Throw EIO; Throw EIO; Throw EIO], true) /\
  d_show segd_plat (one_rec 0x80 0x58 2 (file_trace 1 2 wds ++ file_trace 1 1 (firstn 4 wds)) ++ one_rec 0x80 0x99 1 (file_trace 1 2 wds)) [] 5 =
    Some ([Ok (Some (VInt 1), [i2d 2; i2d (-5)]); Throw ESedaman], false) /\ int_words [].
Proof. split; [vm_compute; reflexivity|]. split; [vm_compute; reflexivity|]. intros l en []. Qed.

(** Not every complete trace is had: the call that reads the last trace of a
    record also reads the headers of the next record and throws away the trace
    when these are damaged, where the record alone is read to its end. *)
Definition rec_a : list Z := one_rec 0x80 0x58 2 (file_trace 1 2 wds ++ file_trace 1 1 (firstn 4 wds)).
Theorem C97_lost_trace_refuted :
  d_show segd_plat rec_a [] 5 = Some ([Ok (Some (VInt 1), [i2d 2; i2d (-5)]); Ok (Some (VInt 1), [i2d 2])], false) /\
  (forall stray, (0 < List.length stray < 32)%nat ->
    d_show segd_plat (rec_a ++ stray) [] 5 = Some ([Ok (Some (VInt 1), [i2d 2; i2d (-5)]); Throw EIO], false)).
Proof.
  split; [vm_compute; reflexivity|]. intros stray L.
  do 32 (destruct stray as [|? stray]; [first [exfalso; cbn in L; lia|vm_compute; reflexivity]|]). exfalso. cbn [List.length] in L. lia.
Qed.
Print Assumptions C97_lost_trace_refuted.

(** The client need not come to an end: in a file that is cut inside a trace
    has_trace stays true and every call throws. *)
Theorem C97_endless_refuted : exists s, isegd_open segd_plat (firstn 200 ex_8058) [] = Ok s /\
  forall n, exists t r, persist segd_plat (S n) (y_fresh s) = Ok (Ok t :: repeat (Throw EIO) n, r) /\ y_has_trace r = true.
Proof.
  destruct (isegd_open segd_plat (firstn 200 ex_8058) []) as [s|e|] eqn:O; [|vm_compute in O; discriminate O..]. exists s. split; [reflexivity|].
  assert (K : match isegd_open segd_plat (firstn 200 ex_8058) [] with
              | Ok s => y_has_trace (y_fresh s) = true /\
                        match y_read_trace segd_plat (y_fresh s) with
                        | (Ok _, r) => y_has_trace r = true /\ match y_read_trace segd_plat r with
                                                                | (Throw EIO, r2) => y_has_trace r2 = true /\ y_fail r2 = true
                                                                | _ => False end
                        | _ => False end
              | _ => False end) by (vm_compute; repeat split; reflexivity).
  rewrite O in K. destruct K as [K0 K]. destruct (y_read_trace segd_plat (y_fresh s)) as [[t|e|] r] eqn:E1; [|destruct K..]. destruct K as [K1 K].
  destruct (y_read_trace segd_plat r) as [[t2|e|] r2] eqn:E2; [destruct K| |destruct K]. destruct e; try (destruct K; fail). destruct K as [K2 K3].
  intros n. exists t. cbn [persist]. rewrite K0, E1. destruct n as [|n]; [exists r; split; [reflexivity|exact K1]|].
  exists r2. cbn [persist]. rewrite K1, E2, (persist_dead segd_plat n r2 K3), K2. split; reflexivity.
Qed.
Print Assumptions C97_endless_refuted.

(** The conditions are needed.  A trace for which there is no memory, and one
    whose header gives a real number of samples, are left in the middle, and the
    next call takes their samples for a trace. *)
Definition small_plat : platform := mkPlatform true gcc_d2u (fun _ => Some 65) 100 true true 0 Z.log2 (fun _ => 0) no_exp.
Definition inner (ext : Z) : list Z := [0x00; 0x01; 0x01; 1; 0x00; 0x77; 0; 0; 0; ext; 0; 0; 0; 0; 0; 0; 0; 0; 0; 0].
Theorem C97_memory_refuted :
  d_show small_plat (one_rec 0x80 0x58 2 (file_trace 1 26 (inner 0 ++ repeat 0 84) ++ file_trace 1 1 (firstn 4 wds))) [] 2 =
    Some ([Throw EAlloc; Ok (Some (VInt 77), [])], true) /\
  d_show segd_plat (one_rec 0x80 0x58 2 (file_trace 1 5 (inner 0) ++ file_trace 1 1 (firstn 4 wds))) [[(0, ("SAMP_NUM", F32))]] 2 =
    Some ([Throw EVariant; Ok (Some (VInt 77), [])], true).
Proof. split; vm_compute; reflexivity. Qed.
Print Assumptions C97_memory_refuted.

(** C99: there is no memory for the first trace, the call after that reads on in
    the middle of it and comes to the end of the file; from then on every call
    throws.  And a file that is cut inside its last trace. *)
Definition d_show_all (p : platform) (b : list Z) (n : nat) :=
  match isegd_open p b [] with
  | Ok s => match go_on (fun _ : unit => y_read_trace p) (y_fresh s) (repeat tt n) with
            | Ok (rs, r) => Some (map (fun o => let* t := o in Ok (hget (t_hdr t) "CHAN", t_smp t)) rs, y_has_trace r)
            | _ => None
            end
  | _ => None
  end.
Example C99_case :
  d_show_all small_plat (one_rec 0x80 0x58 3 (file_trace 1 26 (inner 1 ++ [0; 0; 5; 0; 0; 6; 1; 0; 0; 5] ++ repeat 0 8))) 4 =
    Some ([Throw EAlloc; Throw EIO; Throw EIO; Throw EIO], true) /\
  d_show_all segd_plat (removelast ex_8058) 4 =
    Some ([Ok (Some (VInt 1), [i2d 2; i2d (-5)]); Ok (Some (VInt 1), [i2d 2]); Throw EIO; Throw EIO], true).
Proof. split; vm_compute; reflexivity. Qed.
