(** C110: what is in the file when a writer reports a full disk. *)
From Verif Require Import BaseFacts Platform TraceHdr SegyTypes ISegy OSegy OSegyX SegdTypes SegdSpec ISegd OSegd StepX OSegdX Procs CtorX FileSpec DiskX DiskSpec CrashSpec StartX
     DiskD DiskDSpec AckFacts AckYFacts SegdFileFacts SegdExamples PropertiesCodec PropertiesRound PropertiesRefuse PropertiesDisk PropertiesStart.
Local Open Scope Z_scope.

(** Calls of [write_trace] answered [bs], the next one threw because the disk is
    full; the stream never kept more than [B] bytes in its buffer after a write that
    returned.  Then the file
    has what those calls would have left on a disk without an end, up to at most
    [B] bytes at its end. *)
Theorem C110_segd : forall cap sch p a ts r c bs found B, 0 <= cap -> 0 <= B -> on_endless p a ts = Ok (r, c) ->
  d_program cap sch p a ts = Ok (DFull bs, found) ->
  (forall j k, k_ops cap sch (firstn j (d_program_ops p a ts)) (mkStream [] 0 [] false 0) = (true, k) -> len (k_buf k) <= B) ->
  exists c', on_endless p a (firstn (List.length bs) ts) = Ok (Some bs, c') /\ len c' - B <= len found /\
    firstn (Z.to_nat (len c' - B)) found = firstn (Z.to_nat (len c' - B)) c'.
Proof. exact program_full. Qed.
Print Assumptions C110_segd.

(** The SEG-Y writers: [n] calls returned, the next one threw because the disk is
    full.  If this is the first one and it completes the binary header (no header
    was given to the constructor), the header block may be the completed one. *)
Theorem C110_segy : forall p w bh ls s k cap sch ts n s' k' B, len (given_texts w) <= 65536 -> w_open p w bh ls = Ok s -> holds_file cap k (o_file s) -> 0 <= cap -> 0 <= B ->
  client cap sch p s k ts = Ok (DiskFull n, s', k') ->
  (forall j k1, k_ops cap sch (firstn j (all_ops p s ts)) k = (true, k1) -> len (k_buf k1) <= B) ->
  let found := snd (destroy (is_rev2 w) cap sch s' k') in
  exists s1, write_traces p s (firstn n ts) = Ok s1 /\ len (fdata (o_file s1)) - B <= len found /\
    (o_min s = MNone \/ n <> O -> firstn (Z.to_nat (len (fdata (o_file s1)) - B)) found = firstn (Z.to_nat (len (fdata (o_file s1)) - B)) (fdata (o_file s1))).
Proof. intros p w bh ls s k cap sch ts n s' k' B Ln Ho F C HB H K. exact (segy_full cap sch p w bh ls s k ts n s' k' B Ln Ho F C HB H K). Qed.
Print Assumptions C110_segy.

(** A stream without a buffer: everything is there. *)
Theorem C110_segd_unbuffered : forall cap sch p a ts r c bs found, 0 <= cap -> on_endless p a ts = Ok (r, c) ->
  d_program cap sch p a ts = Ok (DFull bs, found) -> (forall i, len c <= Z.of_nat (sch i)) ->
  exists c' more, on_endless p a (firstn (List.length bs) ts) = Ok (Some bs, c') /\ found = c' ++ more.
Proof.
  intros cap sch p a ts r c bs found C H P S.
  destruct (program_full cap sch p a ts r c bs found 0 C ltac:(lia) H P) as (c' & E & L & F).
  - intros j k K. apply (eager_ops cap sch p a ts r c j k H S K).
  - rewrite Z.sub_0_r in *. exists c', (skipn (Z.to_nat (len c')) found). split; [exact E|]. rewrite <- (firstn_skipn (Z.to_nat (len c')) found) at 1. rewrite F.
    unfold len. rewrite Nat2Z.id, firstn_all. reflexivity.
Qed.
Print Assumptions C110_segd_unbuffered.

(** The three traces of C42 on a disk of 400 bytes; the headers and the first
    trace are 352 bytes long.  Without a buffer the trace whose call returned is
    there.  A stream that stores nothing before its 17th write: two calls have
    returned, and on a disk of 300 bytes none of their traces is there. *)
Definition ack_args : osegd_args := record_args ex_rec (map fst3 (r_N ex_rec)).
Definition ack (cap : Z) (sch : nat -> nat) : outcome (dend * Z) :=
  let* (e, c) := d_program cap sch segd_plat ack_args (map fst ex_traces) in Ok (e, len c).
Example C110_case :
  map (ends ex_rec ex_traces) (seq 0 4) = [256; 352; 448; 544] /\
  ack 400 (fun _ => 544%nat) = Ok (DFull [true], 400) /\
  ack 300 (fun i => if (i <? 16)%nat then O else 544%nat) = Ok (DFull [true; true], 300).
Proof. split; [vm_compute; reflexivity|]. split; vm_compute; reflexivity. Qed.

(** The two traces of C108 behind 3600 bytes of headers, on a disk of 3700 bytes;
    the stream stores nothing until the last write: the first call has returned,
    and its trace (up to byte 3856) is not complete.  With a stream that stores
    everything at once, and room for one trace, it is. *)
Definition ack_segy (cap : Z) (sch : nat -> nat) : outcome (option ending * Z) :=
  let* (x, c) := session cap sch plat_example (W1 []) rev1_var maps_num two_traces in Ok (fst x, len c).
Example C110_segy_case :
  ack_segy 3700 (fun i => if (i <? 7)%nat then O else 5000%nat) = Ok (Some (DiskFull 1), 3700) /\
  ack_segy 3900 (fun _ => 5000%nat) = Ok (Some (DiskFull 1), 3900) /\ 
  match w_open plat_example (W1 []) rev1_var maps_num with Ok s => o_min s = MNone | _ => False end.
Proof. split; [vm_compute; reflexivity|]. split; vm_compute; reflexivity. Qed.
