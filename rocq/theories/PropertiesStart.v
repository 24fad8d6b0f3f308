(** C108: a SEG-Y writer on a disk of any size, from its constructor on. *)
From Coq Require Import Reals.
From Verif Require Import BaseFacts Platform Fp TraceHdr SegyTypes SegyCodec LayoutSpec ISegy OSegy StepX OSegyX WriterFacts CodecSpec ReadSpec RoundSpec FileSpec
     RefuseFacts DiskX DiskSpec DiskFacts CrashSpec CrashFacts StartX StartFacts BlankFacts PropertiesCodec PropertiesRound PropertiesRefuse PropertiesDisk.
Local Open Scope Z_scope.

(** The constructor returns, and the stream has the headers (what C105 and C106
    take for granted); or it throws because there is no room for the headers, and
    as many of their bytes as fit are left behind.  With room it returns. *)
Theorem C108_constructor : forall p w bh ls s cap sch, 0 <= cap -> len (given_texts w) <= 65536 -> w_open p w bh ls = Ok s ->
  match k_ops cap sch (ctor_ops w bh s) new_stream with
  | (true, k) => holds_file cap k (o_file s) /\ k_at k = len (k_disk k)
  | (false, k) => cap < len (fdata (o_file s)) /\ k_close cap k = cut cap (fdata (o_file s))
  end.
Proof.
  intros p w bh ls s cap sch C Ln Ho. pose proof (ctor_run cap sch p w bh ls s C Ln Ho) as Q.
  destruct (k_ops cap sch (ctor_ops w bh s) new_stream) as [[] k]; [exact Q|]. split; [apply Q|apply close_full, Q].
Qed.
Print Assumptions C108_constructor.

(** The same for the whole life of the writer: it ends in its constructor only if
    there is no room for the headers. *)
Theorem C108_constructor_throws : forall p w bh ls s ts cap sch b found, 0 <= cap -> len (given_texts w) <= 65536 -> w_open p w bh ls = Ok s ->
  session cap sch p w bh ls ts = Ok (None, b, found) ->
  b = true /\ cap < len (fdata (o_file s)) /\ found = cut cap (fdata (o_file s)).
Proof.
  intros p w bh ls s ts cap sch b found C Ln Ho E. pose proof (C108_constructor p w bh ls s cap sch C Ln Ho) as Q.
  unfold session in E. rewrite Ho in E. cbn [bind] in E. destruct (k_ops cap sch (ctor_ops w bh s) new_stream) as [[] k].
  - destruct (client cap sch p s k ts) as [[[e s'] k']| |]; cbn [bind] in E; try discriminate.
    destruct (destroy (is_rev2 w) cap sch s' k'). discriminate.
  - injection E as <- <-. split; [reflexivity|exact Q].
Qed.
Print Assumptions C108_constructor_throws.

(** With room for everything nothing fails, and the file is complete. *)
Theorem C108_room : forall p w bh ls s cap sch ts s', len (given_texts w) <= 65536 -> w_open p w bh ls = Ok s ->
  write_traces p s ts = Ok s' -> len (fdata (o_file s') ++ stanza_bytes w s') <= cap -> cap < 2 ^ 63 ->
  session cap sch p w bh ls ts = Ok (Some AllWritten, true, fdata (o_file s') ++ stanza_bytes w s').
Proof.
  intros p w bh ls s cap sch ts s' Ln Ho W R C.
  destruct (traces_grow p ts s s' (open_standing _ _ _ _ _ Ln Ho) W) as (_ & G).
  assert (L : len (fdata (o_file s)) <= cap /\ 0 <= cap).
  { rewrite len_app in R. pose proof (len_nonneg (stanza_bytes w s')). pose proof (len_nonneg (fdata (o_file s))). lia. }
  pose proof (C108_constructor p w bh ls s cap sch (proj2 L) Ln Ho) as Q. unfold session. rewrite Ho. cbn [bind].
  destruct (k_ops cap sch (ctor_ops w bh s) new_stream) as [[] k]; [|lia].
  destruct (C105_room p w bh ls s k cap sch ts s' Ln Ho (proj1 Q) W R C) as (k' & E & D). rewrite E. cbn [bind]. rewrite D. reflexivity.
Qed.
Print Assumptions C108_room.

(** Whatever the size of the disk: what is found afterwards gives the traces that
    are completely stored. *)
Theorem C108_disk_full : forall p w bh nm l ls s ts sN cap sch r b found,
  sane_alloc p -> p_left_first p = true -> safe_layout l -> NoDup (names l) ->
  comes_back w bh l (bh_samp_per_tr (o_bh sN) mod 2 ^ 16) ts ->
  w_open p w bh ((nm, l) :: ls) = Ok s -> write_traces p s ts = Ok sN -> len (fdata (o_file sN)) < 2 ^ 63 ->
  0 <= cap -> session cap sch p w bh ((nm, l) :: ls) ts = Ok (r, b, found) ->
  beginning_read p ((nm, l) :: ls) (trace_back p (o_endian s) (bh_format_code (o_bh s)) l) s ts found.
Proof. intros. eapply session_core; eassumption. Qed.
Print Assumptions C108_disk_full.

(** The program was killed after any number [j] of operations on the stream,
    those of the constructor among them; also if the binary header is completed
    and stored a second time by the first trace. *)
Theorem C108_killed : forall p w bh nm l ls s ts sN cap sch j,
  sane_alloc p -> p_left_first p = true -> safe_layout l -> NoDup (names l) ->
  comes_back w bh l (bh_samp_per_tr (o_bh sN) mod 2 ^ 16) ts ->
  w_open p w bh ((nm, l) :: ls) = Ok s -> write_traces p s ts = Ok sN -> len (fdata (o_file sN)) < 2 ^ 63 -> 0 <= cap ->
  beginning_read p ((nm, l) :: ls) (trace_back p (o_endian s) (bh_format_code (o_bh s)) l) s ts
    (k_disk (snd (k_ops cap sch (firstn j (ctor_ops w bh s ++ all_ops p s ts)) new_stream))).
Proof. intros. eapply killed_any; eassumption. Qed.
Print Assumptions C108_killed.

(** A writer with two traces (256 and 248 bytes) behind 3600 bytes of headers, on
    disks of several sizes; the stream stores everything at once, or keeps
    everything as long as it can. *)
Definition brief (o : outcome (option ending * bool * list Z)) : outcome (option ending * bool * Z * bool) :=
  let* (x, c) := o in
  Ok (x, len c, is_ok (isegy_open plat_example c maps_num)).
Definition two_traces : list trace := [var_trace [7; 8]; var_trace [9]].
Definition on_sizes (sch : nat -> nat) (caps : list Z) :=
  map (fun cap => brief (session cap sch plat_example (W1 []) rev1_var maps_num two_traces)) caps.
Example C108_case :
  on_sizes (fun _ => 5000%nat) [0; 3199; 3599; 3600; 3850; 4104] =
    [Ok (None, true, 0, false); Ok (None, true, 3199, false); Ok (None, true, 3599, false);
     Ok (Some (DiskFull 0), true, 3600, true); Ok (Some (DiskFull 0), true, 3850, true); Ok (Some AllWritten, true, 4104, true)] /\
  on_sizes (fun _ => O) [3199; 3599; 4000] =
    [Ok (None, true, 3199, false); Ok (Some AllWritten, true, 3599, false); Ok (Some AllWritten, true, 4000, true)].
Proof. split; vm_compute; reflexivity. Qed.

(** The same writer killed after each of its eight operations, and one without a
    binary header (its first call stores it again; with 18
    bytes per operation the header is a mixture). *)
Definition after_start (w : writer) (bh : bin_hdr) (ts : list trace) (sch : nat -> nat) (j : nat) : outcome (Z * outcome (Z * bool)) :=
  let* s := w_open plat_example w bh maps_num in
  let c := k_disk (snd (k_ops 10000 sch (firstn j (ctor_ops w bh s ++ all_ops plat_example s ts)) new_stream)) in
  Ok (len c, let* r := isegy_open plat_example c maps_num in
             let (ts, o) := collect plat_example 9 r in Ok (len ts, is_ok o)).
Definition equal_traces : list trace := [var_trace [7; 8]; var_trace [9; 5]].
Definition in_order (w : writer) (bh : bin_hdr) (ts : list trace) : outcome (minimal * nat * Z) :=
  let* s := w_open plat_example w bh maps_num in
  let* s' := write_traces plat_example s ts in
  Ok (o_min s, List.length (ctor_ops w bh s ++ all_ops plat_example s ts), bh_samp_per_tr (o_bh s') mod 2 ^ 16).
Example C108_killed_case :
  in_order (W1 []) rev1_var two_traces = Ok (MNone, 8%nat, 2) /\
  map (after_start (W1 []) rev1_var two_traces (fun _ => 5000%nat)) (seq 0 9) =
    [Ok (0, Throw EIO); Ok (3200, Throw EIO); Ok (3200, Throw EIO); Ok (3600, Ok (0, true)); Ok (3600, Ok (0, true));
     Ok (3840, Ok (0, false)); Ok (3856, Ok (1, true)); Ok (4096, Ok (1, false)); Ok (4104, Ok (2, true))] /\
  map (after_start (W1 []) rev1_var two_traces (fun _ => O)) [1%nat; 2%nat; 8%nat] = [Ok (0, Throw EIO); Ok (3200, Throw EIO); Ok (3200, Throw EIO)] /\
  in_order (W0 []) bin_zero equal_traces = Ok (MAnyInt, 12%nat, 2) /\
  comes_back (W0 []) bin_zero lay_num 2 equal_traces /\
  map (after_start (W0 []) bin_zero equal_traces (fun _ => 18%nat)) (seq 3 10) =
    [Ok (3218, Throw EIO); Ok (3218, Throw EIO); Ok (3218, Throw EIO); Ok (3600, Ok (0, true)); Ok (3600, Ok (0, true));
     Ok (3600, Ok (0, true)); Ok (3600, Ok (0, true)); Ok (3600, Ok (0, true)); Ok (3600, Ok (0, true)); Ok (3600, Ok (0, true))] /\
  map (after_start (W0 []) bin_zero equal_traces (fun _ => 5000%nat)) [7%nat; 8%nat; 9%nat; 11%nat; 12%nat] =
    [Ok (3600, Ok (0, true)); Ok (3840, Ok (0, false)); Ok (3848, Ok (1, true)); Ok (4088, Ok (1, false)); Ok (4096, Ok (2, true))].
Proof.
  split; [vm_compute; reflexivity|]. split; [vm_compute; reflexivity|]. split; [vm_compute; reflexivity|]. split; [vm_compute; reflexivity|].
  split; [|split; vm_compute; reflexivity].
  split; [vm_compute; reflexivity|]. split; [left; reflexivity|]. split; [reflexivity|]. split; [left; reflexivity|]. split; [reflexivity|]. split.
  - intro K. vm_compute in K. discriminate K.
  - intros _ t I. cbn [equal_traces In] in I. destruct I as [<-|[<-|[]]]; reflexivity.
Qed.
