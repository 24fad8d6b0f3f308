(** C109: a SEG-D writer on a disk of any size, and the reader of what it left. *)
From Coq Require Import Permutation.
From Verif Require Import BaseFacts Platform TraceHdr SegyTypes ISegy OSegy SegdTypes SegdSpec ISegd OSegd StepX OSegdX Procs CtorX RefuseSpec DRefuseSpec SegdFileFacts DiskX DiskSpec
     DiskD DiskDSpec DiskDFacts CutDFacts StopDFacts SegdExamples.
Local Open Scope Z_scope.

(** Whatever is given to the constructor and to [write_trace], refused traces
    included: the file has as many bytes as fit of the one that a disk without an
    end would have, and the calls answer as they would there, up to one that
    throws because the disk is full. *)
Theorem C109_file : forall cap sch p a ts r c, 0 <= cap -> on_endless p a ts = Ok (r, c) ->
  exists e, d_program cap sch p a ts = Ok (e, cut cap c) /\
  match e with
  | DRefused => r = None
  | DNoRoom => cap < len c
  | DDone bs => r = Some bs
  | DFull bs => cap < len c /\ exists b more, r = Some (bs ++ b :: more)
  end.
Proof. exact program_run. Qed.
Print Assumptions C109_file.

(** With room for everything no call notices the disk, and the file is complete. *)
Theorem C109_room : forall cap sch p a ts r c, len c <= cap -> on_endless p a ts = Ok (r, c) ->
  d_program cap sch p a ts = Ok (match r with None => DRefused | Some bs => DDone bs end, c).
Proof.
  intros cap sch p a ts r c L H. destruct (program_run cap sch p a ts r c) as (e & -> & E); [pose proof (len_nonneg c); lia|exact H|].
  assert (X : cut cap c = c) by (unfold cut; apply firstn_all2; unfold len in *; lia). rewrite X.
  destruct e; [subst r; reflexivity|lia|subst r; reflexivity|lia].
Qed.
Print Assumptions C109_room.

(** A program that was killed after any number [j] of operations on the stream
    leaves a beginning of that file. *)
Theorem C109_killed : forall cap sch p a ts r c j, 0 <= cap -> on_endless p a ts = Ok (r, c) ->
  exists q, 0 <= q <= len c /\ k_disk (snd (k_ops cap sch (firstn j (d_program_ops p a ts)) (mkStream [] 0 [] false 0))) = firstn (Z.to_nat q) c.
Proof. intros cap sch p a ts r c j. exact (program_killed cap sch p a ts r c j). Qed.
Print Assumptions C109_killed.

(** Full claim: a reader of what is there gives the traces that are completely
    stored, and throws at the first that is not.  Missing: files that are not as in
    C42 (revision 3, traces with other header extensions, refused traces). *)
Theorem C109_read_partial : forall p r hs tcs cap sch,
  plat_ok p -> p_chans0 p = 0 -> rec_good p r -> in_order (map fst3 (r_N r)) -> Permutation hs (map fst3 (r_N r)) ->
  Forall (fun h => block_fields (gN_block_num (fst3 h)) = None) (r_N r) ->
  Forall (tc_in r) tcs -> len tcs = r_chans r -> tcs <> [] -> len (fr_bytes (r, tcs)) < 2 ^ 63 -> 0 <= cap ->
  (exists e found, d_program cap sch p (record_args r hs) (map fst tcs) = Ok (e, found) /\ found = cut cap (fr_bytes (r, tcs)) /\ record_cut p r tcs found) /\
  forall j, record_cut p r tcs (k_disk (snd (k_ops cap sch (firstn j (d_program_ops p (record_args r hs) (map fst tcs))) (mkStream [] 0 [] false 0)))).
Proof.
  intros p r hs tcs cap sch Hp Hc G Ho Pm Bf F Ln N LD C.
  pose proof (record_endless p r hs tcs Hp Hc G Ho Pm Bf F Ln LD) as E. split.
  - destruct (program_run cap sch p _ _ _ _ C E) as (e & E1 & _). exists e, (cut cap (fr_bytes (r, tcs))). split; [exact E1|]. split; [reflexivity|].
    unfold cut. destruct (Z.le_gt_cases cap (len (fr_bytes (r, tcs)))) as [L|L].
    + apply cut_record; try assumption. lia.
    + replace (firstn (Z.to_nat cap) (fr_bytes (r, tcs))) with (firstn (Z.to_nat (len (fr_bytes (r, tcs)))) (fr_bytes (r, tcs)))
        by (rewrite !firstn_all2; try reflexivity; unfold len in *; lia).
      apply cut_record; try assumption. pose proof (len_nonneg (fr_bytes (r, tcs))). lia.
  - intro j. destruct (program_killed cap sch p _ _ _ _ j C E) as (q & Q & ->). apply cut_record; assumption.
Qed.
Print Assumptions C109_read_partial.

(** The same for a program that gives the writer only the first [k] traces of the
    record, and other traces in between that are refused.  Missing as before, and
    traces that are refused after their header was stored (see C96). *)
Theorem C109_stopped_partial : forall p r hs tcs k ts bs c cap sch,
  plat_ok p -> p_chans0 p = 0 -> p_max_alloc p < 2 ^ 63 -> rec_good p r -> in_order (map fst3 (r_N r)) -> Permutation hs (map fst3 (r_N r)) ->
  Forall (fun h => block_fields (gN_block_num (fst3 h)) = None) (r_N r) ->
  Forall (tc_in r) tcs -> len tcs = r_chans r -> tcs <> [] -> len (fr_bytes (r, tcs)) < 2 ^ 63 -> 0 <= cap ->
  Forall (d_early p (g2_major (r_g2 r)) []) ts -> on_endless p (record_args r hs) ts = Ok (Some bs, c) -> accepted bs ts = map fst (firstn k tcs) ->
  c = rec_hdr r ++ tc_bytes (firstn k tcs) /\
  (exists e found, d_program cap sch p (record_args r hs) ts = Ok (e, found) /\ found = cut cap c /\ record_cut p r tcs found) /\
  forall j, record_cut p r tcs (k_disk (snd (k_ops cap sch (firstn j (d_program_ops p (record_args r hs) ts)) (mkStream [] 0 [] false 0)))).
Proof.
  intros p r hs tcs k ts bs c cap sch Hp Hc Ma G Ho Pm Bf F Ln N LD C Fe E A.
  pose proof (stopped_file p r hs tcs k ts bs c Hp Hc Ma G Ho Pm Bf F Ln LD Fe E A) as Ec.
  assert (Q : forall q, 0 <= q <= len c -> record_cut p r tcs (firstn (Z.to_nat q) c)).
  { intros q Q. pose proof (first_is_cut r tcs k) as X. rewrite <- Ec in X.
    assert (L : len c <= len (fr_bytes (r, tcs))) by (rewrite X; unfold len; rewrite firstn_length; lia).
    assert (Y : len c = ends r tcs k) by (rewrite Ec; unfold ends; apply len_app).
    rewrite X, firstn_firstn. replace (Nat.min (Z.to_nat q) (Z.to_nat (ends r tcs k))) with (Z.to_nat q) by lia. apply cut_record; try assumption. lia. }
  split; [exact Ec|]. split.
  - destruct (program_run cap sch p _ _ _ _ C E) as (e & E1 & _). exists e, (cut cap c). split; [exact E1|]. split; [reflexivity|].
    unfold cut. destruct (Z.le_gt_cases cap (len c)) as [L|L]; [apply Q; lia|].
    replace (firstn (Z.to_nat cap) c) with (firstn (Z.to_nat (len c)) c) by (rewrite !firstn_all2; try reflexivity; unfold len in *; lia).
    apply Q. pose proof (len_nonneg c). lia.
  - intro j. destruct (program_killed cap sch p _ _ _ _ j C E) as (q & Hq & ->). apply Q, Hq.
Qed.
Print Assumptions C109_stopped_partial.

(** The record of C42 meets the hypotheses. *)
Example C109_read_case :
  plat_ok segd_plat /\ p_chans0 segd_plat = 0 /\ rec_good segd_plat ex_rec /\ in_order (map fst3 (r_N ex_rec)) /\
  Forall (fun h => block_fields (gN_block_num (fst3 h)) = None) (r_N ex_rec) /\
  Forall (tc_in ex_rec) ex_traces /\ len ex_traces = r_chans ex_rec /\ ex_traces <> [] /\ len (fr_bytes (ex_rec, ex_traces)) = 544.
Proof.
  split; [exact ex_plat_ok|]. split; [reflexivity|]. split; [exact ex_rec_good|]. split.
  { intros i j a b L Ha Hb. destruct i as [|[|]]; destruct j as [|[|]]; cbn in Ha, Hb; try discriminate; lia. }
  split; [repeat constructor|]. split; [apply ex_fr_ok|]. split; [reflexivity|]. split; [discriminate|vm_compute; reflexivity].
Qed.

(** Full claim: a program none of whose calls threw has stored all its traces.
    Nobody sees the failure of the destructor to store what the stream kept. *)
Definition small_args : osegd_args := record_args ex_rec (map fst3 (r_N ex_rec)).
Theorem C109_silent_refuted : ~ forall cap sch p a ts r c bs found, 0 <= cap -> on_endless p a ts = Ok (r, c) ->
  d_program cap sch p a ts = Ok (DDone bs, found) -> found = c.
Proof.
  intro H. destruct C109_read_case as (Hp & Hc & G & Ho & Bf & F & Ln & _ & L).
  pose proof (record_endless segd_plat ex_rec _ ex_traces Hp Hc G Ho (Permutation_refl _) Bf F Ln ltac:(rewrite L; reflexivity)) as E. fold small_args in E.
  destruct (program_run 100 (fun _ => O) _ _ _ _ _ ltac:(lia) E) as (e & Ep & _).
  assert (X : match d_program 100 (fun _ => O) segd_plat small_args (map fst ex_traces) with Ok (DDone _, _) => true | _ => false end = true) by (vm_compute; reflexivity).
  rewrite Ep in X. destruct e as [| |bs|bs]; try discriminate X. assert (C : 0 <= 100) by lia. specialize (H _ _ _ _ _ _ _ _ _ C E Ep).
  apply (f_equal len) in H. rewrite L in H. unfold cut, len in H. pose proof (firstn_le_length (Z.to_nat 100) (fr_bytes (ex_rec, ex_traces))). lia.
Qed.
Print Assumptions C109_silent_refuted.

(** The record of C42 (three traces) on disks of several sizes: how the program
    ended, how much is found, how many traces a reader gets and whether it came to
    the end; and the same for a program killed after some of its operations. *)
Definition d_reads (c : list Z) : outcome (Z * bool) :=
  let* s := isegd_open segd_plat c [] in
  Ok (fold_left (fun n k => match d_take segd_plat k s with Ok _ => Z.of_nat k | _ => n end) [1%nat; 2%nat; 3%nat] 0,
      match d_take segd_plat 3 s with Ok (_, s1) => negb (d_has_trace s1) | _ => false end).
Definition d_brief (o : outcome (dend * list Z)) : outcome (dend * Z * outcome (Z * bool)) :=
  let* (e, c) := o in Ok (e, len c, d_reads c).
Definition d_sizes (sch : nat -> nat) (caps : list Z) :=
  map (fun cap => d_brief (d_program cap sch segd_plat small_args (map fst ex_traces))) caps.
Definition d_after (j : nat) : Z * outcome (Z * bool) :=
  let c := k_disk (snd (k_ops 10000 (fun _ => 1000%nat) (firstn j (d_program_ops segd_plat small_args (map fst ex_traces))) (mkStream [] 0 [] false 0))) in
  (len c, d_reads c).
Example C109_case :
  map (ends ex_rec ex_traces) (seq 0 4) = [256; 352; 448; 544] /\
  d_sizes (fun _ => 1000%nat) [100; 400] = [Ok (DNoRoom, 100, Throw EIO); Ok (DFull [true], 400, Ok (1, false))] /\
  d_sizes (fun _ => O) [400] = [Ok (DDone [true; true; true], 400, Ok (1, false))] /\
  map d_after [7%nat; 9%nat; 20%nat] = [(224, Throw EIO); (276, Ok (0, false)); (544, Ok (3, true))].
Proof. split; [vm_compute; reflexivity|]. split; [vm_compute; reflexivity|]. split; vm_compute; reflexivity. Qed.

(** Two traces of the record, and between them one whose header is refused: the
    file is that of two traces, and the reader throws where the third would be. *)
Definition mixed : list trace := [ex_trace 1 1; mkTrace ([("FFID", VInt 7); ("SCAN_TYPE_NUM", VInt 1); ("CH_SET_NUM", VInt 1); ("CHAN", VDbl 0); ("FIRST_TIMING_WORD", VDbl 0)]%string) []; ex_trace 2 2].
Example C109_stopped_case :
  Forall (d_early segd_plat (g2_major (r_g2 ex_rec)) []) mixed /\ p_max_alloc segd_plat < 2 ^ 63 /\
  (let* (r, c) := on_endless segd_plat small_args mixed in Ok (r, len c)) = Ok (Some [true; false; true], 448) /\
  accepted [true; false; true] mixed = map fst (firstn 2 ex_traces) /\
  (let* (e, c) := d_program 448 (fun _ => O) segd_plat small_args mixed in Ok (e, d_reads c)) = Ok (DDone [true; false; true], Ok (2, false)).
Proof.
  split.
  { assert (X : forall n c, ext_complete 2 [] (ex_hdr n c)).
    { intros n c z _ _ k d I H. cbn in I. destruct I as [<-|[<-|[<-|[]]]]; discriminate H. }
    constructor; [split; [apply X|vm_compute; discriminate]|]. constructor; [split; [intros z H; discriminate H|vm_compute; discriminate]|].
    constructor; [split; [apply X|vm_compute; discriminate]|constructor]. }
  split; [reflexivity|]. split; [vm_compute; reflexivity|]. split; [reflexivity|vm_compute; reflexivity].
Qed.

(** One more trace than the record has room for: the last call throws and
    stores nothing, whatever the disk is like. *)
Example C109_file_case :
  let ts := map fst (ex_traces ++ firstn 1 ex_traces) in
  on_endless segd_plat small_args ts = Ok (Some [true; true; true; false], fr_bytes (ex_rec, ex_traces)) /\
  (let* (e, c) := d_program 544 (fun _ => 7%nat) segd_plat small_args ts in Ok (e, len c)) = Ok (DDone [true; true; true; false], 544).
Proof. split; vm_compute; reflexivity. Qed.
