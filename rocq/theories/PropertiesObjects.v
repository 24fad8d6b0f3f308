(** C35, C47 and C83: Trace, Trace::Header and Exception as objects. *)
From Verif Require Import Base TraceHdr Objects ObjSpec ObjFacts.

(** C35.  Whatever program of constructions, copies, moves, assignments
    (also to itself), mutations and destructions compiles, it runs without
    touching freed memory, and every live object shows exactly the value that
    the program gave to it. *)
Theorem C35_value_semantics : forall m cs st,
  vrun m (fun _ => None) cs = Some st ->
  exists s, exec_all m mem0 cs = Ok s /\
    forall x, match st x with
              | Some v => view s x = Ok v
              | None => env_get (m_env s) x = None
              end.
Proof.
  intros m cs st H. destruct (run_ok _ _ _ _ _ inv0 H) as (s & E & I).
  exists s. split; [exact E|]. intros x. apply inv_view, I.
Qed.
Print Assumptions C35_value_semantics.

(** A copy is independent of its source: mutating one does not show in the
    other. *)
Theorem C35_copies_are_independent : forall m cs s st x y v smp k w,
  exec_all m mem0 cs = Ok s -> vrun m (fun _ => None) cs = Some st ->
  st x = Some (v, Some smp) -> st y = None ->
  exists s1 s2, exec_all m s [CopyTrace y x; SetHeader (ROf y) k w] = Ok s1 /\
    view s1 x = Ok (v, Some smp) /\ view s1 y = Ok (hset v k w, Some smp) /\
    exec_all m s [CopyTrace y x; SetHeader (ROf x) k w] = Ok s2 /\
    view s2 x = Ok (hset v k w, Some smp) /\ view s2 y = Ok (v, Some smp).
Proof.
  intros m cs s st x y v smp k w E V Ex Ey.
  destruct (run_ok _ _ _ _ _ inv0 V) as (s' & E' & I). rewrite E in E'. injection E' as <-.
  assert (N : Nat.eqb y x = false) by (destruct (Nat.eqb_spec y x); [congruence|reflexivity]).
  assert (N' : Nat.eqb x y = false) by (rewrite Nat.eqb_sym; exact N).
  destruct (run_ok m [CopyTrace y x; SetHeader (ROf y) k w] s st
             (vput (vset st y (Some (v, Some smp))) (ROf y) (hset v k w)) I) as (s1 & E1 & I1).
  { cbn [vrun vstep vhdr]. rewrite Ex. unfold vdecl. rewrite Ey. cbn [vrun vstep vhdr]. unfold vset. rewrite Nat.eqb_refl. reflexivity. }
  destruct (run_ok m [CopyTrace y x; SetHeader (ROf x) k w] s st
             (vput (vset st y (Some (v, Some smp))) (ROf x) (hset v k w)) I) as (s2 & E2 & I2).
  { cbn [vrun vstep vhdr]. rewrite Ex. unfold vdecl. rewrite Ey. cbn [vrun vstep vhdr]. unfold vset. rewrite N, Ex. reflexivity. }
  exists s1, s2. pose proof (inv_view _ _ x I1) as A. pose proof (inv_view _ _ y I1) as B.
  pose proof (inv_view _ _ x I2) as C. pose proof (inv_view _ _ y I2) as D.
  unfold vput, vset in A, B, C, D. cbn [rname] in A, B, C, D.
  rewrite Nat.eqb_refl, N, Ex in A. rewrite Nat.eqb_refl, Nat.eqb_refl in B.
  rewrite N, Ex, Nat.eqb_refl in C. rewrite N, Ex, N', Nat.eqb_refl in D.
  repeat (split; [assumption|]). assumption.
Qed.
Print Assumptions C35_copies_are_independent.

Definition moves_example : moves := mkMoves (fun old _ => old) (fun _ _ => []).
Definition program_example : list stmt :=
  [NewTrace 0%nat [("FFID"%string, VInt 1)] [10; 20]; CopyTrace 1%nat 0%nat; SetHeader (ROf 0%nat) "FFID" (VInt 2);
   CopyHeader 2%nat (ROf 0%nat); AssignTrace 1%nat 1%nat; SetHeader (RVar 2%nat) "CH_NUM" (VInt 5); MoveTrace 3%nat 0%nat;
   AssignHeader (ROf 1%nat) (RVar 2%nat); MoveAssignTrace 0%nat 1%nat; Destroy 1%nat].
Example C35_case :
  (let* s := exec_all moves_example mem0 program_example in
   let* a := view s 0%nat in let* b := view s 2%nat in let* c := view s 3%nat in Ok (a, b, c)) =
  Ok (([("FFID"%string, VInt 2); ("CH_NUM"%string, VInt 5)], Some [10; 20]),
      ([("FFID"%string, VInt 2); ("CH_NUM"%string, VInt 5)], None),
      ([("FFID"%string, VInt 2)], Some [10; 20])) /\
  vrun moves_example (fun _ => None) program_example <> None.
Proof. split; [vm_compute; reflexivity|]. cbn. discriminate. Qed.

(** C47.  An exception shows its message after any number of moves. *)
Theorem C47_message_survives_moves : forall h file_ line msg n,
  let (e, h1) := exc_new h file_ line msg in
  exc_what h1 (Nat.iter n (fun e => fst (exc_move e)) e) = Ok (file_ ++ [32] ++ digits 20 line ++ [32] ++ msg).
Proof.
  intros h file_ line msg n. unfold exc_new.
  assert (E : Nat.iter n (fun e => fst (exc_move e)) (Some (List.length h)) = Some (List.length h)).
  { induction n as [|n IH]; [reflexivity|]. exact (f_equal (fun e => fst (exc_move e)) IH). }
  rewrite E. cbn [exc_what]. apply load_new.
Qed.
Print Assumptions C47_message_survives_moves.

(** C83, refuted: a copy dereferences a null pointer. *)
Theorem C83_copy_refuted : forall h file_ line msg,
  let (e, h1) := exc_new h file_ line msg in exc_copy h1 e = UB.
Proof. reflexivity. Qed.
Print Assumptions C83_copy_refuted.

Example C47_case : let (e, h1) := exc_new [] [102; 46; 99] 1205 [33] in
  exc_what h1 (fst (exc_move e)) = Ok [102; 46; 99; 32; 49; 50; 48; 53; 32; 33].
Proof. reflexivity. Qed.
