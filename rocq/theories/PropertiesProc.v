(** C100: several SEG-D writers in one program. *)
From Coq Require Import String.
From Verif Require Import BaseFacts Platform CodecSpec Fp TraceHdr SegyTypes SegyCodec ISegy OSegy SegdTypes SegdSpec OSegd StepX OSegdX
  RoundSpec SegdExamples Procs ProcSpec ProcFacts.
Local Open Scope string_scope.
Local Open Scope list_scope.
Local Open Scope Z_scope.

(** C100.  Whatever the order of the calls, every writer of the program has
    given the results, and has written the file, of a program in which it is the
    only writer.

    Partial: at most one writer has format 8015, or the traces given to such
    writers have a number of samples divisible by four. *)
Theorem C100_alone_partial : forall p cs rs pr,
  one_packed p cs \/ in_fours p cs -> p_run p proc0 cs = Ok (rs, pr) ->
  List.length (pr_objs pr) = List.length (writers p cs) /\
  forall i s, nth_error (writers p cs) i = Some s ->
    exists o s', nth_error (pr_objs pr) i = Some o /\ d_calls p s (traces_of i cs) = Ok (results_of i cs rs, s') /\
      od_file o = od_file s' /\ od_written o = od_written s'.
Proof.
  intros p cs rs pr C H.
  assert (CM : calm ([] ++ writers p cs) [] cs) by (destruct C as [C|C]; [right; exact C|left; split; [exact C|reflexivity]]).
  assert (SH : shared [] []) by (split; [intros [|i] s K; discriminate K|intros K; exfalso; apply K; reflexivity]).
  pose proof (run_alone p cs [] [] SH CM) as R. change (p_run p (mkProc [] (map (with_pend []) [])) cs) with (p_run p proc0 cs) in R.
  rewrite H in R. cbn [app] in R. destruct R as (al & R1 & R2 & R3). rewrite R1, map_length. split; [exact R2|].
  intros i s K. destruct (R3 i s K) as (s' & J1 & J2). exists (with_pend [] s'), s'. rewrite nth_error_map, J1.
  split; [reflexivity|]. split; [exact J2|]. split; reflexivity.
Qed.
Print Assumptions C100_alone_partial.

(** C100.  Nor do the other writers bring undefined behaviour about: if no
    writer has any when it is alone, the program has none, and it ends.

    Partial as before. *)
Theorem C100_defined_partial : forall p cs,
  one_packed p cs \/ in_fours p cs -> scoped p 0 cs ->
  (forall a, In (CNew a) cs -> args_open p a <> UB) ->
  (forall i s, nth_error (writers p cs) i = Some s -> d_calls p s (traces_of i cs) <> UB) ->
  exists rs pr, p_run p proc0 cs = Ok (rs, pr) /\ List.length rs = List.length cs.
Proof.
  intros p cs C S N D.
  assert (CM : calm ([] ++ writers p cs) [] cs) by (destruct C as [C|C]; [right; exact C|left; split; [exact C|reflexivity]]).
  assert (SH : shared [] []) by (split; [intros [|i] s K; discriminate K|intros K; exfalso; apply K; reflexivity]).
  pose proof (run_alone p cs [] [] SH CM) as R. change (p_run p (mkProc [] (map (with_pend []) [])) cs) with (p_run p proc0 cs) in R.
  destruct (p_run p proc0 cs) as [[rs pr]|e|] eqn:E.
  - exists rs, pr. split; [reflexivity|]. exact (run_length p cs _ _ _ E).
  - contradiction.
  - exfalso. destruct R as [(i & s & R1 & R2)|[R|(a & R1 & R2)]]; [exact (D i s R1 R2)|exact (R S)|exact (N a R1 R2)].
Qed.
Print Assumptions C100_defined_partial.

(** A platform with the exponents of format 8015, and the headers of a record
    with a given format. *)
Definition pk_plat : platform :=
  mkPlatform true gcc_d2u (fun _ => Some 65) (2 ^ 40) true true 0 Z.log2 (fun _ => 0)
             (fun _ d => Some (d / 2 ^ 52 - 1023 + 16)).
Definition pk_args (fmt : Z) : osegd_args :=
  mkOA (mkG1 123 fmt 120 19 2 200 12 34 56 20 1234 345678 (i2d 2) 1 16 8 51 1 2 1 1 1) ex_g2
       [[ex_cs 1 1; ex_cs 2 2]] [AN ex_gN] [ex_block] [ex_block] [].
Definition pk_trace (c : Z) (vs : list Z) : trace :=
  mkTrace [("FFID", VInt 70000); ("SCAN_TYPE_NUM", VInt 1); ("CH_SET_NUM", VInt 1); ("CHAN", VInt c); ("TR_HDR_EXT", VInt 0)]
          (map i2d vs).
(** A real number for the number of the channel. *)
Definition pk_bad : trace := mkTrace [("FFID", VInt 70000); ("SCAN_TYPE_NUM", VInt 1); ("CH_SET_NUM", VInt 1); ("CHAN", VDbl 0)] [].
(** The results and the files of a program, and of its [i]-th writer alone. *)
Definition together (cs : list cmd) : outcome (list (outcome unit) * list (list Z)) :=
  let* (rs, pr) := p_run pk_plat proc0 cs in Ok (rs, map (fun o => fdata (od_file o)) (pr_objs pr)).
Definition by_itself (i : nat) (cs : list cmd) : outcome (list (outcome unit) * list Z) :=
  match nth_error (writers pk_plat cs) i with
  | Some s => let* (rs, s') := d_calls pk_plat s (traces_of i cs) in Ok (rs, fdata (od_file s'))
  | None => UB
  end.

(** One writer of format 8015 whose traces have three and four samples, one of
    format 8058; a constructor and two calls throw. *)
Definition pk_calm : list cmd :=
  [CNew (pk_args 8015); CWrite 0 (pk_trace 1 [2; 4; 8]); CNew (pk_args 8000); CNew (pk_args 8058);
   CWrite 1 (pk_trace 1 [1; 2; 3]); CWrite 0 pk_bad; CWrite 0 (pk_trace 2 [16; 2; 2; 2]);
   CWrite 1 (pk_trace 2 [5]); CWrite 1 (pk_trace 3 [6]); CWrite 1 (pk_trace 4 [7])].
Example C100_case :
  one_packed pk_plat pk_calm /\ scoped pk_plat 0 pk_calm /\
  exists a b rs, together pk_calm = Ok (rs, [a; b]) /\
    by_itself 0 pk_calm = Ok ([Ok tt; Throw EVariant; Ok tt], a) /\
    by_itself 1 pk_calm = Ok ([Ok tt; Ok tt; Ok tt; Throw ESedaman], b) /\ len a = 313 /\ len b = 336.
Proof.
  split.
  { intros i j s s' Hi Hj Pi Pj. remember (writers pk_plat pk_calm) as ws eqn:E.
    assert (W : map (fun s => g1_format_code (od_g1 s)) ws = [8015; 8058]) by (rewrite E; vm_compute; reflexivity). clear E.
    apply (map_nth_error (fun s => g1_format_code (od_g1 s))) in Hi, Hj. rewrite W in Hi, Hj. unfold packed in *.
    destruct i as [|[|[|i]]], j as [|[|[|j]]]; try reflexivity; cbn [nth_error] in Hi, Hj; try discriminate; exfalso; congruence. }
  split; [vm_compute; lia|].
  eexists _, _, _. do 4 (split; [vm_compute; reflexivity|]). vm_compute; reflexivity.
Qed.

(** Without the condition.  Two writers of format 8015; the first writes three
    samples, the second four.  All calls succeed, and the second file has three
    of the first writer's values where its own should be: the exponents are
    0, 1, 2, 4 instead of 4, 5, 6, 7.  If the second writes one sample only, the
    program stores four packed values, ten bytes, in an array of two, which
    neither writer does when it is alone. *)
Definition pk_mixed (vs : list Z) : list cmd :=
  [CNew (pk_args 8015); CNew (pk_args 8015); CWrite 0 (pk_trace 1 [2; 4; 8]); CWrite 1 (pk_trace 1 vs)].
Theorem C100_shared_array_refuted :
  (exists a b c h,
    together (pk_mixed [32; 64; 128; 256]) = Ok ([Ok tt; Ok tt; Ok tt; Ok tt], [a; b]) /\
    by_itself 0 (pk_mixed [32; 64; 128; 256]) = Ok ([Ok tt], a) /\
    by_itself 1 (pk_mixed [32; 64; 128; 256]) = Ok ([Ok tt], c) /\
    b = h ++ [1; 36; 128; 0; 128; 0; 128; 0; 128; 0] /\ c = h ++ [69; 103; 128; 0; 128; 0; 128; 0; 128; 0]) /\
  (exists a b, together (pk_mixed [32]) = UB /\
    by_itself 0 (pk_mixed [32]) = Ok ([Ok tt], a) /\ by_itself 1 (pk_mixed [32]) = Ok ([Ok tt], b)).
Proof.
  split.
  - set (c := match by_itself 1 (pk_mixed [32; 64; 128; 256]) with Ok (_, c) => c | _ => [] end).
    eexists _, _, c, (firstn 276 c). do 3 (split; [vm_compute; reflexivity|]). split; vm_compute; reflexivity.
  - eexists _, _. do 2 (split; [vm_compute; reflexivity|]). vm_compute; reflexivity.
Qed.
Print Assumptions C100_shared_array_refuted.

(** Many traces of four and eight samples, and two writers of format 8015. *)
Definition pk_even : list cmd :=
  [CNew (pk_args 8015); CWrite 0 (pk_trace 1 [2; 4; 8; 16]); CNew (pk_args 8015);
   CWrite 1 (pk_trace 1 [1; 2; 3; 4; 5; 6; 7; 8]); CWrite 0 (pk_trace 2 [16; 2; 2; 2])].
Example C100_case_fours :
  in_fours pk_plat pk_even /\ ~ one_packed pk_plat pk_even /\
  exists a b rs, together pk_even = Ok (rs, [a; b]) /\ by_itself 0 pk_even = Ok ([Ok tt; Ok tt], a) /\ by_itself 1 pk_even = Ok ([Ok tt], b).
Proof.
  split.
  { intros i t s [H|[H|[H|[H|[H|[]]]]]] _ _; try discriminate H; injection H as _ <-; vm_compute.
    - exists 1. reflexivity.
    - exists 2. reflexivity.
    - exists 1. reflexivity. }
  split.
  { intros H. assert (W : map (fun s => g1_format_code (od_g1 s)) (writers pk_plat pk_even) = [8015; 8015]) by (vm_compute; reflexivity).
    remember (writers pk_plat pk_even) as ws eqn:E. destruct ws as [|x [|y [|z ws]]]; try discriminate W.
    injection W as Hx Hy. assert (X : 0%nat = 1%nat); [|discriminate X].
    unfold one_packed in H. rewrite <- E in H. apply (H 0%nat 1%nat x y); [reflexivity..|exact Hx|exact Hy]. }
  eexists _, _, _. do 2 (split; [vm_compute; reflexivity|]). vm_compute; reflexivity.
Qed.
