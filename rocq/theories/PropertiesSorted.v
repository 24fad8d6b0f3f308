(** C31-C33 and C78: the sorted SEG-Y reader. *)
From Coq Require Import Permutation Sorted.
From Verif Require Import BaseFacts Platform Fp TraceHdr SegyTypes SegyCodec ISegy Sorted1D LayoutSpec BinFacts
     ReadSpec ReadFacts PropertiesCodec PropertiesLayout PropertiesRound PropertiesRead SortedSpec SortedFacts.

(** C31.  Reading a file of [ts] through the sorted reader gives exactly those
    traces, in non-decreasing order of the header, equal keys in file order;
    then has_trace is false. *)
Theorem C31_sorted_iteration : forall p content maps s name n ts sE,
  p_max_alloc p < 2 ^ 63 -> len content < 2 ^ 63 -> opened p content maps s ->
  read_all p n s = Ok (ts, sE) -> ts <> [] -> Forall (has_key name) ts ->
  exists so out so', sorted_open p n name s = Ok so /\ sorted_by name ts out /\
    s_read_all p (List.length ts) so = Ok (out, so') /\ s_has_trace so' = false.
Proof.
  intros p content maps s name n ts sE A L O H Ne F.
  destruct (sorted_reader _ _ _ _ _ _ _ _ A L O H Ne F) as (so & out & ks & E & S & K & C).
  exists so, out.
  assert (Lo : List.length out = List.length ts) by (symmetry; apply Permutation_length, S).
  (* The program that asks before each trace, and once more at the end. *)
  set (prog := fix prog (k : nat) : list call := match k with O => [CHas] | S k => CHas :: CTrace :: prog k end).
  set (resp := fix resp (l : list trace) : list answer := match l with [] => [AHas false] | t :: l => AHas true :: ATrace t :: resp l end).
  assert (An : forall l, answers name ts ks l (prog (List.length l)) = Some (resp l)).
  { induction l as [|t l IH]; cbn [List.length prog answers resp]; [reflexivity|]. rewrite IH. reflexivity. }
  assert (Gp : forall k, Forall good_call (prog k)).
  { induction k; cbn [prog]; repeat constructor; assumption. }
  destruct (C (prog (List.length out)) _ (Gp _) (An out)) as (s' & D).
  rewrite Lo in D. clear - D E S Lo.
  assert (T : forall l so, do_calls p (prog (List.length l)) so = Ok (resp l, s') ->
             s_read_all p (List.length l) so = Ok (l, s') /\ s_has_trace s' = false).
  { clear. induction l as [|t l IH]; intros so D; cbn [List.length prog resp do_calls do_call s_read_all] in *.
    - cbn [bind] in D. injection D as D1 D2. subst so. rewrite D1. split; reflexivity || exact D1.
    - cbn [bind] in D. apply bind_ok in D as ([l1 s1] & D & D'). injection D' as D1 D2 D3. subst s1.
      apply bind_ok in D as ([a s2] & D & D'). apply bind_ok in D as ([t2 s3] & D & D4). injection D4 as <- <-.
      apply bind_ok in D' as ([l2 s4] & D4 & D5). injection D5 as <- <-. injection D2 as -> ->.
      rewrite D1, D. cbn [bind]. destruct (IH _ D4) as [I1 I2]. rewrite I1. split; [reflexivity|exact I2]. }
  rewrite <- Lo in D. destruct (T out so D) as [R1 R2]. exists s'. rewrite <- Lo. auto.
Qed.
Print Assumptions C31_sorted_iteration.

(** C32.  Every program of calls that does not read beyond the last trace gets
    the expected answers: the traces or headers of the sorted order, whatever
    queries are made in between; for a query the first [n] traces (or headers)
    with the key, in file order; the increasing list of keys. *)
Theorem C32_key_queries : forall p content maps s name n ts sE,
  p_max_alloc p < 2 ^ 63 -> len content < 2 ^ 63 -> opened p content maps s ->
  read_all p n s = Ok (ts, sE) -> ts <> [] -> Forall (has_key name) ts ->
  exists so out ks, sorted_open p n name s = Ok so /\ sorted_by name ts out /\ keys_of name ts ks /\
    forall cs a, Forall good_call cs -> answers name ts ks out cs = Some a ->
      exists s', do_calls p cs so = Ok (a, s').
Proof.
  intros p content maps s name n ts sE A L O H Ne F.
  exact (sorted_reader _ _ _ _ _ _ _ _ A L O H Ne F).
Qed.
Print Assumptions C32_key_queries.

(** Four traces with the keys 7, 3, 7, -1. *)
Definition four_records : list Z :=
  num_record 7 1 [10] ++ num_record 3 0 [] ++ num_record 7 2 [20; 30] ++ num_record (-1) 1 [40].
Definition show_answer (a : answer) :=
  match a with
  | ATrace t => [show_num t]
  | AHeader h => [([hget h "A"; hget h "SAMP_NUM"]%string, [])]
  | ATraces l => map show_num l
  | AHeaders l => map (fun h => ([hget h "A"; hget h "SAMP_NUM"]%string, [])) l
  | AKeys l => map (fun v => ([Some v], [])) l
  | AHas b => [([], if b then [1] else [])]
  end.
Example C32_case :
  match isegy_open plat_example (file_of var_bytes four_records) maps_num with
  | Ok s =>
    (let* (ts, _) := read_all plat_example 9 s in Ok (map (fun t => hget (t_hdr t) "A") ts),
     let* so := sorted_open plat_example 9 "A" s in
     let* (l, _) := do_calls plat_example
         [CTrace; CKeys; CTraces (VInt 7) 1; CHeader; CHeaders (VInt 7) 9; CTrace; CTraces (VInt 4) 9; CTrace; CHas] so in
     Ok (map show_answer l))
  | _ => (UB, UB)
  end =
  (Ok [Some (VInt 7); Some (VInt 3); Some (VInt 7); Some (VInt (-1))],
   Ok [[([Some (VInt (-1)); Some (VInt 1)], [4630826316843712512])];
       [([Some (VInt (-1))], []); ([Some (VInt 3)], []); ([Some (VInt 7)], [])];
       [([Some (VInt 7); Some (VInt 1)], [4621819117588971520])];
       [([Some (VInt 3); Some (VInt 0)], [])];
       [([Some (VInt 7); Some (VInt 1)], []); ([Some (VInt 7); Some (VInt 2)], [])];
       [([Some (VInt 7); Some (VInt 1)], [4621819117588971520])];
       [];
       [([Some (VInt 7); Some (VInt 2)], [4626322717216342016; 4629137466983448576])];
       [([], [])]]).
Proof. vm_compute. reflexivity. Qed.

Example C31_case : exists s ts sE, opened plat_example (file_of var_bytes four_records) maps_num s /\
  read_all plat_example 9 s = Ok (ts, sE) /\ ts <> [] /\ Forall (has_key "A") ts.
Proof.
  assert (K : match isegy_open plat_example (file_of var_bytes four_records) maps_num with
              | Ok s => match read_all plat_example 9 s with
                        | Ok (ts, _) => map (fun t => hget (t_hdr t) "A") ts
                        | _ => [] end
              | _ => [] end = [Some (VInt 7); Some (VInt 3); Some (VInt 7); Some (VInt (-1))]) by (vm_compute; reflexivity).
  set (o := isegy_open plat_example (file_of var_bytes four_records) maps_num) in *.
  assert (E : isegy_open plat_example (file_of var_bytes four_records) maps_num = o) by reflexivity. clearbody o.
  destruct o as [s| |]; [|discriminate K|discriminate K].
  destruct (read_all plat_example 9 s) as [[ts sE]| |] eqn:R; [|discriminate K|discriminate K].
  exists s, ts, sE. split; [left; exact E|]. split; [exact R|]. clear - K.
  split; [intros ->; discriminate|]. destruct ts as [|a [|b [|c [|d [|? ?]]]]]; try discriminate.
  injection K as Ka Kb Kc Kd. repeat constructor; eexists; (split; [eassumption|exact I]).
Qed.

(** C33.  A header name that some trace lacks makes the constructor throw. *)
Theorem C33_missing_header_throws : forall p content maps s name n ts sE ts1 t ts2,
  p_max_alloc p < 2 ^ 63 -> len content < 2 ^ 63 -> opened p content maps s ->
  read_all p n s = Ok (ts, sE) -> ts = ts1 ++ t :: ts2 -> Forall (has_key name) ts1 ->
  hget (t_hdr t) name = None -> sorted_open p n name s = Throw ESedaman.
Proof. intros. eapply sorted_missing; eassumption. Qed.
Print Assumptions C33_missing_header_throws.

Example C33_case :
  (let* s := isegy_open plat_example (file_of var_bytes four_records) maps_num in
   let* (ts, _) := read_all plat_example 9 s in
   Ok (map (fun t => hget (t_hdr t) "CDP") ts, is_ok (sorted_open plat_example 9 "CDP" s))) =
  Ok ([None; None; None; None], false).
Proof. vm_compute. reflexivity. Qed.

(** C78, refuted: a file without traces is undefined behaviour instead of an empty iterator. *)
Theorem C78_empty_file_refuted :
  (forall p n name s, has_trace s = false -> sorted_open p n name s = UB) /\
  exists s, opened plat_example (file_of var_bytes []) maps_num s /\ has_trace s = false.
Proof.
  split.
  - intros p n name s H. unfold sorted_open. destruct n; cbn [scan]; rewrite H; reflexivity.
  - destruct (run (isegy_open plat_example (file_of var_bytes []) maps_num) has_trace false) as (s & E & G); [vm_compute; reflexivity|].
    exists s. split; [left; exact E|exact G].
Qed.
Print Assumptions C78_empty_file_refuted.
