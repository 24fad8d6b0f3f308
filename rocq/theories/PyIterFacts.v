(** Iterating over readers from Python. *)
From Verif Require Import BaseFacts Platform TraceHdr SegyTypes SegyCodec ISegy Sorted1D SegdTypes ISegd
  ReadSpec ReadFacts PropertiesRead PyBind.
Local Open Scope Z_scope.

Lemma mixed_app p a : forall b s, read_mixed p (a ++ b) s =
  (let* (l, s1) := read_mixed p a s in let* (m, s2) := read_mixed p b s1 in Ok (l ++ m, s2)).
Proof.
  induction a as [|op a IH]; intros b s; cbn [app read_mixed].
  - cbn [bind]. destruct (read_mixed p b s) as [[m s2]| |]; reflexivity.
  - match goal with |- context [bind ?x _] => destruct x as [[x1 s1]| |] end; cbn [bind]; [|reflexivity|reflexivity].
    rewrite IH. destruct (read_mixed p a s1) as [[l s2]| |]; cbn [bind]; [|reflexivity|reflexivity].
    destruct (read_mixed p b s2) as [[m s3]| |]; reflexivity.
Qed.

(** The states in the loop that reads all traces. *)
Lemma all_states p n : forall s ts sE, read_all p n s = Ok (ts, sE) -> forall j, (j <= List.length ts)%nat ->
  exists sj, read_mixed p (repeat true j) s = Ok (map Full (firstn j ts), sj) /\
    has_trace sj = (j <? List.length ts)%nat.
Proof.
  induction n as [|n IH]; intros s ts sE H j Hj; cbn [read_all] in H.
  - destruct (has_trace s) eqn:Hh; [discriminate|]. injection H as <- <-. cbn in Hj. replace j with O by lia.
    exists s. split; [reflexivity|exact Hh].
  - destruct (has_trace s) eqn:Hh.
    + apply bind_ok in H as ([t s1] & E & H). apply bind_ok in H as ([ts' s2] & E' & H). injection H as <- <-.
      destruct j as [|j]; [exists s; split; [reflexivity|exact Hh]|]. cbn [List.length] in Hj.
      destruct (IH s1 ts' s2 E' j ltac:(lia)) as (sj & E1 & E2). exists sj. cbn [repeat read_mixed]. rewrite E. cbn [bind].
      rewrite E1. cbn [bind firstn map]. split; [reflexivity|exact E2].
    + injection H as <- <-. cbn in Hj. replace j with O by lia. exists s. split; [reflexivity|exact Hh].
Qed.

Lemma combine_app {A B} (a : list A) : forall b (l : list B), (List.length a <= List.length l)%nat ->
  combine (a ++ b) l = combine a (firstn (List.length a) l) ++ combine b (skipn (List.length a) l).
Proof.
  induction a as [|x a IH]; intros b [|y l] H; cbn in *; try lia; [reflexivity|reflexivity|]. rewrite IH by lia. reflexivity.
Qed.
Lemma parts_true (l : list trace) : forall k, (List.length l <= k)%nat ->
  map (fun x => part_of (fst x) (snd x)) (combine (repeat true k) l) = map Full l.
Proof. induction l as [|t l IH]; intros [|k] H; cbn in *; try lia; try reflexivity. rewrite IH by lia. reflexivity. Qed.

Lemma loop_rest {A} p (body : A -> trace -> A) n : forall s1 a,
  (forall j, (j <= n)%nat -> exists ts' sj, read_mixed p (repeat true j) s1 = Ok (ts', sj) /\ has_trace sj = (j <? n)%nat) ->
  forall ts sE, read_mixed p (repeat true n) s1 = Ok (map Full ts, sE) ->
  forall fuel, (n < fuel)%nat -> py_for (next_segy p) body fuel a s1 = (fold_left body ts a, Ret sE) /\ has_trace sE = false.
Proof.
  induction n as [|n IH]; intros s1 a H ts sE E fuel Hf; (destruct fuel as [|fuel]; [lia|]).
  - cbn [repeat read_mixed] in E. injection E as E1 E2. subst sE. destruct ts; [|discriminate].
    destruct (H O ltac:(lia)) as (ts' & sj & E3 & E4). cbn [repeat read_mixed] in E3. injection E3 as _ <-. cbn in E4.
    cbn [py_for]. unfold next_segy, step. rewrite E4. split; reflexivity.
  - destruct (H O ltac:(lia)) as (ts' & sj & E3 & E4). cbn [repeat read_mixed] in E3. injection E3 as _ <-. cbn in E4.
    cbn [repeat read_mixed] in E. apply bind_ok in E as ([x s2] & E1 & E).
    apply bind_ok in E1 as ([t s2'] & Er & E1). injection E1 as <- <-.
    apply bind_ok in E as ([l s3] & E2 & E). injection E as Ex Es. subst s3. destruct ts as [|t' ts]; [discriminate|].
    cbn [map] in Ex. injection Ex as <- ->. cbn [py_for]. unfold next_segy at 1, step. rewrite E4, Er. cbn [from_cpp].
    cbn [fold_left]. apply (IH s2' (body a t)); [|exact E2|lia].
    intros j Hj. destruct (H (S j) ltac:(lia)) as (ts1 & sj & E5 & E6). cbn [repeat read_mixed] in E5. rewrite Er in E5. cbn [bind] in E5.
    apply bind_ok in E5 as ([l2 s4] & E7 & E8). injection E8 as _ <-. exists l2, s4. split; [exact E7|exact E6].
Qed.

Lemma segy_loop {A} p content maps s n ts sE ops l s1 (body : A -> trace -> A) a fuel :
  opened p content maps s -> p_max_alloc p < 2 ^ 63 -> len content < 2 ^ 63 ->
  read_all p n s = Ok (ts, sE) -> read_mixed p ops s = Ok (l, s1) -> (List.length ops <= List.length ts)%nat ->
  (List.length ts - List.length ops < fuel)%nat ->
  l = map (fun x => part_of (fst x) (snd x)) (combine ops ts) /\
  exists s2, py_for (next_segy p) body fuel a s1 = (fold_left body (skipn (List.length ops) ts) a, Ret s2) /\
    has_trace s2 = false.
Proof.
  intros O Al L H M Hk Hf. set (k := List.length ops) in *.
  assert (W : forall j, (k + j <= List.length ts)%nat -> exists l1 sj,
    read_mixed p (repeat true j) s1 = Ok (l1, sj) /\ has_trace sj = (k + j <? List.length ts)%nat /\
    l ++ l1 = map (fun x => part_of (fst x) (snd x)) (combine ops (firstn (k + j) ts)) ++ map Full (firstn j (skipn k ts)) /\
    List.length l = k).
  { intros j Hj. destruct (all_states p n s ts sE H (k + j) Hj) as (sj & E1 & E2).
    assert (Lo : List.length (ops ++ repeat true j) = (k + j)%nat) by (rewrite app_length, repeat_length; reflexivity).
    rewrite <- Lo in E1.
    destruct (C22_read_header_and_read_trace_agree p content maps s (ops ++ repeat true j) (firstn (List.length (ops ++ repeat true j)) ts) sj O Al L E1)
      as (s2 & E3 & _ & _ & E4). rewrite Lo in *. rewrite mixed_app, M in E3. cbn [bind] in E3.
    apply bind_ok in E3 as ([m s3] & E5 & E6). injection E6 as E6 E7. subst s3. exists m, s2. split; [exact E5|].
    split; [congruence|]. split.
    - rewrite E6. rewrite combine_app by (rewrite firstn_length; unfold k in *; lia). rewrite map_app. fold k. f_equal.
      + f_equal. rewrite firstn_firstn. replace (Nat.min k (k + j)) with k by lia.
        clear -Hj. unfold k. revert ts Hj. induction ops as [|o os IH]; intros [|t ts] Hj; cbn; try reflexivity. f_equal. apply IH.
        cbn in Hj. lia.
      + rewrite <- (parts_true _ j) by (rewrite firstn_length; lia). f_equal. f_equal.
        rewrite skipn_firstn_comm. replace (k + j - k)%nat with j by lia. reflexivity.
    - clear -M. revert s s1 l M. unfold k. induction ops as [|o os IH]; intros s s1 l M; cbn [read_mixed] in M.
      + injection M as <- _. reflexivity.
      + apply bind_ok in M as ([x s3] & _ & M). apply bind_ok in M as ([l2 s4] & M & E). injection E as <- _. cbn. rewrite (IH _ _ _ M). reflexivity. }
  destruct (W 0%nat ltac:(lia)) as (l0 & s0 & E0 & _ & E1 & Ll). cbn [repeat read_mixed] in E0. injection E0 as <- <-.
  cbn [firstn map] in E1. rewrite !app_nil_r, Nat.add_0_r in E1.
  assert (C0 : combine ops (firstn k ts) = combine ops ts).
  { clear. unfold k. revert ts. induction ops as [|o os IH]; intros [|t ts]; cbn; try reflexivity. f_equal. apply IH. }
  split; [rewrite E1, C0; reflexivity|].
  destruct (W (List.length ts - k)%nat ltac:(lia)) as (l1 & s2 & E2 & E3 & E4 & _).
  assert (Fl : l1 = map Full (skipn k ts)).
  { rewrite (firstn_all2 (skipn k ts)) in E4 by (rewrite skipn_length; lia).
    replace (k + (List.length ts - k))%nat with (List.length ts) in E4 by lia. rewrite firstn_all in E4.
    rewrite <- C0, <- E1 in E4. apply app_inv_head in E4. exact E4. }
  subst l1. destruct (loop_rest p body (List.length ts - k)%nat s1 a) with (ts := skipn k ts) (sE := s2) (fuel := fuel) as [F1 F2].
  - intros j Hj. destruct (W j ltac:(lia)) as (m & sj & W1 & W2 & _). exists m, sj. split; [exact W1|]. rewrite W2.
    destruct (Nat.ltb_spec (k + j) (List.length ts)), (Nat.ltb_spec j (List.length ts - k)); try reflexivity; lia.
  - exact E2.
  - exact Hf.
  - exists s2. split; [exact F1|exact F2].
Qed.

(** A loop that stops with an exception. *)
Lemma loop_raises {A} p (body : A -> trace -> A) e : e <> ELoop -> forall k s ts a, collect p k s = (ts, Throw e) ->
  py_for (next_segy p) body (S k) a s = (fold_left body ts a, Raise (FromCpp e)).
Proof.
  intros Ne. induction k as [|k IH]; intros s ts a H; cbn [collect] in H.
  - destruct (has_trace s); congruence.
  - destruct (has_trace s) eqn:Hh; [|congruence]. destruct (read_trace p s) as [[t s1]|e'|] eqn:E.
    + destruct (collect p k s1) as [ts1 o] eqn:C. injection H as <- ->. change (py_for (next_segy p) body (S (S k)) a s)
        with (match next_segy p s with
              | Ret (t, s') => py_for (next_segy p) body (S k) (body a t) s'
              | Raise StopIteration => (a, Ret s) | Raise e => (a, Raise e) | PyUB => (a, PyUB) end).
      unfold next_segy at 1, step. rewrite Hh, E. cbn [from_cpp fold_left]. apply IH, C.
    + injection H as <- ->. cbn [py_for]. unfold next_segy, step. rewrite Hh, E. reflexivity.
    + congruence.
Qed.
Lemma loop_ends {A} p (body : A -> trace -> A) : forall k s ts sE a, collect p k s = (ts, Ok sE) ->
  py_for (next_segy p) body (S k) a s = (fold_left body ts a, Ret sE).
Proof.
  induction k as [|k IH]; intros s ts sE a H; cbn [collect] in H.
  - destruct (has_trace s) eqn:Hh; [congruence|]. injection H as <- <-. cbn [py_for]. unfold next_segy, step. rewrite Hh. reflexivity.
  - destruct (has_trace s) eqn:Hh; [|injection H as <- <-; cbn [py_for]; unfold next_segy, step; rewrite Hh; reflexivity].
    destruct (read_trace p s) as [[t s1]|e'|] eqn:E; [|congruence|congruence].
    destruct (collect p k s1) as [ts1 o] eqn:C. injection H as <- ->. change (py_for (next_segy p) body (S (S k)) a s)
      with (match next_segy p s with
            | Ret (t, s') => py_for (next_segy p) body (S k) (body a t) s'
            | Raise StopIteration => (a, Ret s) | Raise e => (a, Raise e) | PyUB => (a, PyUB) end).
    unfold next_segy at 1, step. rewrite Hh, E. cbn [from_cpp fold_left]. apply IH, C.
Qed.

Lemma fold_snoc {A} (l : list A) : forall a, fold_left (fun x t => x ++ [t]) l a = a ++ l.
Proof. induction l as [|t l IH]; intros a; cbn [fold_left]; [rewrite app_nil_r; reflexivity|]. rewrite IH, <- app_assoc. reflexivity. Qed.

(** Adjacent pairs. *)
Lemma fold_pairs (ts : list trace) : forall h acc,
  snd (fold_left (fun a t => (t_hdr t, snd a ++ [(fst a, t_hdr t)])) ts (h, acc)) =
  acc ++ combine (h :: map t_hdr ts) (map t_hdr ts).
Proof.
  induction ts as [|t ts IH]; intros h acc; cbn [fold_left map combine].
  - rewrite app_nil_r. reflexivity.
  - cbn [fst snd]. rewrite IH. rewrite <- app_assoc. reflexivity.
Qed.

(** Sorted readers and SEG-D. *)
Lemma sorted_loop {A} p (body : A -> trace -> A) n : forall so ts so' a, s_read_all p n so = Ok (ts, so') ->
  py_for (next_sorted p) body (S n) a so = (fold_left body ts a, Ret so') /\ s_has_trace so' = false.
Proof.
  induction n as [|n IH]; intros so ts so' a H; cbn [s_read_all] in H; (destruct (s_has_trace so) eqn:Hh;
    [|injection H as <- <-; cbn [py_for]; unfold next_sorted, step; rewrite Hh; split; reflexivity]); [discriminate|].
  apply bind_ok in H as ([t s1] & E & H). apply bind_ok in H as ([ts' s2] & E' & H). injection H as <- <-.
  change (py_for (next_sorted p) body (S (S n)) a so)
    with (match next_sorted p so with
          | Ret (t, s') => py_for (next_sorted p) body (S n) (body a t) s'
          | Raise StopIteration => (a, Ret so) | Raise e => (a, Raise e) | PyUB => (a, PyUB) end).
  unfold next_sorted at 1, step. rewrite Hh, E. cbn [from_cpp fold_left]. apply IH, E'.
Qed.

Lemma take_app p a : forall b s, d_take p (a + b) s =
  (let* (l, s1) := d_take p a s in let* (m, s2) := d_take p b s1 in Ok (l ++ m, s2)).
Proof.
  induction a as [|a IH]; intros b s; cbn [Nat.add d_take].
  - cbn [bind]. destruct (d_take p b s) as [[m s2]| |]; reflexivity.
  - destruct (d_read_trace p s) as [[t s1]| |]; cbn [bind]; [|reflexivity|reflexivity]. rewrite IH.
    destruct (d_take p a s1) as [[l s2]| |]; cbn [bind]; [|reflexivity|reflexivity].
    destruct (d_take p b s2) as [[m s3]| |]; reflexivity.
Qed.
Lemma segd_loop {A} p (body : A -> trace -> A) n : forall s a ts sE, d_take p n s = Ok (ts, sE) -> has_record sE = false ->
  (forall j, (j < n)%nat -> exists ts' sj, d_take p j s = Ok (ts', sj) /\ has_record sj = true) ->
  forall fuel, (n < fuel)%nat -> py_for (next_segd p) body fuel a s = (fold_left body ts a, Ret sE).
Proof.
  induction n as [|n IH]; intros s a ts sE E Hs H fuel Hf; (destruct fuel as [|fuel]; [lia|]); cbn [d_take] in E.
  - injection E as <- <-. cbn [py_for]. unfold next_segd, step. rewrite Hs. reflexivity.
  - apply bind_ok in E as ([t s1] & E1 & E). apply bind_ok in E as ([ts' s2] & E2 & E). injection E as <- <-.
    destruct (H O ltac:(lia)) as (x & sj & E3 & E4). cbn [d_take] in E3. injection E3 as _ <-.
    cbn [py_for]. unfold next_segd at 1, step. rewrite E4, E1. cbn [from_cpp fold_left]. apply (IH s1); [exact E2|exact Hs| |lia].
    intros j Hj. destruct (H (S j) ltac:(lia)) as (y & sj & E5 & E6). cbn [d_take] in E5. rewrite E1 in E5. cbn [bind] in E5.
    apply bind_ok in E5 as ([l s3] & E7 & E8). injection E8 as _ <-. exists l, s3. auto.
Qed.
