(** Assembly of the SEG-D file theorems. *)
From Coq Require Import Reals Permutation.
From Verif Require Import BaseFacts Platform Fp FpSpec TraceHdr SegyTypes SegyCodec ISegy OSegy SegdTypes SegdSpec
  ISegd OSegd SegdFileFacts SegdIoFacts.
Local Open Scope Z_scope.

Lemma take_read_all p n : forall s ts s1, d_take p n s = Ok (ts, s1) -> d_has_trace s1 = false ->
  (forall m ts2 s2, (m < n)%nat -> d_take p m s = Ok (ts2, s2) -> d_has_trace s2 = true) ->
  d_read_all p n s = Ok (ts, s1).
Proof.
  induction n as [|n IH]; intros s ts s1 E H K; cbn [d_take d_read_all] in *.
  - injection E as <- <-. rewrite H. reflexivity.
  - rewrite (K 0%nat [] s); [|lia|reflexivity].
    destruct (d_read_trace p s) as [[t sa]| |] eqn:Er; cbn [bind] in *; try discriminate E.
    destruct (d_take p n sa) as [[tsa sb]| |] eqn:En; cbn [bind] in *; try discriminate E.
    injection E as <- <-.
    rewrite (IH sa _ _ En H); [reflexivity|]. intros m ts2 s2 L Em.
    apply (K (S m) (t :: ts2) s2); [lia|]. cbn [d_take]. rewrite Er. cbn [bind]. rewrite Em. reflexivity.
Qed.

Lemma same_seen r tcs : Forall (tc_in r) tcs ->
  Forall2 (fun x t' => trace_same (fst x) (snd x) t') tcs (tc_seen tcs).
Proof.
  induction 1 as [|[t c] tcs H F IH]; [constructor|]. cbn [tc_seen map].
  constructor; [|exact IH]. apply (seen_same r). exact H.
Qed.

Lemma fr_same p xs : Forall (fr_ok p) xs ->
  Forall2 (fun x t' => trace_same (fst x) (snd x) t') (fr_traces xs) (tc_seen (fr_traces xs)).
Proof.
  induction 1 as [|x xs H F IH]; [constructor|]. unfold fr_traces. cbn [map concat]. fold (fr_traces xs).
  unfold tc_seen. rewrite map_app. apply Forall2_app; [|exact IH].
  apply (same_seen (fst x)). apply H.
Qed.

Lemma at_rec_shows p D s r k tcs l : at_rec p D s r k tcs l ->
  d_g1 s = gh1_seen (r_g1 r) (r_ext r) /\ get_g2 s = Some (gh2_seen (r_g2 r) gh2_zero) /\
  d_sets s = map (map (fun c => chset_seen (fst3 c))) (r_sets r) /\
  d_extd s = r_extd r /\ d_extl s = r_extl r /\ d_chans s = r_chans r /\ d_read s = k.
Proof.
  intros ((R & _) & _ & _ & _ & _ & _ & (q & _ & _ & H1 & H2 & H3 & H4 & H5 & _ & _ & H6 & H7)).
  destruct R as (_ & _ & _ & _ & RA & _).
  unfold get_g2. rewrite H1, H2. cbn [gh1_seen g1_add_blocks].
  split; [reflexivity|]. split; [|auto].
  pose proof (len_nonneg (r_N r)). destruct (Z.eqb_spec (g1_add_blocks (r_g1 r)) 0); [exfalso; lia|reflexivity].
Qed.

Lemma reach p xs before y after : plat_ok p -> Forall (fr_ok p) xs -> xs = before ++ y :: after ->
  len (concat (map fr_bytes xs)) < 2 ^ 63 -> forall s0, isegd_open p (concat (map fr_bytes xs)) [] = Ok s0 ->
  exists s, d_take p (List.length (fr_traces before)) s0 = Ok (tc_seen (fr_traces before), s) /\
    at_rec p (concat (map fr_bytes xs)) s (fst y) 0 (snd y) (concat (map fr_bytes after)).
Proof.
  intros Hp F -> LD s0 E0. destruct before as [|x b]; cbn [app] in *.
  - destruct (open_recs p y after Hp F LD) as (s & E & A & _). rewrite E in E0. injection E0 as <-.
    exists s. split; [reflexivity|exact A].
  - destruct (open_recs p x (b ++ y :: after) Hp F LD) as (s & E & A & _). rewrite E in E0. injection E0 as <-.
    inversion F as [|? ? F1 F2]; subst. apply Forall_app in F2 as [F2 F3]. inversion F3 as [|? ? F4 F5]; subst.
    replace (concat (map fr_bytes (b ++ y :: after)))
      with (concat (map fr_bytes b) ++ fr_bytes y ++ concat (map fr_bytes after)) in A
      by (rewrite map_app, concat_app; reflexivity).
    destruct (take_recs p _ b Hp LD F2 s (fst x) (snd x) y (concat (map fr_bytes after)) F4 A) as (s' & E' & A').
    exists s'. split; [exact E'|exact A'].
Qed.

Lemma record_cursor : forall p xs,
  plat_ok p -> xs <> [] -> Forall (fr_ok p) xs -> len (concat (map fr_bytes xs)) < 2 ^ 63 ->
  exists s0, isegd_open p (concat (map fr_bytes xs)) [] = Ok s0 /\
  (forall before r done todo after, xs = before ++ (r, done ++ todo) :: after -> todo <> [] ->
     exists ts s, d_take p (List.length (fr_traces before ++ done)) s0 = Ok (ts, s) /\
       Forall2 (fun x t' => trace_same (fst x) (snd x) t') (fr_traces before ++ done) ts /\
       d_g1 s = gh1_seen (r_g1 r) (r_ext r) /\
       get_g2 s = Some (gh2_seen (r_g2 r) gh2_zero) /\
       d_sets s = map (map (fun c => chset_seen (fst3 c))) (r_sets r) /\
       d_extd s = r_extd r /\ d_extl s = r_extl r /\
       d_chans s = r_chans r /\ d_read s = len done /\
       d_has_trace s = true /\ has_record s = true) /\
  (exists ts s, d_take p (List.length (fr_traces xs)) s0 = Ok (ts, s) /\
     Forall2 (fun x t' => trace_same (fst x) (snd x) t') (fr_traces xs) ts /\
     d_has_trace s = false /\ has_record s = false).
Proof.
  intros p xs Hp N F LD. destruct xs as [|x xs]; [congruence|].
  destruct (open_recs p x xs Hp F LD) as (s0 & E0 & _). exists s0. split; [exact E0|]. split.
  - intros before r done todo after Ex Nt.
    destruct (reach p _ before _ after Hp F Ex LD s0 E0) as (s & E & A). cbn [fst snd] in A.
    destruct (take_in p _ r _ done Hp s 0 todo A Nt) as (s' & E' & A' & _). rewrite Z.add_0_l in A'.
    eexists _, s'. rewrite app_length. split; [apply (d_take_app p _ _ _ _ _ E _ _ E')|].
    rewrite Ex in F. apply Forall_app in F as [F1 F2]. inversion F2 as [|? ? F3 F4]; subst.
    destruct F3 as (_ & F3 & _). cbn [fst snd] in F3. apply Forall_app in F3 as [F3 _].
    split; [apply Forall2_app; [apply (fr_same p), F1|apply (same_seen r), F3]|].
    destruct (at_rec_shows _ _ _ _ _ _ _ A') as (S1 & S2 & S3 & S4 & S5 & S6 & S7).
    destruct (at_rec_more _ _ _ _ _ _ _ A') as [M1 M2]. auto 15.
  - destruct (at_last (x :: xs)) as (b & y & Eb); [discriminate|].
    destruct (reach p _ b y [] Hp F Eb LD s0 E0) as (s & E & A). cbn [map concat] in A.
    destruct (take_last p _ s _ _ _ Hp A) as (s' & E' & H1 & H2).
    exists (tc_seen (fr_traces (x :: xs))), s'.
    assert (Et : fr_traces (x :: xs) = fr_traces b ++ snd y).
    { rewrite Eb. unfold fr_traces. rewrite map_app, concat_app. cbn [map concat]. rewrite app_nil_r. reflexivity. }
    split; [|split; [apply (fr_same p), F|auto]].
    rewrite Et, app_length. unfold tc_seen. rewrite map_app. apply (d_take_app p _ _ _ _ _ E _ _ E').
Qed.

Lemma bset_last m k b : Forall (fun kb => fst kb < k) m -> bset m k b = m ++ [(k, b)].
Proof.
  induction 1 as [|[k' b'] m H F IH]; [reflexivity|]. cbn [bset app fst] in *.
  destruct (Z.eqb_spec k k'); [lia|]. destruct (Z.ltb_spec k k'); [lia|]. rewrite IH. reflexivity.
Qed.

Lemma fold_bset hs : forall pre, in_order (pre ++ hs) ->
  fold_left (fun m h => bset m (gN_block_num h) (AN h)) hs (gN_map pre) = gN_map (pre ++ hs).
Proof.
  induction hs as [|h hs IH]; intros pre H; cbn [fold_left].
  - rewrite app_nil_r. reflexivity.
  - rewrite bset_last.
    + change (gN_map pre ++ [(gN_block_num h, AN h)]) with (gN_map pre ++ gN_map [h]).
      unfold gN_map at 1 2. rewrite <- map_app. fold (gN_map (pre ++ [h])).
      rewrite IH; rewrite <- app_assoc; [reflexivity|exact H].
    + apply Forall_map, Forall_forall. intros x Hx. cbn [fst]. apply In_nth_error in Hx as (i & Hi).
      apply (H i (List.length pre)).
      * apply nth_error_Some. congruence.
      * rewrite nth_error_app1; [exact Hi|]. apply nth_error_Some. congruence.
      * rewrite nth_error_app2, Nat.sub_diag by lia. reflexivity.
Qed.

Lemma mapM_gN hs :
  mapM (fun kb : Z * addblk => match snd kb with AN h => Ok h | A3 _ _ _ => UB end) (gN_map hs) = Ok hs.
Proof.
  induction hs as [|h hs IH]; [reflexivity|]. cbn [gN_map map mapM snd bind].
  fold (gN_map hs). rewrite IH. reflexivity.
Qed.

Lemma record_round_trip : forall p r hs tcs,
  plat_ok p -> p_chans0 p = 0 -> rec_good p r ->
  in_order (map fst3 (r_N r)) -> Permutation hs (map fst3 (r_N r)) ->
  Forall (fun h => block_fields (gN_block_num (fst3 h)) = None) (r_N r) ->
  Forall (tc_in r) tcs -> len tcs = r_chans r -> len (fr_bytes (r, tcs)) < 2 ^ 63 ->
  exists s s' d0 ts' d1,
    osegd_open p (r_g1 r) (r_g2 r) (map (map fst3) (r_sets r)) (map AN hs) (r_extd r) (r_extl r) [] = Ok s /\
    d_write_all p s (map fst tcs) = Ok s' /\
    fdata (od_file s') = fr_bytes (r, tcs) /\
    isegd_open p (fdata (od_file s')) [] = Ok d0 /\
    d_g1 d0 = gh1_seen (r_g1 r) (r_ext r) /\
    get_g2 d0 = Some (gh2_seen (r_g2 r) gh2_zero) /\
    get_gN d0 = Ok (map fst3 (r_N r)) /\
    d_sets d0 = map (map (fun c => chset_seen (fst3 c))) (r_sets r) /\
    d_extd d0 = r_extd r /\ d_extl d0 = r_extl r /\
    d_read_all p (List.length tcs) d0 = Ok (ts', d1) /\
    Forall2 (fun x t' => trace_same (fst x) (snd x) t') tcs ts' /\
    d_has_trace d1 = false /\ has_record d1 = false.
Proof.
  intros p r hs tcs Hp Hc G Ho P BF F Ln LD. pose proof Hp as (Hl & Hf & Ha). pose proof G as (G1 & G2 & G3 & G4).
  rewrite (osegd_open_ok p r hs [] G1 (good_known p r G) (in_order_ascending _ Ho) BF P).
  eexists. 
  set (s := mkOD _ _ _ _ _ _ _ _ _ _ _ _).
  assert (Bl : len tcs < 2 ^ 63).
  { pose proof LD as LD'. unfold fr_bytes in LD'. cbn [fst snd] in LD'. rewrite len_app in LD'.
    pose proof (len_nonneg (rec_hdr r)).
    assert (K : 20 * len tcs <= len (tc_bytes tcs)).
    { clear - F p. induction F as [|[t c] tcs H F IH]; [vm_compute; discriminate|].
      unfold tc_bytes. cbn [map concat snd]. rewrite len_app, len_cons. fold (tc_bytes tcs).
      pose proof (trc_len r t c p H). lia. }
    pose proof (len_nonneg tcs). lia. }
  assert (Bn := len_nonneg tcs).
  destruct (write_all_ok p r Hl Hf Ha G1 G2 G3 G4 (map fst tcs) (map snd tcs) s (rec_hdr r))
    as (s' & E' & _ & Ef & _).
  { repeat split. }
  { clear - F. induction F as [|[t c] tcs H F IH]; constructor; assumption. }
  { reflexivity. }
  { cbn. lia. }
  { cbn [s od_written od_chans]. rewrite len_map, Hc, wrapu_small by lia. lia. }
  { cbn [s od_chans]. unfold wrapu. apply Z.mod_pos_bound. lia. }
  assert (Ed : fdata (od_file s') = fr_bytes (r, tcs)).
  { rewrite Ef. cbn [fend fdata]. unfold fr_bytes, tc_bytes. cbn [fst snd]. rewrite map_map. reflexivity. }
  exists s'. rewrite Ed.
  destruct tcs as [|tc tcs].
  - (* no traces *)
    change (len (@nil (trace * strc))) with 0 in Ln.
    unfold isegd_open.
    match goal with |- context [read_headers_before_traces p ?s] => set (s0 := s) end.
    destruct (read_headers_ok p s0 r (fr_bytes (r, [])) 0 [] Hl ltac:(lia) LD G1 (good_known p r G) eq_refl)
      as (q' & (a & Ea & Eq) & E).
    { exists []. split; reflexivity. }
    rewrite E. eexists _, [], _. split; [reflexivity|]. split; [exact E'|]. split; [reflexivity|].
    split; [reflexivity|]. cbn [d_g1 d_sets d_extd d_extl]. split; [reflexivity|].
    unfold get_g2, get_gN. cbn [d_g1 d_g2 d_blocks gh1_seen g1_add_blocks gh2_seen g2_major].
    destruct G1 as (_ & _ & _ & _ & RA & _). pose proof (len_nonneg (r_N r)).
    destruct (Z.eqb_spec (g1_add_blocks (r_g1 r)) 0) as [K|_]; [exfalso; lia|].
    split; [reflexivity|]. rewrite G2. change (false || (2 <? 2)) with false. cbv iota.
    pose proof (fold_bset _ [] Ho) as Fb. cbn [gN_map map app] in Fb. fold (gN_map (map fst3 (r_N r))) in Fb.
    split; [cbn [s0 d_blocks]; rewrite Fb; apply mapM_gN|].
    split; [reflexivity|]. split; [reflexivity|]. split; [reflexivity|].
    cbn [List.length d_read_all]. unfold d_has_trace. cbn [d_chans d_read]. rewrite <- Ln.
    change (negb (0 =? 0)) with false. cbv iota. split; [reflexivity|]. split; [constructor|].
    split; [reflexivity|]. unfold has_record. cbn [d_file fat fpos d_eod s0].
    rewrite Eq, Ea, app_nil_r, Z.eqb_refl. reflexivity.
  - assert (Fx : Forall (fr_ok p) (@cons fr (r, tc :: tcs) (@nil fr))).
    { constructor; [|constructor]. split; [exact G|]. split; [exact F|]. split; [exact Ln|].
      split; [discriminate|exact Bl]. }
    assert (EqD : concat (map fr_bytes (@cons fr (r, tc :: tcs) (@nil fr))) = fr_bytes (r, tc :: tcs)).
    { cbn [map concat]. apply app_nil_r. }
    assert (LD2 : len (concat (map fr_bytes (@cons fr (r, tc :: tcs) (@nil fr)))) < 2 ^ 63) by (rewrite EqD; exact LD).
    destruct (open_recs p (r, tc :: tcs) [] Hp Fx LD2) as (d0 & E0 & A0 & B0).
    rewrite EqD in E0, A0. cbn [fst snd] in A0, B0.
    destruct (at_rec_shows _ _ _ _ _ _ _ A0) as (S1 & S2 & S3 & S4 & S5 & S6 & S7).
    destruct (take_last p _ d0 r 0 (tc :: tcs) Hp A0) as (d1 & E1 & H1 & H2).
    exists d0, (tc_seen (tc :: tcs)), d1. split; [reflexivity|]. split; [exact E'|]. split; [reflexivity|].
    split; [exact E0|]. split; [exact S1|]. split; [exact S2|]. split.
    { unfold get_gN, get_g2 in *. destruct (g1_add_blocks (d_g1 d0) =? 0); [discriminate S2|].
      injection S2 as ->. cbn [gh2_seen g2_major]. rewrite G2. change (false || (2 <? 2)) with false. cbv iota.
      pose proof (fold_bset _ [] Ho) as Fb. cbn [gN_map map app] in Fb. fold (gN_map (map fst3 (r_N r))) in Fb.
      rewrite B0, Fb. apply mapM_gN. }
    split; [exact S3|]. split; [exact S4|]. split; [exact S5|]. split.
    { apply take_read_all; [exact E1|exact H1|]. intros m ts2 s2 L E2.
      rewrite <- (firstn_skipn m (tc :: tcs)) in A0.
      destruct (take_in p _ r _ (firstn m (tc :: tcs)) Hp d0 0 (skipn m (tc :: tcs)) A0) as (s3 & E3 & A3 & _).
      { intros K. apply (f_equal (@List.length _)) in K. rewrite skipn_length in K. cbn [List.length] in *. lia. }
      rewrite firstn_length_le in E3 by lia. rewrite E2 in E3. injection E3 as _ <-.
      apply (at_rec_more _ _ _ _ _ _ _ A3). }
    split; [apply (same_seen r), F|]. auto.
Qed.
