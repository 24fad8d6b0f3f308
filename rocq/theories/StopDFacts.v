(** C109: a program that gives the writer only some of the traces of a record. *)
From Coq Require Import Lia Permutation.
From Verif Require Import BaseFacts Platform Fp TraceHdr SegyTypes SegyCodec ISegy OSegy SegdTypes SegdSpec ISegd OSegd StepX OSegdX Procs CtorX RefuseSpec DRefuseSpec
     SegdFileFacts SegdIoFacts SegdFileProps DRefuseFacts CtorFacts DiskDSpec CutDFacts.
Local Open Scope Z_scope.

Lemma written_first p r hs tcs k : plat_ok p -> p_chans0 p = 0 -> rec_good p r ->
  in_order (map fst3 (r_N r)) -> Permutation hs (map fst3 (r_N r)) ->
  Forall (fun h => block_fields (gN_block_num (fst3 h)) = None) (r_N r) ->
  Forall (tc_in r) tcs -> len tcs = r_chans r -> len (fr_bytes (r, tcs)) < 2 ^ 63 ->
  exists s s', args_open p (record_args r hs) = Ok s /\ d_write_all p s (map fst (firstn k tcs)) = Ok s' /\
    fdata (od_file s') = rec_hdr r ++ tc_bytes (firstn k tcs).
Proof.
  intros Hp Hc G Ho P BF F Ln LD. pose proof Hp as (Hl & Hf & Ha). pose proof G as (G1 & G2 & G3 & G4).
  change (args_open p (record_args r hs)) with (osegd_open p (r_g1 r) (r_g2 r) (map (map fst3) (r_sets r)) (map AN hs) (r_extd r) (r_extl r) []).
  rewrite (osegd_open_ok p r hs [] G1 (good_known p r G) (in_order_ascending _ Ho) BF P). eexists. set (s := mkOD _ _ _ _ _ _ _ _ _ _ _ _).
  assert (Bl : len tcs < 2 ^ 63).
  { pose proof LD as LD'. unfold fr_bytes in LD'. cbn [fst snd] in LD'. rewrite len_app in LD'. pose proof (len_nonneg (rec_hdr r)).
    assert (K : 20 * len tcs <= len (tc_bytes tcs)).
    { clear - F p. induction F as [|[t c] tcs H F IH]; [vm_compute; discriminate|].
      unfold tc_bytes. cbn [map concat snd]. rewrite len_app, len_cons. fold (tc_bytes tcs). pose proof (trc_len r t c p H). lia. }
    pose proof (len_nonneg tcs). lia. }
  assert (Bn := len_nonneg tcs).
  assert (Fk : Forall (tc_in r) (firstn k tcs)) by (rewrite <- (firstn_skipn k tcs) in F; apply Forall_app in F; apply F).
  assert (Lk : len (firstn k tcs) <= len tcs) by (unfold len; rewrite firstn_length; lia).
  destruct (write_all_ok p r Hl Hf Ha G1 G2 G3 G4 (map fst (firstn k tcs)) (map snd (firstn k tcs)) s (rec_hdr r)) as (s' & E' & _ & Ef & _).
  { repeat split. }
  { clear - Fk. induction Fk as [|[t c] x H F IH]; constructor; assumption. }
  { reflexivity. }
  { cbn. lia. }
  { cbn [s od_written od_chans]. rewrite len_map, Hc, wrapu_small by lia. lia. }
  { cbn [s od_chans]. unfold wrapu. apply Z.mod_pos_bound. lia. }
  exists s'. split; [reflexivity|]. split; [exact E'|]. rewrite Ef. cbn [fend fdata]. unfold tc_bytes. rewrite map_map. reflexivity.
Qed.

Lemma stopped_file p r hs tcs k ts bs c : plat_ok p -> p_chans0 p = 0 -> p_max_alloc p < 2 ^ 63 -> rec_good p r ->
  in_order (map fst3 (r_N r)) -> Permutation hs (map fst3 (r_N r)) ->
  Forall (fun h => block_fields (gN_block_num (fst3 h)) = None) (r_N r) ->
  Forall (tc_in r) tcs -> len tcs = r_chans r -> len (fr_bytes (r, tcs)) < 2 ^ 63 ->
  Forall (d_early p (g2_major (r_g2 r)) []) ts -> on_endless p (record_args r hs) ts = Ok (Some bs, c) -> accepted bs ts = map fst (firstn k tcs) ->
  c = rec_hdr r ++ tc_bytes (firstn k tcs).
Proof.
  intros Hp Hc Ma G Ho P BF F Ln LD Fe E A.
  destruct (written_first p r hs tcs k Hp Hc G Ho P BF F Ln LD) as (s & s' & Eo & Ew & Ed).
  unfold on_endless in E. destruct (segd_described p (record_args r hs)) as (D1 & _). destruct (x_segd p (record_args r hs) empty_file) as [o f]. cbn [fst] in D1. subst o.
  rewrite Eo in E. destruct (d_attempt p s ts) as [[bs' s1]|x|] eqn:Ea; cbn [bind] in E; [|discriminate..]. injection E as <- <-.
  change (args_open p (record_args r hs)) with (osegd_open p (r_g1 r) (r_g2 r) (map (map fst3) (r_sets r)) (map AN hs) (r_extd r) (r_extl r) []) in Eo.
  destruct (open_end _ _ _ _ _ _ _ _ _ Eo) as (_ & O1 & O2 & O3 & O4). rewrite <- O1 in O4. rewrite <- O2, <- O3 in Fe.
  pose proof (attempt_early p Ma ts s bs' s1 O4 Fe Ea) as Q. rewrite A, Ew in Q. injection Q as <-. exact Ed.
Qed.

Lemma first_is_cut r tcs k : rec_hdr r ++ tc_bytes (firstn k tcs) = firstn (Z.to_nat (ends r tcs k)) (fr_bytes (r, tcs)).
Proof.
  assert (T : tc_bytes tcs = tc_bytes (firstn k tcs) ++ tc_bytes (skipn k tcs)) by (unfold tc_bytes; rewrite <- concat_app, <- map_app, firstn_skipn; reflexivity).
  unfold fr_bytes. cbn [fst snd]. rewrite T, app_assoc.
  rewrite firstn_app. unfold ends. replace (Z.to_nat _) with (List.length (rec_hdr r ++ tc_bytes (firstn k tcs))) by (rewrite app_length; unfold len; lia).
  rewrite Nat.sub_diag, firstn_all. cbn [firstn]. symmetry. apply app_nil_r.
Qed.
