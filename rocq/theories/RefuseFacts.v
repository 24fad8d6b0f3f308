(** Lemmas about a SEG-Y writer that goes on after an exception (C63). *)
From Verif Require Import BaseFacts Platform Fp TraceHdr SegyTypes SegyCodec CodecFacts SampleFacts
     HdrFacts ISegy OSegy StepX OSegyX OpenFacts LayoutSpec LayoutFacts BinFacts WriterFacts RoundFacts RoundSpec FileSpec FileFacts RefuseSpec.

(** The same outcome as in OSegy.v, the same object after success. *)
Definition agrees (r : outcome unit * osegy) (o : outcome osegy) : Prop :=
  match o with
  | Ok s' => r = (Ok tt, s')
  | Throw e => exists s', r = (Throw e, s')
  | UB => exists s', r = (UB, s')
  end.

Lemma o_upd_upd s f b sb f' b' sb' : o_upd (o_upd s f b sb) f' b' sb' = o_upd s f' b' sb'.
Proof. reflexivity. Qed.
Lemma o_upd_same s : o_upd s (o_file s) (o_bh s) (o_sbuf s) = s.
Proof. destruct s; reflexivity. Qed.

Lemma agrees_bind (m : X unit) (k : unit -> X unit) s o (g : osegy -> outcome osegy) :
  agrees (m s) o -> (forall s1, m s = (Ok tt, s1) -> agrees (k tt s1) (g s1)) -> agrees (xbind m k s) (bind o g).
Proof.
  intros H K. unfold xbind. destruct o as [s1|e|]; cbn [agrees bind] in *.
  - rewrite H. apply K. exact H.
  - destruct H as (s' & ->). exists s'. reflexivity.
  - destruct H as (s' & ->). exists s'. reflexivity.
Qed.

Lemma agrees_lift {A} (x : outcome A) (k : A -> X unit) s (g : A -> outcome osegy) :
  (forall a, x = Ok a -> agrees (k a s) (g a)) -> agrees (xbind (xlift x) k s) (bind x g).
Proof.
  intros H. unfold xbind, xlift. destruct x as [a|e|]; cbn [bind agrees]; [apply H; reflexivity|eexists; reflexivity..].
Qed.

Lemma xset_min_agrees p m h s : m <> MNone -> agrees (xset_min p m h s) (set_min p m h s).
Proof.
  intros Hm. unfold xset_min, set_min. cbn [xbind xget]. destruct (negb _); [reflexivity|].
  apply agrees_lift. intros v _. apply agrees_lift. intros n _. destruct (32767 <? n); [eexists; reflexivity|].
  cbn [xbind put_bh]. apply agrees_lift. intros v2 _. apply agrees_lift. intros d _.
  destruct (d_lt _ d); [eexists; reflexivity|]. apply agrees_lift. intros si _.
  destruct (si =? 0); [eexists; reflexivity|]. cbn [xbind put_bh]. apply agrees_lift. intros by_ _.
  cbn [o_upd o_sbuf]. apply agrees_lift. intros sb _. cbn [xbind put_sbuf].
  unfold xwrite_bin_header, write_bin_header. cbn [xbind xget o_upd o_endian o_bh o_file].
  rewrite bin_header_bytes_eq. cbn [bind xlift xbind]. destruct (fseek _ _) as [f|e|]; cbn [bind agrees]; try (eexists; reflexivity); reflexivity.
Qed.

Definition xbody (p : platform) (t : trace) : X unit :=
  let! _ := xwrite_header p (t_hdr t) in
  let! s1 := xget in
  let! _ := (if o_add s1
             then xwrite_additional p (tl (o_maps s1)) (t_hdr t)
                    (Z.to_nat (bh_max_num_add_tr_headers (o_bh s1) - 1))
             else xret tt) in
  xwrite_samples p t.

Lemma xwrite_trace_body p t s : xwrite_trace p t s =
  xbind (match o_min s with MNone => xret tt | m => xset_min p m (t_hdr t) end) (fun _ => xbody p t) s.
Proof. reflexivity. Qed.

Lemma xadd_agrees p h : forall n ls s,
  agrees (xwrite_additional p ls h n s)
    (let* f := write_additional p (o_endian s) ls h n (o_file s) in Ok (o_upd s f (o_bh s) (o_sbuf s))).
Proof.
  induction n as [|n IH]; intros ls s; cbn [xwrite_additional write_additional].
  - cbn [bind xret agrees]. rewrite o_upd_same. reflexivity.
  - cbn [xbind xget]. destruct ls as [|[nm l] ls].
    + exact (IH [] (o_upd s (fwrite (zeros TR_HEADER_SIZE) (o_file s)) (o_bh s) (o_sbuf s))).
    + destruct (hdr_block _ _ _ _) as [b|e|]; cbn [xlift bind agrees]; try (eexists; reflexivity).
      exact (IH ls (o_upd s (fwrite b (o_file s)) (o_bh s) (o_sbuf s))).
Qed.

Lemma xsamples_agrees p t s :
  agrees (xwrite_samples p t s)
    (let* sb := (if o_var s then var_buf p (t_hdr t) (o_bps s) (o_sbuf s) else Ok (o_sbuf s)) in
     let* sb' := fill_samples p (o_endian s) (bh_format_code (o_bh s)) (t_smp t) sb in
     Ok (o_upd s (fwrite sb' (o_file s)) (o_bh s) sb')).
Proof.
  unfold xwrite_samples. cbn [xbind xget]. apply agrees_lift. intros sb _. cbn [xbind put_sbuf].
  apply agrees_lift. intros sb' _. reflexivity.
Qed.

Lemma xwrite_header_eq p h s : xwrite_header p h s =
  match o_maps s with
  | [] => (UB, s)
  | (_, l) :: _ => match hdr_block p (o_endian s) l h with
                   | Ok b => (Ok tt, o_upd s (fwrite b (o_file s)) (o_bh s) (o_sbuf s))
                   | Throw e => (Throw e, s)
                   | UB => (UB, s)
                   end
  end.
Proof.
  unfold xwrite_header, xbind, xget, xlift, put_file. destruct (o_maps s) as [|[nm l] ls]; [reflexivity|].
  destruct (hdr_block _ _ _ _); reflexivity.
Qed.

Definition xadd (p : platform) (t : trace) (s : osegy) : outcome unit * osegy :=
  (if o_add s then xwrite_additional p (tl (o_maps s)) (t_hdr t) (Z.to_nat (bh_max_num_add_tr_headers (o_bh s) - 1))
   else xret tt) s.

Lemma xbody_eq p t s : xbody p t s =
  match xwrite_header p (t_hdr t) s with
  | (Ok _, s1) => match xadd p t s1 with
                  | (Ok _, s2) => xwrite_samples p t s2
                  | (Throw e, s2) => (Throw e, s2)
                  | (UB, s2) => (UB, s2)
                  end
  | (Throw e, s1) => (Throw e, s1)
  | (UB, s1) => (UB, s1)
  end.
Proof. unfold xbody, xbind at 1. destruct (xwrite_header p (t_hdr t) s) as [[u|e|] s1]; reflexivity. Qed.

Lemma xbody_agrees p t s : agrees (xbody p t s) (write_body p s t).
Proof.
  rewrite xbody_eq, xwrite_header_eq. unfold write_body, write_trace_header.
  destruct (o_maps s) as [|[nm l] ls] eqn:Em; [eexists; reflexivity|].
  destruct (hdr_block _ _ _ _) as [b|e|]; cbn [bind]; try (eexists; reflexivity).
  set (s1 := o_upd s (fwrite b (o_file s)) (o_bh s) (o_sbuf s)).
  unfold xadd. change (o_add s1) with (o_add s). change (o_bh s1) with (o_bh s).
  change (o_maps s1) with (o_maps s). rewrite Em. cbn [tl].
  set (n := Z.to_nat _).
  assert (Q : agrees ((if o_add s then xwrite_additional p ls (t_hdr t) n else xret tt) s1)
     (let* f := (if o_add s then write_additional p (o_endian s) ls (t_hdr t) n (fwrite b (o_file s)) else Ok (fwrite b (o_file s))) in
      Ok (o_upd s1 f (o_bh s1) (o_sbuf s1)))).
  { destruct (o_add s); [exact (xadd_agrees p (t_hdr t) n ls s1)|]. cbn [bind agrees xret]. reflexivity. }
  destruct (if o_add s then write_additional p (o_endian s) ls (t_hdr t) n (fwrite b (o_file s)) else Ok (fwrite b (o_file s)))
    as [f|e|]; cbn [bind agrees] in *.
  - rewrite Q. exact (xsamples_agrees p t (o_upd s1 f (o_bh s1) (o_sbuf s1))).
  - destruct Q as (s' & Q). rewrite Q. eexists; reflexivity.
  - destruct Q as (s' & Q). rewrite Q. eexists; reflexivity.
Qed.

Lemma xwrite_agrees p t s : agrees (xwrite_trace p t s) (write_trace p s t).
Proof.
  rewrite xwrite_trace_body, write_trace_body. destruct (o_min s) eqn:Em.
  - cbn [bind xbind xret]. apply xbody_agrees.
  - apply agrees_bind; [apply xset_min_agrees; discriminate|]. intros s1 _. apply xbody_agrees.
  - apply agrees_bind; [apply xset_min_agrees; discriminate|]. intros s1 _. apply xbody_agrees.
Qed.

(** ** Nothing is written by a call that throws early *)
Definition quiet (p : platform) (s : osegy) (t : trace) : Prop :=
  (o_var s = true -> exists n, hget (t_hdr t) "SAMP_NUM" = Some (VInt n) /\ 0 <= n /\ 8 * n <= p_max_alloc p) /\
  (o_add s = true -> forall nm l en d, In (nm, l) (firstn (Z.to_nat (bh_max_num_add_tr_headers (o_bh s) - 1)) (tl (o_maps s))) ->
     In en l -> hget (t_hdr t) (e_name en) <> Some (VDbl d)).

Lemma d2u_no_throw p w d x : d2u p w d <> Throw x.
Proof. unfold d2u. repeat (match goal with |- context [match ?y with _ => _ end] => destruct y end); discriminate. Qed.

Lemma wr_ibm_no_throw p e d x : wr_ibm p e d <> Throw x.
Proof.
  unfold wr_ibm, d2ibm. destruct (p_ibm_exp p (d_abs d)) as [e0|]; [|discriminate].
  match goal with |- context [d2u p 32 ?y] => destruct (d2u p 32 y) eqn:E end; cbn [bind]; [discriminate| |discriminate].
  exfalso. exact (d2u_no_throw _ _ _ _ E).
Qed.

Lemma wr_field_no_throw p e t ov x : (forall d, ov <> Some (VDbl d)) -> wr_field p e t ov <> Throw x.
Proof.
  intros H. unfold wr_field. destruct ov as [[z|d]|]; [|exfalso; exact (H d eq_refl)|]; cbn [get_int bind];
    (destruct t; try discriminate; apply wr_ibm_no_throw).
Qed.

Lemma upd_no_throw b o d x : upd b o d <> Throw x.
Proof. unfold upd. destruct (_ && _); discriminate. Qed.

Lemma wr_fields_no_throw p e h x : forall l b, (forall en d, In en l -> hget h (e_name en) <> Some (VDbl d)) ->
  wr_fields p e l h b <> Throw x.
Proof.
  induction l as [|en l IH]; intros b H; cbn [wr_fields]; [discriminate|].
  destruct (wr_field _ _ _ _) as [d|e1|] eqn:E; cbn [bind]; [| |discriminate].
  - destruct (upd b (e_off en) d) as [b1|e1|] eqn:E1; cbn [bind]; [|exfalso; exact (upd_no_throw _ _ _ _ E1)|discriminate].
    apply IH. intros en' d' I'. apply H. right. exact I'.
  - exfalso. refine (wr_field_no_throw _ _ _ _ _ _ E). intros d. apply H. left. reflexivity.
Qed.

Lemma xadd_no_throw p h x s' : forall n ls s,
  (forall nm l en d, In (nm, l) (firstn n ls) -> In en l -> hget h (e_name en) <> Some (VDbl d)) ->
  xwrite_additional p ls h n s <> (Throw x, s').
Proof.
  induction n as [|n IH]; intros ls s H; cbn [xwrite_additional]; [discriminate|]. cbn [xbind xget].
  destruct ls as [|[nm l] ls].
  - cbn [xbind put_file]. apply IH. intros nm l en d I0. destruct n; destruct I0.
  - destruct (hdr_block _ _ _ _) as [b|e|] eqn:E; cbn [xlift]; [| |discriminate].
    + cbn [put_file]. apply IH. intros nm' l' en d I0. apply (H nm' l' en d). right. exact I0.
    + exfalso. refine (wr_fields_no_throw _ _ _ _ _ _ _ E). intros en d I0. apply (H nm l en d); [left; reflexivity|exact I0].
Qed.

Lemma mapM_no_throw {A B} (f : A -> outcome B) x : (forall a y, f a <> Throw y) -> forall l, mapM f l <> Throw x.
Proof.
  intros H. induction l as [|a l IH]; cbn [mapM]; [discriminate|].
  destruct (f a) as [b|e|] eqn:E; cbn [bind]; [|exfalso; exact (H _ _ E)|discriminate].
  destruct (mapM f l); cbn [bind]; [discriminate|congruence|discriminate].
Qed.

Lemma sample_writer_no_throw p e fmt w x d : sample_writer p e fmt = Ok w -> w d <> Throw x.
Proof.
  intros H. apply writer_fmt in H as F.
  assert (K : forall n, (let* u := d2u p (8 * Z.of_nat n) d in Ok (wr e n u)) <> Throw x).
  { intros n. destruct (d2u p (8 * Z.of_nat n) d) eqn:E; cbn [bind]; [discriminate|exfalso; exact (d2u_no_throw _ _ _ _ E)|discriminate]. }
  assert (K2 : (let* u := d2u p 32 d in Ok (wr24 e u)) <> Throw x).
  { destruct (d2u p 32 d) eqn:E; cbn [bind]; [discriminate|exfalso; exact (d2u_no_throw _ _ _ _ E)|discriminate]. }
  repeat (destruct F as [<-|F]; [injection H as <-; first [apply wr_ibm_no_throw|exact K2|exact (K 4%nat)|exact (K 2%nat)|exact (K 1%nat)|exact (K 8%nat)|discriminate]|]).
  destruct F.
Qed.

Lemma fill_no_throw p s smp sb x : o_good p s -> fill_samples p (o_endian s) (bh_format_code (o_bh s)) smp sb <> Throw x.
Proof.
  intros ((w & W) & _). unfold fill_samples. rewrite W. cbn [bind].
  destruct (mapM w smp) as [encs|e|] eqn:E; cbn [bind]; [apply upd_no_throw| |discriminate].
  exfalso. refine (mapM_no_throw w e _ smp E). intros a y. apply (sample_writer_no_throw _ _ _ _ _ _ W).
Qed.

Lemma var_buf_no_throw p s t x : 0 <= p_max_alloc p < 2 ^ 63 -> o_good p s ->
  (exists n, hget (t_hdr t) "SAMP_NUM" = Some (VInt n) /\ 0 <= n /\ 8 * n <= p_max_alloc p) ->
  var_buf p (t_hdr t) (o_bps s) (o_sbuf s) <> Throw x.
Proof.
  intros HA G (n & Hn & N0 & N1). unfold var_buf, get_req. rewrite Hn. cbn [bind get_int].
  pose proof (good_bps _ _ G) as Bp.
  unfold sarith. destruct (in_i 64 (n * o_bps s)) eqn:E; cbn [bind]; [|discriminate].
  destruct (_ =? _); [discriminate|]. unfold resize_buf, resize_to. cbv zeta.
  rewrite (wrapu_small 64 (wrapu 64 _)) by (apply wrapu_bound; lia).
  assert (Q : 0 <= n * o_bps s <= p_max_alloc p) by nia.
  rewrite wrapu_small by (change (2 ^ 63) with 9223372036854775808 in *; change (2 ^ 64) with 18446744073709551616; lia).
  destruct (Z.leb_spec (n * o_bps s) (p_max_alloc p)) as [L|L]; [discriminate|lia].
Qed.

Lemma xsamples_no_throw p t s x s' : 0 <= p_max_alloc p < 2 ^ 63 -> o_good p s ->
  (o_var s = true -> exists n, hget (t_hdr t) "SAMP_NUM" = Some (VInt n) /\ 0 <= n /\ 8 * n <= p_max_alloc p) ->
  xwrite_samples p t s <> (Throw x, s').
Proof.
  intros HA G Q K. unfold xwrite_samples in K. cbn [xbind xget xlift] in K.
  destruct (if o_var s then var_buf p (t_hdr t) (o_bps s) (o_sbuf s) else Ok (o_sbuf s)) as [sb|e|] eqn:E; [| |discriminate].
  - cbn [put_sbuf] in K.
    destruct (fill_samples p (o_endian s) (bh_format_code (o_bh s)) (t_smp t) sb) as [sb'|e|] eqn:E1; [| |discriminate].
    + discriminate K.
    + exact (fill_no_throw _ _ _ _ _ G E1).
  - destruct (o_var s) eqn:Ev; [|discriminate]. exact (var_buf_no_throw _ _ _ _ HA G (Q eq_refl) E).
Qed.

Lemma xadd_good p h n : forall ls s s1, xwrite_additional p ls h n s = (Ok tt, s1) ->
  same_cfg s s1 /\ o_bh s1 = o_bh s.
Proof.
  intros ls s s1 H. pose proof (xadd_agrees p h n ls s) as K.
  destruct (write_additional _ _ _ _ _ _) as [f|e|]; cbn [bind agrees] in K.
  - rewrite K in H. injection H as <-. split; [apply o_upd_cfg|reflexivity].
  - destruct K as (? & K). congruence.
  - destruct K as (? & K). congruence.
Qed.

Lemma good_cfg p s s1 : same_cfg s s1 -> o_bh s1 = o_bh s -> o_good p s -> o_good p s1.
Proof. intros (C1 & C2 & C3 & C4 & C5 & _) B (G1 & G2 & G3). unfold o_good. rewrite C4, C5, B. auto. Qed.

Lemma xbody_throw p t s x s1 : 0 <= p_max_alloc p < 2 ^ 63 -> o_good p s -> quiet p s t ->
  xbody p t s = (Throw x, s1) -> s1 = s.
Proof.
  intros HA G (Q1 & Q2) H. rewrite xbody_eq, xwrite_header_eq in H.
  destruct (o_maps s) as [|[nm l] ls] eqn:Em; [discriminate|].
  destruct (hdr_block _ _ _ _) as [b|e|]; [|congruence|discriminate].
  set (s2 := o_upd s (fwrite b (o_file s)) (o_bh s) (o_sbuf s)) in *.
  assert (C2 : same_cfg s s2) by apply o_upd_cfg. assert (B2 : o_bh s2 = o_bh s) by reflexivity.
  exfalso. destruct (xadd p t s2) as [[u|e|] s3] eqn:E; [| |discriminate].
  - destruct u. assert (same_cfg s2 s3 /\ o_bh s3 = o_bh s2) as [C3 B3].
    { unfold xadd in E. destruct (o_add s2); [exact (xadd_good _ _ _ _ _ _ E)|]. injection E as <-. split; [apply same_cfg_refl|reflexivity]. }
    refine (xsamples_no_throw p t s3 x s1 HA _ _ H).
    + eapply good_cfg; [exact C3|exact B3|]. eapply good_cfg; [exact C2|exact B2|exact G].
    + destruct C3 as (_&_&_&_&_&_&_&_&C3). rewrite C3. exact Q1.
  - injection H as <- <-. unfold xadd in E. destruct (o_add s2) eqn:Ea; [|discriminate].
    refine (xadd_no_throw p (t_hdr t) e s3 _ _ _ _ E).
    change (o_maps s2) with (o_maps s). rewrite Em in *. exact (Q2 Ea).
Qed.

(** ** A writer that still waits for the first trace *)
Definition cleared (b : bin_hdr) : bin_hdr := set_samp_int (set_samp_per_tr b 0) 0.

Definition waits (s0 s : osegy) : Prop :=
  same_cfg s0 s /\ cleared (o_bh s) = cleared (o_bh s0) /\ Forall (fun z => z = 0) (o_sbuf s) /\
  (exists txt b, fdata (o_file s) = txt ++ b /\ len txt = 3200 /\ len b = 400 /\ firstn (Z.to_nat 3200) (fdata (o_file s0)) = txt) /\
  fpos (o_file s) = 3600 /\ o_first s = 3600.

Lemma set_both b b' n i : cleared b = cleared b' -> set_samp_int (set_samp_per_tr b n) i = set_samp_int (set_samp_per_tr b' n) i.
Proof.
  intros H. apply (f_equal (fun b => set_samp_int (set_samp_per_tr b n) i)) in H. exact H.
Qed.

Lemma all_zero (l : list Z) : Forall (fun z => z = 0) l -> l = repeat 0 (List.length l).
Proof. induction 1 as [|a l -> _ IH]; [reflexivity|]. cbn [List.length repeat]. rewrite <- IH. reflexivity. Qed.

Lemma resize_zero p n l l' : Forall (fun z => z = 0) l -> Forall (fun z => z = 0) l' -> resize_buf p n l = resize_buf p n l'.
Proof.
  intros H H'. rewrite (all_zero _ H), (all_zero _ H'). unfold resize_buf. destruct (resize_to p n) as [k| |]; [|reflexivity..].
  cbn [bind]. f_equal. rewrite !repeat_length.
  assert (K : forall m j, firstn j (repeat 0 m) ++ repeat 0 (j - m) = repeat 0 j).
  { intros m j. destruct (Nat.le_gt_cases j m) as [L|L].
    - replace (j - m)%nat with 0%nat by lia. cbn [repeat]. rewrite app_nil_r.
      replace m with (j + (m - j))%nat by lia. rewrite repeat_app, firstn_app, repeat_length, Nat.sub_diag. cbn [firstn].
      rewrite app_nil_r. apply firstn_all2. rewrite repeat_length. lia.
    - rewrite firstn_all2 by (rewrite repeat_length; lia). rewrite <- repeat_app. f_equal. lia. }
  rewrite !K. reflexivity.
Qed.

Lemma resize_still p n l sb : Forall (fun z => z = 0) l -> resize_buf p n l = Ok sb -> Forall (fun z => z = 0) sb.
Proof.
  intros H. unfold resize_buf. destruct (resize_to p n) as [k| |]; [|discriminate..]. cbn [bind]. intros E. injection E as <-.
  apply Forall_app. split.
  - apply Forall_forall. intros x I0. rewrite Forall_forall in H. apply H.
    rewrite <- (firstn_skipn (Z.to_nat k) l). apply in_or_app. left. exact I0.
  - apply Forall_forall. intros x I0. apply repeat_spec in I0. exact I0.
Qed.

Lemma waits_bin s0 s f e b : waits s0 s -> write_bin_header e b (o_file s) = Ok f ->
  f = mkFile (firstn (Z.to_nat 3200) (fdata (o_file s0)) ++ bin_block e b) 3600.
Proof.
  intros (_ & _ & _ & (txt & blk & D & L1 & L2 & T) & _) H.
  destruct (write_bin_header_mid e b (o_file s) f txt blk [] ltac:(rewrite app_nil_r; exact D) L1 L2 H) as [D1 P1].
  rewrite app_nil_r in D1. rewrite T. destruct f as [fd fp]. cbn [fdata fpos] in *. congruence.
Qed.

Lemma waits_refl s : o_sbuf s = [] -> fpos (o_file s) = 3600 -> o_first s = 3600 -> len (fdata (o_file s)) = 3600 -> waits s s.
Proof.
  intros B P F L. repeat split; try assumption; [rewrite B; constructor|].
  exists (firstn (Z.to_nat 3200) (fdata (o_file s))), (skipn (Z.to_nat 3200) (fdata (o_file s))).
  rewrite firstn_skipn. split; [reflexivity|]. unfold len in *. rewrite firstn_length, skipn_length. split; [lia|]. split; [lia|reflexivity].
Qed.

Lemma waits_put s0 s n i : waits s0 s ->
  waits s0 (o_upd s (o_file s) (set_samp_int (set_samp_per_tr (o_bh s) n) i) (o_sbuf s)) /\
  waits s0 (o_upd s (o_file s) (set_samp_per_tr (o_bh s) n) (o_sbuf s)).
Proof.
  intros (C & B & Z0 & T & P & F). split; (split; [exact C|]; split; [exact B|]; auto).
Qed.

Lemma xset_min_waits p m h s0 s r s1 : waits s0 s -> xset_min p m h s = (r, s1) -> r <> UB -> waits s0 s1.
Proof.
  intros W H NU. unfold xset_min in H. cbn [xbind xget] in H.
  destruct (negb _); [injection H as _ <-; exact W|]. unfold xbind at 1, xlift at 1 in H.
  destruct (get_req h "SAMP_NUM") as [v|e|]; [|injection H as _ <-; exact W..].
  unfold xbind at 1, xlift at 1 in H. destruct (get_int v) as [n|e|]; [|injection H as _ <-; exact W..].
  destruct (32767 <? n); [injection H as _ <-; exact W|]. unfold xbind at 1 in H. cbn [put_bh] in H.
  destruct (waits_put s0 s (wraps 16 n) 0 W) as [_ W1]. set (s2 := o_upd s (o_file s) (set_samp_per_tr _ _) _) in *.
  unfold xbind at 1, xlift at 1 in H. destruct (get_req h "SAMP_INT") as [v2|e|]; [|injection H as _ <-; exact W1..].
  unfold xbind at 1, xlift at 1 in H.
  match type of H with context [match ?y with Ok _ => _ | Throw _ => _ | UB => _ end] => destruct y as [d|e|] end;
    [|injection H as _ <-; exact W1..].
  destruct (d_lt _ d); [injection H as _ <-; exact W1|].
  unfold xbind at 1, xlift at 1 in H. destruct (d2s p 16 d) as [si|e|]; [|injection H as _ <-; exact W1..].
  destruct (si =? 0); [injection H as _ <-; exact W1|]. unfold xbind at 1 in H. cbn [put_bh] in H.
  destruct (waits_put s0 s (wraps 16 n) si W) as [W2 _].
  change (o_upd s2 (o_file s2) ?b (o_sbuf s2)) with (o_upd s (o_file s) b (o_sbuf s)) in H.
  set (s3 := o_upd s (o_file s) (set_samp_int _ _) _) in *.
  unfold xbind at 1, xlift at 1 in H. destruct (sarith 64 _) as [k|e|]; [|injection H as _ <-; exact W2..].
  unfold xbind at 1, xlift at 1 in H. destruct (resize_buf p k (o_sbuf s)) as [sb|e|] eqn:Er; [|injection H as _ <-; exact W2..].
  unfold xbind at 1 in H. cbn [put_sbuf] in H.
  assert (W3 : waits s0 (o_upd s3 (o_file s3) (o_bh s3) sb)).
  { destruct W2 as (C & B & Z0 & T & P & F). repeat (split; [assumption|]). split; [|auto].
    cbn [o_upd o_sbuf]. refine (resize_still p k (o_sbuf s) sb _ Er). exact Z0. }
  set (s4 := o_upd s3 _ _ _) in *.
  unfold xwrite_bin_header in H. cbn [xbind xget] in H. unfold xbind at 1, xlift at 1 in H. rewrite bin_header_bytes_eq in H.
  unfold xbind at 1, xlift at 1 in H.
  destruct (fseek TEXT_HEADER_SIZE (o_file s4)) as [f|e|] eqn:Es; [|injection H as _ <-; exact W3..].
  cbn [put_file] in H. injection H as _ <-.
  assert (Ef : write_bin_header (o_endian s4) (o_bh s4) (o_file s4) = Ok (fwrite (bin_block (o_endian s4) (o_bh s4)) f)).
  { unfold write_bin_header. rewrite bin_header_bytes_eq. cbn [bind]. rewrite Es. reflexivity. }
  pose proof (waits_bin s0 s4 _ _ _ W3 Ef) as Ex.
  change (waits s0 (o_upd s4 (fwrite (bin_block (o_endian s4) (o_bh s4)) f) (o_bh s4) (o_sbuf s4))). rewrite Ex.
  destruct W3 as (C & B & Z0 & (txt & blk & D & L1 & L2 & T) & P & F).
  split; [exact C|]. split; [exact B|]. split; [exact Z0|]. split; [|split; [reflexivity|exact F]].
  exists txt, (bin_block (o_endian s4) (o_bh s4)). cbn [o_upd o_file fdata]. rewrite T.
  split; [reflexivity|]. split; [exact L1|]. split; [apply len_bin_block|reflexivity].
Qed.

Lemma cfg_state s0 s f b sb : same_cfg s0 s -> o_upd s f b sb = o_upd s0 f b sb.
Proof. intros (C1 & C2 & C3 & C4 & C5 & C6 & C7 & C8 & C9). unfold o_upd. rewrite C1, C2, C3, C4, C5, C6, C7, C8, C9. reflexivity. Qed.

(** Success does not depend on what refused calls left. *)
Lemma set_min_waits p m h s0 s s1 : waits s0 s0 -> waits s0 s -> set_min p m h s = Ok s1 -> set_min p m h s0 = Ok s1.
Proof.
  intros W0 W. pose proof W as (C & B & Zs & _ & P & F). pose proof W0 as (_ & _ & Zs0 & _ & P0 & F0).
  unfold set_min. rewrite P, F, P0, F0. cbn [negb Z.eqb Pos.eqb].
  intros H. apply bind_ok in H as (v & Ev & H). apply bind_ok in H as (n & En & H). rewrite Ev. cbn [bind]. rewrite En. cbn [bind].
  destruct (32767 <? n); [discriminate|]. cbv zeta in *. apply bind_ok in H as (v2 & Ev2 & H). apply bind_ok in H as (d & Ed & H).
  rewrite Ev2. cbn [bind]. rewrite Ed. cbn [bind]. destruct (d_lt _ d); [discriminate|].
  apply bind_ok in H as (si & Esi & H). rewrite Esi. cbn [bind]. destruct (si =? 0); [discriminate|].
  pose proof C as (_ & _ & _ & C4 & C5 & _). rewrite C5 in H.
  apply bind_ok in H as (k & Ek & H). rewrite Ek. cbn [bind]. rewrite (resize_zero p k (o_sbuf s) (o_sbuf s0) Zs Zs0) in H.
  apply bind_ok in H as (sb & Es & H). rewrite Es. cbn [bind]. rewrite C4, (set_both _ _ _ _ B) in H.
  apply bind_ok in H as (f & Ef & H). pose proof (waits_bin _ _ _ _ _ W Ef) as Xf.
  assert (X0 : exists f0, write_bin_header (o_endian s0) (set_samp_int (set_samp_per_tr (o_bh s0) (wraps 16 n)) si) (o_file s0) = Ok f0).
  { unfold write_bin_header. rewrite bin_header_bytes_eq. cbn [bind]. unfold fseek. cbn. eexists. reflexivity. }
  destruct X0 as (f0 & Ef0). rewrite Ef0. cbn [bind]. pose proof (waits_bin _ _ _ _ _ W0 Ef0) as Xf0.
  injection H as <-. rewrite Xf, Xf0. f_equal. symmetry. apply cfg_state. exact C.
Qed.

Lemma write_waits p t s0 s s1 : waits s0 s0 -> waits s0 s -> o_min s0 <> MNone ->
  write_trace p s t = Ok s1 -> write_trace p s0 t = Ok s1.
Proof.
  intros W0 W M H. rewrite write_trace_body in *. pose proof W as ((_ & _ & _ & _ & _ & _ & C7 & _) & _). rewrite C7 in H.
  destruct (o_min s0); [contradiction| |]; apply bind_ok in H as (s2 & E & H);
    rewrite (set_min_waits _ _ _ _ _ _ W0 W E); exact H.
Qed.

Lemma waits_good p s0 s : waits s0 s -> o_good p s0 -> o_good p s.
Proof.
  intros ((_ & _ & _ & C4 & C5 & _) & B & _) (G1 & G2 & G3).
  pose proof (f_equal bh_format_code B) as B1. pose proof (f_equal bh_endianness B) as B2.
  cbn [cleared set_samp_int set_samp_per_tr bh_format_code bh_endianness] in B1, B2.
  unfold o_good. rewrite C4, C5, B1, B2. auto.
Qed.

Lemma quiet_same p s s1 t : same_cfg s s1 -> bh_max_num_add_tr_headers (o_bh s1) = bh_max_num_add_tr_headers (o_bh s) ->
  quiet p s t -> quiet p s1 t.
Proof.
  intros (C1 & _ & _ & _ & _ & _ & _ & C8 & C9) B (Q1 & Q2). unfold quiet. rewrite C1, C8, C9, B. auto.
Qed.
Lemma waits_quiet p s0 s t : waits s0 s -> quiet p s0 t -> quiet p s t.
Proof. intros (C & B & _). apply quiet_same; [exact C|exact (f_equal bh_max_num_add_tr_headers B)]. Qed.

Lemma agrees_ok p t s u s1 : xwrite_trace p t s = (Ok u, s1) -> write_trace p s t = Ok s1.
Proof.
  intros H. pose proof (xwrite_agrees p t s) as A. rewrite H in A.
  destruct (write_trace p s t) as [s2|e|]; cbn [agrees] in A; [congruence|destruct A as (? & A); discriminate A..].
Qed.

Lemma xset_min_skip p m h s : o_first s < fpos (o_file s) -> xset_min p m h s = (Ok tt, s).
Proof.
  intros L. unfold xset_min. cbn [xbind xget]. destruct (Z.eqb_spec (fpos (o_file s)) (o_first s)); [lia|reflexivity].
Qed.

Lemma steady_step p s t s1 : at_end (o_file s) -> o_min s = MNone \/ o_first s < fpos (o_file s) -> write_trace p s t = Ok s1 ->
  at_end (o_file s1) /\ (o_min s1 = MNone \/ o_first s1 < fpos (o_file s1)) /\ same_cfg s s1 /\ o_bh s1 = o_bh s.
Proof.
  intros A M H.
  destruct (write_none p [t] s s1 A M) as (recs & S & D & A1 & C & B).
  { cbn [write_traces]. rewrite H. reflexivity. }
  split; [exact A1|]. split; [|split; assumption].
  pose proof C as (_ & _ & _ & _ & _ & C6 & C7 & _). rewrite C6, C7. destruct M as [M|M]; [auto|right].
  unfold at_end in *. rewrite A1, D, len_app. pose proof (len_nonneg (concat recs)). lia.
Qed.

Lemma attempt_steady p : 0 <= p_max_alloc p < 2 ^ 63 -> forall ts s bs s', o_good p s -> at_end (o_file s) ->
  o_min s = MNone \/ o_first s < fpos (o_file s) -> Forall (quiet p s) ts -> attempt p s ts = Ok (bs, s') ->
  write_traces p s (accepted bs ts) = Ok s'.
Proof.
  intros HA. induction ts as [|t ts IH]; intros s bs s' G A M Q H; cbn [attempt] in H.
  - injection H as <- <-. reflexivity.
  - inversion Q as [|? ? Q1 Q2]; subst. destruct (xwrite_trace p t s) as [[u|e|] s1] eqn:E; [| |discriminate].
    + apply bind_ok in H as ([bs1 s2] & H1 & H). injection H as <- <-. cbn [accepted write_traces].
      apply agrees_ok in E. rewrite E. cbn [bind].
      destruct (steady_step p s t s1 A M E) as (A1 & M1 & C & B).
      apply IH; auto; [eapply good_cfg; eassumption|].
      eapply Forall_impl; [|exact Q2]. intros t'. apply quiet_same; [exact C|rewrite B; reflexivity].
    + apply bind_ok in H as ([bs1 s2] & H1 & H). injection H as <- <-. cbn [accepted].
      assert (s1 = s) as ->; [|apply IH; auto].
      rewrite xwrite_trace_body in E. unfold xbind in E. destruct M as [M|M].
      * rewrite M in E. cbn [xret] in E. exact (xbody_throw p t s e s1 HA G Q1 E).
      * assert (K : (match o_min s with MNone => xret tt | m => xset_min p m (t_hdr t) end) s = (Ok tt, s)).
        { destruct (o_min s); [reflexivity|apply xset_min_skip; exact M..]. }
        rewrite K in E. exact (xbody_throw p t s e s1 HA G Q1 E).
Qed.

Lemma waits_first p s0 s t s1 : waits s0 s -> write_trace p s t = Ok s1 -> o_min s0 <> MNone ->
  at_end (o_file s1) /\ o_first s1 < fpos (o_file s1) /\ same_cfg s s1 /\ cleared (o_bh s1) = cleared (o_bh s).
Proof.
  intros W H M. pose proof W as (C & B & _ & (txt & blk & D & L1 & L2 & _) & P & F).
  pose proof C as (_ & _ & _ & _ & _ & C6 & C7 & _).
  rewrite write_trace_body in H. apply bind_ok in H as (s2 & E & H).
  assert (E' : set_min p (o_min s) (t_hdr t) s = Ok s2) by (rewrite C7 in *; destruct (o_min s0); [contradiction|exact E..]).
  apply set_min_inv in E' as [[_ K]|(_ & C1 & n & si & _ & _ & Eb & _ & _ & _ & Ew)]; [lia|].
  pose proof (waits_bin _ _ _ _ _ W Ew) as Xf.
  assert (A : at_end (o_file s2)).
  { destruct (write_bin_header_mid _ _ _ _ txt blk [] ltac:(rewrite app_nil_r; exact D) L1 L2 Ew) as [D1 P1].
    rewrite app_nil_r in D1. unfold at_end. rewrite P1, D1, len_app, len_bin_block, L1. reflexivity. }
  apply write_body_inv in H as (r & S & D2 & A2 & C2 & B2); [|exact A].
  split; [exact A2|]. pose proof C1 as (_ & _ & _ & _ & _ & C16 & _). pose proof C2 as (_ & _ & _ & _ & _ & C26 & _).
  split; [|split; [eapply same_cfg_trans; eassumption|rewrite B2, Eb; reflexivity]].
  rewrite C26, C16, F. unfold at_end in *. apply stored_len in S. rewrite A2, D2, len_app, <- A, Xf. cbn [fpos]. lia.
Qed.

Lemma attempt_waits p s0 : 0 <= p_max_alloc p < 2 ^ 63 -> o_good p s0 -> waits s0 s0 -> o_min s0 <> MNone ->
  forall ts s bs s', waits s0 s -> Forall (quiet p s0) ts -> attempt p s ts = Ok (bs, s') ->
  (accepted bs ts = [] /\ waits s0 s') \/ write_traces p s0 (accepted bs ts) = Ok s'.
Proof.
  intros HA G W0 M. induction ts as [|t ts IH]; intros s bs s' W Q H; cbn [attempt] in H.
  - injection H as <- <-. left. auto.
  - inversion Q as [|? ? Q1 Q2]; subst. pose proof W as ((_ & _ & _ & _ & _ & _ & C7 & _) & _).
    destruct (xwrite_trace p t s) as [[u|e|] s1] eqn:E; [| |discriminate].
    + apply bind_ok in H as ([bs1 s2] & H1 & H). injection H as <- <-. right. cbn [accepted write_traces].
      apply agrees_ok in E. rewrite (write_waits p t s0 s s1 W0 W M E). cbn [bind].
      destruct (waits_first p s0 s t s1 W E M) as (A1 & F1 & C & B).
      assert (G1 : o_good p s1).
      { pose proof (waits_good p s0 s W G) as (X1 & X2 & X3). destruct C as (_ & _ & _ & C4 & C5 & _).
        pose proof (f_equal bh_format_code B) as B1. pose proof (f_equal bh_endianness B) as B2.
        cbn [cleared set_samp_int set_samp_per_tr bh_format_code bh_endianness] in B1, B2.
        unfold o_good. rewrite C4, C5, B1, B2. auto. }
      apply (attempt_steady p HA ts s1 bs1 s2 G1 A1 (or_intror F1)); [|exact H1].
      eapply Forall_impl; [|exact Q2]. intros t' Qt. eapply quiet_same; [exact C|exact (f_equal bh_max_num_add_tr_headers B)|].
      exact (waits_quiet p s0 s t' W Qt).
    + apply bind_ok in H as ([bs1 s2] & H1 & H). injection H as <- <-. cbn [accepted].
      apply (IH s1 bs1 s2); [|exact Q2|exact H1].
      rewrite xwrite_trace_body in E. rewrite C7 in E.
      assert (K : exists m, m <> MNone /\ xbind (xset_min p m (t_hdr t)) (fun _ => xbody p t) s = (Throw e, s1)).
      { destruct (o_min s0); [contradiction| |]; eexists; (split; [|exact E]); discriminate. }
      destruct K as (m & _ & K). unfold xbind in K. destruct (xset_min p m (t_hdr t) s) as [[u|e'|] s3] eqn:Em; [| |discriminate].
      * assert (W3 : waits s0 s3) by (eapply xset_min_waits; [exact W|exact Em|discriminate]).
        rewrite (xbody_throw p t s3 e s1 HA (waits_good _ _ _ W3 G) (waits_quiet _ _ _ _ W3 Q1) K). exact W3.
      * injection K as <- <-. eapply xset_min_waits; [exact W|exact Em|discriminate].
Qed.

(** ** The three writers *)
Lemma early_quiet p w bh ls s t : len (given_texts w) <= 65536 -> w_open p w bh ls = Ok s -> early p w bh ls t -> quiet p s t.
Proof.
  intros Ln Ho (E1 & E2). destruct (w_open_inv _ _ _ _ _ Ho Ln) as (_ & _ & t0 & tr & b & _ & _ & _ & _ & _ & Em & Ea & Ax & _ & Ev & _).
  split; [rewrite Ev; exact E1|]. rewrite Ea, Em, Ax. intros K nm l en d I1. apply (E2 nm l en d).
  unfold further_layouts, header_count. destruct w as [| |txts st]; try discriminate.
  replace (Z.to_nat (Z.max 1 (bh_max_num_add_tr_headers bh) - 1)) with (Z.to_nat (bh_max_num_add_tr_headers bh - 1)) by lia. exact I1.
Qed.

Lemma open_waits p w bh ls s : len (given_texts w) <= 65536 -> w_open p w bh ls = Ok s -> o_min s <> MNone -> waits s s.
Proof.
  intros Ln Ho M. destruct (w_open_inv _ _ _ _ _ Ho Ln) as (_ & _ & t0 & tr & b & (D & L & A & F & X) & _ & _ & _ & _ & _ & _ & _ & _ & _ & Md).
  rewrite (X M), app_nil_r in D. assert (K : len (fdata (o_file s)) = 3600) by (rewrite D, len_app, len_bin_block, L; reflexivity).
  apply waits_refl; [|unfold at_end in A; lia..].
  destruct Md as [(_ & B)|[(M1 & _)|(M1 & _)]]; [exact B|contradiction..].
Qed.

Lemma attempt_all p w bh ls ts s bs s' : sane_alloc p -> len (given_texts w) <= 65536 -> w_open p w bh ls = Ok s ->
  Forall (early p w bh ls) ts -> attempt p s ts = Ok (bs, s') ->
  write_traces p s (accepted bs ts) = Ok s' \/ (accepted bs ts = [] /\ o_min s <> MNone /\ waits s s').
Proof.
  intros [HA1 HA2] Ln Ho He Ha. assert (HA : 0 <= p_max_alloc p < 2 ^ 63) by lia.
  destruct (w_open_inv _ _ _ _ _ Ho Ln) as (G & _ & t0 & tr & b & (_ & _ & A & _) & _).
  assert (Q : Forall (quiet p s) ts) by (eapply Forall_impl; [|exact He]; intros t; eapply early_quiet; eassumption).
  assert (M : o_min s = MNone \/ o_min s <> MNone) by (destruct (o_min s); [left; reflexivity|right; discriminate..]).
  destruct M as [M|M].
  - left. exact (attempt_steady p HA ts s bs s' G A (or_introl M) Q Ha).
  - pose proof (open_waits _ _ _ _ _ Ln Ho M) as W.
    destruct (attempt_waits p s HA G W M ts s bs s' W Q Ha) as [[N W']|N]; auto.
Qed.
