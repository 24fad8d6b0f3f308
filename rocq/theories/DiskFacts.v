(** A full disk (C105). *)
From Coq Require Import Lia.
From Verif Require Import BaseFacts BinFacts Platform Fp TraceHdr SegyTypes SegyCodec ISegy OSegy StepX OSegyX WriterFacts FileSpec FileFacts RefuseFacts DiskX DiskSpec.
Local Open Scope Z_scope.

(** ** Stored bytes *)
Lemma over_in d q l : 0 <= q <= len d ->
  over d q l = firstn (Z.to_nat q) d ++ l ++ skipn (Z.to_nat (q + len l)) d.
Proof.
  intro H. unfold over, fwrite. cbn [fdata fpos]. unfold len in *.
  replace (Z.to_nat q - List.length d)%nat with O by lia. cbn [repeat]. rewrite app_nil_r.
  replace (Z.to_nat (q + Z.of_nat (List.length l))) with (Z.to_nat q + List.length l)%nat by lia. reflexivity.
Qed.
Lemma len_over d q l : 0 <= q <= len d -> len (over d q l) = Z.max (len d) (q + len l).
Proof.
  intro H. rewrite over_in by exact H. unfold len in *. rewrite !app_length, firstn_length, skipn_length. lia.
Qed.
Lemma firstn_over d q l n : 0 <= q <= len d -> (n <= Z.to_nat q)%nat -> firstn n (over d q l) = firstn n d.
Proof.
  intros H N. rewrite over_in by exact H. rewrite firstn_app, firstn_firstn, firstn_length. unfold len in H.
  replace (n - Nat.min (Z.to_nat q) (List.length d))%nat with O by lia. cbn [firstn]. rewrite app_nil_r. f_equal. lia.
Qed.
Lemma over_app d q a b : 0 <= q <= len d -> over d q (a ++ b) = over (over d q a) (q + len a) b.
Proof.
  intro H. rewrite (over_in (over d q a)) by (rewrite len_over by exact H; pose proof (len_nonneg a); lia).
  rewrite !(over_in d) by exact H. rewrite len_app. pose proof (len_nonneg a). pose proof (len_nonneg b).
  assert (F : firstn (Z.to_nat (q + len a)) (firstn (Z.to_nat q) d ++ a ++ skipn (Z.to_nat (q + len a)) d) =
              firstn (Z.to_nat q) d ++ a).
  { rewrite app_assoc. rewrite firstn_app. unfold len in *.
    replace (Z.to_nat (q + Z.of_nat (List.length a)) - List.length (firstn (Z.to_nat q) d ++ a))%nat with O
      by (rewrite app_length, firstn_length; lia).
    cbn [firstn]. rewrite app_nil_r. apply firstn_all2. rewrite app_length, firstn_length. lia. }
  rewrite F. rewrite <- !app_assoc. f_equal. f_equal. f_equal.
  rewrite app_assoc. rewrite skipn_app. unfold len in *.
  rewrite (skipn_all2 (n := Z.to_nat (q + Z.of_nat (List.length a) + Z.of_nat (List.length b))) (firstn (Z.to_nat q) d ++ a))
    by (rewrite app_length, firstn_length; lia).
  cbn [app]. rewrite skipn_skipn'. f_equal. rewrite app_length, firstn_length. lia.
Qed.
Lemma over_nil d q : 0 <= q <= len d -> over d q [] = d.
Proof.
  intro H. rewrite over_in by exact H. cbn [app]. change (len (@nil Z)) with 0. rewrite Z.add_0_r. apply firstn_skipn.
Qed.
Lemma over_cut d q l cap : 0 <= q <= len d -> len d <= cap -> cap < q + len l ->
  over d q (firstn (Z.to_nat (cap - q)) l) = firstn (Z.to_nat cap) (over d q l).
Proof.
  intros H D C. assert (E : len (firstn (Z.to_nat (cap - q)) l) = cap - q).
  { unfold len in *. rewrite firstn_length. lia. }
  rewrite !over_in by exact H. rewrite E. unfold len in *.
  rewrite (skipn_all2 (n := Z.to_nat (q + (cap - q)))) by lia.
  rewrite (skipn_all2 (n := Z.to_nat (q + Z.of_nat (List.length l)))) by lia. rewrite !app_nil_r.
  rewrite firstn_app, firstn_length, firstn_firstn.
  replace (Nat.min (Z.to_nat cap) (Z.to_nat q)) with (Z.to_nat q) by lia. f_equal. f_equal. lia.
Qed.

(** ** The stream against the file without a limit *)
Notation follows := holds_file.
(** The disk is full: it has the beginning of a file that is too long. *)
Definition full (cap : Z) (k : stream) (c : list Z) : Prop :=
  k_bad k = true /\ k_disk k = firstn (Z.to_nat cap) c /\ cap < len c.

Lemma fwrite_over f d : 0 <= fpos f -> fdata (fwrite d f) = over (fdata f) (fpos f) d.
Proof. intro. unfold over. destruct f. reflexivity. Qed.

Lemma flush_ok cap n k f : follows cap k f ->
  follows cap (k_flush cap n k) f \/ full cap (k_flush cap n k) (fdata f).
Proof.
  intros (B & A & C & D & P). unfold k_flush. set (l := firstn n (k_buf k)).
  assert (S : k_buf k = l ++ skipn n (k_buf k)) by (symmetry; apply firstn_skipn).
  pose proof (len_nonneg l). pose proof (len_nonneg (skipn n (k_buf k))).
  destruct (Z.leb_spec (k_at k + len l) cap).
  - left. unfold holds_file. cbn [k_bad k_at k_disk k_buf]. rewrite len_over by exact A.
    split; [reflexivity|]. split; [lia|]. split; [lia|]. split.
    + rewrite D. rewrite S at 1. apply over_app. exact A.
    + rewrite P. rewrite S at 1. rewrite len_app. lia.
  - right. unfold full. cbn [k_bad k_disk]. split; [reflexivity|].
    assert (Q : len (k_buf k) = len l + len (skipn n (k_buf k))) by (rewrite S at 1; apply len_app).
    split.
    + rewrite D. replace (firstn (Z.to_nat (cap - k_at k)) l) with (firstn (Z.to_nat (cap - k_at k)) (k_buf k)).
      * apply over_cut; [exact A|exact C|]. lia.
      * rewrite S at 1. rewrite firstn_app. unfold len in *.
        replace (Z.to_nat (cap - k_at k) - List.length l)%nat with O by lia. cbn [firstn]. apply app_nil_r.
    + rewrite D, len_over by exact A. lia.
Qed.
Lemma flush_bad cap n k : k_bad (k_flush cap n k) = negb (k_at k + len (firstn n (k_buf k)) <=? cap).
Proof. unfold k_flush. destruct (_ <=? _); reflexivity. Qed.
Lemma sync_done cap k f : follows cap k f -> k_bad (k_sync cap k) = false ->
  k_disk (k_sync cap k) = fdata f /\ len (fdata f) <= cap.
Proof.
  intros (B & A & C & D & P). unfold k_sync, k_flush. rewrite firstn_all. destruct (Z.leb_spec (k_at k + len (k_buf k)) cap); [|discriminate].
  intros _. cbn [k_disk]. rewrite D. split; [reflexivity|]. rewrite len_over by exact A. lia.
Qed.

(** The position stays inside the file. *)
Definition inside_op (o : fop) (f : file) : Prop := match o with FSeek pos => 0 <= pos <= len (fdata f) | _ => True end.

Lemma op_ok cap sch o k f f' : follows cap k f -> fop_do o f = Ok f' -> inside_op o f ->
  match k_op cap sch o k with (true, k') => follows cap k' f' | (false, k') => full cap k' (fdata f') end.
Proof.
  intros F E I. pose proof F as (B & A & C & D & P). unfold k_op. rewrite B. cbv zeta.
  set (k0 := mkStream (k_disk k) (k_at k) (k_buf k) false (S (k_n k))).
  assert (F0 : follows cap k0 f) by (unfold holds_file, k0; cbn [k_bad k_at k_disk k_buf]; auto).
  destruct o as [d|pos| |]; cbn [fop_do] in E.
  - injection E as <-.
    set (k1 := mkStream (k_disk k0) (k_at k0) (k_buf k0 ++ d) false (k_n k0)).
    assert (F1 : follows cap k1 (fwrite d f)).
    { unfold holds_file, k1, k0. cbn [k_bad k_at k_disk k_buf]. split; [reflexivity|]. split; [exact A|]. split; [exact C|].
      pose proof (len_nonneg (k_buf k)).
      rewrite fwrite_over by lia. split; [|unfold fwrite; cbn [fpos]; rewrite len_app; lia].
      rewrite over_app by exact A. rewrite D, P. reflexivity. }
    destruct (flush_ok cap (sch (k_n k)) k1 _ F1) as [G|G].
    + rewrite (proj1 G). exact G.
    + rewrite (proj1 G). exact G.
  - unfold fseek in E. destruct ((0 <=? pos) && (pos <? 2 ^ 63)); [|discriminate]. injection E as <-.
    destruct (k_bad (k_sync cap k0)) eqn:Kb.
    + destruct (flush_ok cap (List.length (k_buf k0)) k0 f F0) as [G|G]; [|exact G].
      unfold k_sync in Kb. rewrite (proj1 G) in Kb. discriminate.
    + destruct (sync_done cap k0 f F0 Kb) as (S1 & S2). unfold holds_file. cbn [k_bad k_at k_disk k_buf fdata fpos].
      rewrite S1. cbn [inside_op] in I. split; [reflexivity|]. split; [exact I|]. split; [exact S2|]. rewrite over_nil by exact I.
      split; [reflexivity|]. change (len (@nil Z)) with 0. lia.
  - unfold fseek_end, fseek in E. destruct ((0 <=? _) && _); [|discriminate]. injection E as <-.
    destruct (k_bad (k_sync cap k0)) eqn:Kb.
    + destruct (flush_ok cap (List.length (k_buf k0)) k0 f F0) as [G|G]; [|exact G].
      unfold k_sync in Kb. rewrite (proj1 G) in Kb. discriminate.
    + destruct (sync_done cap k0 f F0 Kb) as (S1 & S2). unfold holds_file. cbn [k_bad k_at k_disk k_buf fdata fpos].
      rewrite S1. pose proof (len_nonneg (fdata f)). split; [reflexivity|]. split; [lia|]. split; [exact S2|].
      rewrite over_nil by lia. split; [reflexivity|]. change (len (@nil Z)) with 0. lia.
  - injection E as <-. exact F0.
Qed.

(** ** Lists of operations *)
Fixpoint fops (l : list fop) (f : file) : outcome file :=
  match l with [] => Ok f | o :: l' => let* f1 := fop_do o f in fops l' f1 end.
Lemma fops_app a : forall b f, fops (a ++ b) f = (let* f1 := fops a f in fops b f1).
Proof. induction a as [|o a IH]; intros b f; cbn [app fops bind]; [reflexivity|]. destruct (fop_do o f); cbn [bind]; [apply IH|reflexivity..]. Qed.

Lemma ops_app cap sch a : forall b k, k_ops cap sch (a ++ b) k =
  match k_ops cap sch a k with (true, k1) => k_ops cap sch b k1 | (false, k1) => (false, k1) end.
Proof.
  induction a as [|o a IH]; intros b k; cbn [app k_ops]; [reflexivity|]. destruct (k_op cap sch o k) as [[] k1]; [apply IH|reflexivity].
Qed.

(** Writes at the end. *)
Definition appends (l : list fop) : Prop := Forall (fun o => exists d, o = FWrite d) l.
Lemma appends_file l : appends l -> forall f, at_end f -> exists f', fops l f = Ok f' /\ at_end f' /\ exists x, fdata f' = fdata f ++ x.
Proof.
  induction 1 as [|o l (d & ->) _ IH]; intros f A; cbn [fops].
  - exists f. split; [reflexivity|]. split; [exact A|]. exists []. rewrite app_nil_r. reflexivity.
  - cbn [fop_do bind]. destruct (fwrite_end d f A) as (E & A'). destruct (IH _ A') as (f' & R & A'' & x & X).
    exists f'. split; [exact R|]. split; [exact A''|]. exists (d ++ x). rewrite X, E, app_assoc. reflexivity.
Qed.
Lemma appends_ok cap sch l : appends l -> forall k f f', follows cap k f -> at_end f -> fops l f = Ok f' ->
  match k_ops cap sch l k with (true, k') => follows cap k' f' | (false, k') => full cap k' (fdata f') end.
Proof.
  induction 1 as [|o l (d & ->) Hl IH]; intros k f f' F A E; cbn [fops k_ops] in *.
  - injection E as <-. exact F.
  - cbn [fop_do bind] in E. destruct (fwrite_end d f A) as (E1 & A').
    pose proof (op_ok cap sch (FWrite d) k f _ F eq_refl I) as O. destruct (k_op cap sch (FWrite d) k) as [[] k1].
    + exact (IH _ _ _ O A' E).
    + destruct O as (B & D & C). destruct (appends_file l Hl _ A') as (f2 & R & _ & x & X). rewrite E in R. injection R as <-.
      split; [exact B|]. rewrite X. rewrite len_app. pose proof (len_nonneg x). split; [|lia].
      rewrite D. rewrite firstn_app. unfold len in *.
      replace (Z.to_nat cap - List.length (fdata (fwrite d f)))%nat with O by lia. cbn [firstn]. rewrite app_nil_r. reflexivity.
Qed.

(** ** The operations of a call *)
Definition same_mode (s s' : osegy) : Prop := o_first s' = o_first s /\ o_min s' = o_min s.
Lemma same_refl s : same_mode s s. Proof. split; reflexivity. Qed.
Lemma same_trans a b c : same_mode a b -> same_mode b c -> same_mode a c.
Proof. intros [? ?] [? ?]. split; congruence. Qed.

Definition logs {A} (m : LX A) (x : X A) : Prop := forall s l0, exists l,
  m (s, l0) = (fst (x s), (snd (x s), l0 ++ l)) /\ fops l (o_file s) = Ok (o_file (snd (x s))) /\ appends l /\
  same_mode s (snd (x s)).

Lemma o_upd_same s : o_upd s (o_file s) (o_bh s) (o_sbuf s) = s.
Proof. destruct s. reflexivity. Qed.

Lemma logs_bind {A B} (m : LX A) x (k : A -> LX B) y :
  logs m x -> (forall a, logs (k a) (y a)) -> logs (xbind m k) (xbind x y).
Proof.
  intros Hm Hk s l0. destruct (Hm s l0) as (l & E & F & G & M). unfold xbind. rewrite E. destruct (x s) as [[a|e|] s1]; cbn [fst snd] in *.
  - destruct (Hk a s1 (l0 ++ l)) as (l' & E' & F' & G' & M'). exists (l ++ l'). rewrite E', app_assoc. split; [reflexivity|].
    rewrite fops_app, F. cbn [bind]. split; [exact F'|]. split; [apply Forall_app; split; assumption|]. exact (same_trans _ _ _ M M').
  - exists l. auto.
  - exists l. auto.
Qed.
Lemma logs_lift {A} (o : outcome A) : logs (xlift o) (xlift o).
Proof.
  intros s l0. exists []. cbn. rewrite app_nil_r. split; [reflexivity|]. split; [reflexivity|]. split; [constructor|apply same_refl].
Qed.
Lemma logs_ret {A} (a : A) : logs (xret a) (xret a).
Proof. exact (logs_lift (Ok a)). Qed.
Lemma logs_throw {A} e : logs (@xthrow _ A e) (xthrow e).
Proof. exact (logs_lift (Throw e)). Qed.
Lemma logs_do {A} (x : X A) : (forall s, o_file (snd (x s)) = o_file s /\ same_mode s (snd (x s))) -> logs (l_do x) x.
Proof.
  intros H s l0. exists []. unfold l_do. cbn [fst snd]. specialize (H s). destruct (x s) as [o s1] eqn:E. cbn [fst snd] in *. rewrite app_nil_r.
  split; [reflexivity|]. cbn [fops]. destruct H as (-> & M). split; [reflexivity|]. split; [constructor|exact M].
Qed.
Lemma logs_get : logs (l_do xget) xget.
Proof. apply logs_do. intro. split; [reflexivity|apply same_refl]. Qed.
Lemma logs_sbuf sb : logs (l_do (put_sbuf sb)) (put_sbuf sb).
Proof. apply logs_do. intro. repeat split. Qed.
(** [put_file (fwrite d (o_file s))] with the current [s]. *)
Definition x_write (d : list Z) : X unit := fun s => (Ok tt, o_upd s (fwrite d (o_file s)) (o_bh s) (o_sbuf s)).
Lemma logs_write d : logs (l_op (FWrite d)) (x_write d).
Proof.
  intros s l0. exists [FWrite d]. split; [reflexivity|]. split; [reflexivity|]. split; [|repeat split]. repeat constructor. exists d. reflexivity.
Qed.
Lemma logs_ext {A} (m : LX A) x y : (forall s, x s = y s) -> logs m x -> logs m y.
Proof. intros H L s l0. rewrite <- H. apply L. Qed.

Lemma logs_header p h : logs (l_header p h) (xwrite_header p h).
Proof.
  eapply logs_ext; [|apply (logs_bind _ _ _ (fun s => match o_maps s with [] => xlift UB | (_, l) :: _ =>
      let! blk := xlift (hdr_block p (o_endian s) l h) in x_write blk end) logs_get)].
  - intro s. unfold xwrite_header, xbind, xget. destruct (o_maps s) as [|[n l] ls]; [reflexivity|]. unfold xlift.
    destruct (hdr_block _ _ _ _); reflexivity.
  - intro s. destruct (o_maps s) as [|[n l] ls]; [apply logs_lift|]. apply logs_bind; [apply logs_lift|]. intro. apply logs_write.
Qed.
Lemma logs_additional p h n : forall ls, logs (l_additional p ls h n) (xwrite_additional p ls h n).
Proof.
  induction n as [|n IH]; intro ls; cbn [l_additional xwrite_additional]; [apply logs_ret|].
  eapply logs_ext; [|apply (logs_bind _ _ _ (fun s => match ls with
      | [] => let! _ := x_write (zeros TR_HEADER_SIZE) in xwrite_additional p [] h n
      | (_, l) :: ls' => let! blk := xlift (hdr_block p (o_endian s) l h) in let! _ := x_write blk in xwrite_additional p ls' h n
      end) logs_get)].
  - intro s. unfold xbind, xget. destruct ls as [|[m l] ls]; [reflexivity|]. unfold xlift. destruct (hdr_block _ _ _ _); reflexivity.
  - intro s. destruct ls as [|[m l] ls].
    + apply logs_bind; [apply logs_write|]. intro. apply IH.
    + apply logs_bind; [apply logs_lift|]. intro. apply logs_bind; [apply logs_write|]. intro. apply IH.
Qed.
Lemma logs_samples p t : logs (l_samples p t) (xwrite_samples p t).
Proof.
  eapply logs_ext; [|apply (logs_bind _ _ _ (fun s =>
      let! sb := xlift (if o_var s then var_buf p (t_hdr t) (o_bps s) (o_sbuf s) else Ok (o_sbuf s)) in
      let! _ := put_sbuf sb in
      let! sb' := xlift (fill_samples p (o_endian s) (bh_format_code (o_bh s)) (t_smp t) sb) in
      let! _ := put_sbuf sb' in
      x_write sb') logs_get)].
  - intro s. unfold xwrite_samples, xbind, xget, xlift. destruct (if o_var s then _ else _); [|reflexivity..].
    cbn [put_sbuf fst snd]. destruct (fill_samples _ _ _ _ _); reflexivity.
  - intro s. apply logs_bind; [apply logs_lift|]. intro sb. apply logs_bind; [apply logs_sbuf|]. intros _.
    apply logs_bind; [apply logs_lift|]. intro sb'. apply logs_bind; [apply logs_sbuf|]. intros _. apply logs_write.
Qed.
Definition x_rest (p : platform) (t : trace) : X unit :=
  let! _ := xwrite_header p (t_hdr t) in
  let! s1 := xget in
  let! _ := (if o_add s1 then xwrite_additional p (tl (o_maps s1)) (t_hdr t) (Z.to_nat (bh_max_num_add_tr_headers (o_bh s1) - 1))
             else xret tt) in
  xwrite_samples p t.
Lemma logs_rest p t : logs (l_rest p t) (x_rest p t).
Proof.
  unfold l_rest, x_rest. apply logs_bind; [apply logs_header|]. intros _. apply logs_bind; [apply logs_get|]. intro s1.
  apply logs_bind; [|intros _; apply logs_samples]. destruct (o_add s1); [apply logs_additional|apply logs_ret].
Qed.

(** The first trace: the position is asked for, and perhaps the binary header is
    written again. *)
Definition min_ops (s : osegy) (l : list fop) : Prop :=
  l = [FTell] \/ (fpos (o_file s) = o_first s /\ exists blk, len blk = 400 /\ l = [FTell; FSeek 3200; FWrite blk]).

Lemma tell_op s l0 : l_op FTell (s, l0) = (Ok tt, (s, l0 ++ [FTell])).
Proof. unfold l_op. cbn [fst snd fop_do]. rewrite o_upd_same. reflexivity. Qed.
Lemma get_do s l0 : l_do xget (s, l0) = (Ok s, (s, l0)).
Proof. reflexivity. Qed.

Definition one_bin (l : list fop) : Prop := l = [] \/ exists blk, len blk = 400 /\ l = [FSeek 3200; FWrite blk].
Definition still {A} (m : LX A) (x : X A) : Prop := forall s l0,
  m (s, l0) = (fst (x s), (snd (x s), l0)) /\ o_file (snd (x s)) = o_file s /\ same_mode s (snd (x s)).
Definition logs1 {A} (m : LX A) (x : X A) : Prop := forall s l0, exists l,
  m (s, l0) = (fst (x s), (snd (x s), l0 ++ l)) /\ fops l (o_file s) = Ok (o_file (snd (x s))) /\ one_bin l /\
  same_mode s (snd (x s)).
Lemma logs1_bind {A B} (m : LX A) x (k : A -> LX B) y :
  still m x -> (forall a, logs1 (k a) (y a)) -> logs1 (xbind m k) (xbind x y).
Proof.
  intros Hm Hk s l0. destruct (Hm s l0) as (E & F & M). unfold xbind. rewrite E. destruct (x s) as [[a|e|] s1]; cbn [fst snd] in *.
  - destruct (Hk a s1 l0) as (l' & E' & F' & G' & M'). exists l'. rewrite E'. split; [reflexivity|]. rewrite <- F.
    split; [exact F'|]. split; [exact G'|]. exact (same_trans _ _ _ M M').
  - exists []. rewrite app_nil_r, F. cbn [fops]. split; [reflexivity|]. split; [reflexivity|]. split; [left; reflexivity|exact M].
  - exists []. rewrite app_nil_r, F. cbn [fops]. split; [reflexivity|]. split; [reflexivity|]. split; [left; reflexivity|exact M].
Qed.
Lemma still_lift {A} (o : outcome A) : still (xlift o) (xlift o).
Proof. intros s l0. split; [reflexivity|]. split; [reflexivity|apply same_refl]. Qed.
Lemma still_get : still (l_do xget) xget.
Proof. intros s l0. split; [reflexivity|]. split; [reflexivity|apply same_refl]. Qed.
Lemma still_bh b : still (l_do (put_bh b)) (put_bh b).
Proof. intros s l0. repeat split. Qed.
Lemma still_sbuf b : still (l_do (put_sbuf b)) (put_sbuf b).
Proof. intros s l0. repeat split. Qed.
Lemma logs1_lift {A} (o : outcome A) : logs1 (xlift o) (xlift o).
Proof.
  intros s l0. exists []. cbn. rewrite app_nil_r. split; [reflexivity|]. split; [reflexivity|]. split; [left; reflexivity|apply same_refl].
Qed.
Lemma logs1_throw {A} e : logs1 (@xthrow _ A e) (xthrow e).
Proof. exact (logs1_lift (Throw e)). Qed.

Lemma logs1_bin : logs1 l_bin_header xwrite_bin_header.
Proof.
  intros s l0. unfold l_bin_header, xwrite_bin_header, xbind, xget, xlift. rewrite get_do. rewrite bin_header_bytes_eq.
  exists [FSeek 3200; FWrite (bin_block (o_endian s) (o_bh s))]. unfold l_op. cbn [fst snd fop_do]. change TEXT_HEADER_SIZE with 3200.
  unfold fseek. change ((0 <=? 3200) && (3200 <? 2 ^ 63)) with true. cbn [fops fop_do bind]. unfold fseek.
  change ((0 <=? 3200) && (3200 <? 2 ^ 63)) with true. cbn [bind fst snd put_file]. split; [|split; [|split]].
  - rewrite <- app_assoc. reflexivity.
  - reflexivity.
  - right. eexists. split; [|reflexivity]. apply len_bin_block.
  - split; reflexivity.
Qed.

Lemma set_min_log p m h s l0 : exists l,
  l_set_min p m h (s, l0) = (fst (xset_min p m h s), (snd (xset_min p m h s), l0 ++ l)) /\
  fops l (o_file s) = Ok (o_file (snd (xset_min p m h s))) /\ min_ops s l /\ same_mode s (snd (xset_min p m h s)).
Proof.
  assert (H : exists L Xm, l_set_min p m h (s, l0) = (if negb (fpos (o_file s) =? o_first s) then xret tt else L) (s, l0 ++ [FTell]) /\
    xset_min p m h s = (if negb (fpos (o_file s) =? o_first s) then xret tt else Xm) s /\ logs1 L Xm).
  { eexists. eexists. split; [|split].
    - unfold l_set_min. unfold xbind at 1. rewrite tell_op. unfold xbind at 1. rewrite get_do. reflexivity.
    - unfold xset_min. unfold xbind at 1. cbn [xget]. reflexivity.
    - apply logs1_bind; [apply still_lift|]. intro v. apply logs1_bind; [apply still_lift|]. intro n.
      destruct (32767 <? n); [apply logs1_throw|]. apply logs1_bind; [apply still_bh|]. intros _.
      apply logs1_bind; [apply still_lift|]. intro w. apply logs1_bind; [apply still_lift|]. intro d.
      destruct (d_lt _ _); [apply logs1_throw|]. apply logs1_bind; [apply still_lift|]. intro si.
      destruct (si =? 0); [apply logs1_throw|]. apply logs1_bind; [apply still_bh|]. intros _.
      apply logs1_bind; [apply still_lift|]. intro bytes. apply logs1_bind; [apply still_lift|]. intro sb.
      apply logs1_bind; [apply still_sbuf|]. intros _. apply logs1_bin. }
  destruct H as (L & Xm & -> & -> & Hl). destruct (Z.eqb_spec (fpos (o_file s)) (o_first s)) as [Eq|]; cbn [negb].
  - destruct (Hl s (l0 ++ [FTell])) as (l & E & F & O & M). exists (FTell :: l). rewrite E, <- app_assoc. split; [reflexivity|].
    cbn [fops fop_do bind]. split; [exact F|]. split; [|exact M].
    destruct O as [->|(blk & B & ->)]; [left; reflexivity|right]. split; [exact Eq|]. exists blk. split; [exact B|reflexivity].
  - exists [FTell]. split; [reflexivity|]. split; [reflexivity|]. split; [left; reflexivity|apply same_refl].
Qed.

(** ** One call *)
Lemma seek_room cap sch pos k f k' : follows cap k f -> k_op cap sch (FSeek pos) k = (true, k') -> len (fdata f) <= cap.
Proof.
  intros F. pose proof F as (B & A & C & D & P). unfold k_op. rewrite B. cbv zeta.
  set (k0 := mkStream (k_disk k) (k_at k) (k_buf k) false (S (k_n k))).
  assert (F0 : follows cap k0 f) by (unfold holds_file, k0; cbn [k_bad k_at k_disk k_buf]; auto).
  destruct (k_bad (k_sync cap k0)) eqn:Kb; [discriminate|]. intros _. exact (proj2 (sync_done cap k0 f F0 Kb)).
Qed.
Definition standing (s : osegy) : Prop :=
  at_end (o_file s) /\ 3600 <= len (fdata (o_file s)) /\ (o_min s <> MNone -> o_first s = 3600).

Lemma min_ok cap sch s l k f' : follows cap k (o_file s) -> standing s -> o_min s <> MNone -> min_ops s l ->
  fops l (o_file s) = Ok f' ->
  at_end f' /\ len (fdata f') = len (fdata (o_file s)) /\
  match k_ops cap sch l k with (true, k') => follows cap k' f' | (false, k') => full cap k' (fdata (o_file s)) end.
Proof.
  intros F (A & L & O) M [->|(P & blk & B & ->)] E.
  - cbn [fops fop_do bind] in E. injection E as <-. split; [exact A|]. split; [reflexivity|]. cbn [k_ops].
    pose proof (op_ok cap sch FTell k (o_file s) _ F eq_refl I) as K. destruct (k_op cap sch FTell k) as [[] k1]; exact K.
  - rewrite (O M) in P. pose proof A as A'. unfold at_end in A'. rewrite P in A'. cbn [fops fop_do bind] in E. unfold fseek in E.
    change ((0 <=? 3200) && (3200 <? 2 ^ 63)) with true in E. cbn [bind] in E.
    assert (Q : len (fdata f') = 3600 /\ at_end f').
    { injection E as <-. unfold at_end, fwrite. cbn [fdata fpos]. change (len (over (fdata (o_file s)) 3200 blk) = 3600 /\ 3200 + len blk = len (over (fdata (o_file s)) 3200 blk)).
      rewrite len_over by lia. lia. }
    split; [apply Q|]. split; [lia|]. cbn [k_ops].
    pose proof (op_ok cap sch FTell k (o_file s) _ F eq_refl I) as K. destruct (k_op cap sch FTell k) as [[] k1]; [|exact K].
    assert (SK : fop_do (FSeek 3200) (o_file s) = Ok (mkFile (fdata (o_file s)) 3200)) by reflexivity.
    assert (I1 : inside_op (FSeek 3200) (o_file s)) by (cbn [inside_op]; lia).
    pose proof (op_ok cap sch (FSeek 3200) k1 (o_file s) _ K SK I1) as K2.
    destruct (k_op cap sch (FSeek 3200) k1) as [[] k2] eqn:E2; [|exact K2].
    pose proof (op_ok cap sch (FWrite blk) k2 _ _ K2 eq_refl I) as K3. injection E as E. rewrite E in K3.
    destruct (k_op cap sch (FWrite blk) k2) as [[] k3]; [exact K3|].
    exfalso. destruct K3 as (_ & _ & C). pose proof (seek_room _ _ _ _ _ _ K E2). lia.
Qed.

Lemma rest_same p t : x_rest p t = (let! _ := xwrite_header p (t_hdr t) in
  let! s1 := xget in
  let! _ := (if o_add s1 then xwrite_additional p (tl (o_maps s1)) (t_hdr t) (Z.to_nat (bh_max_num_add_tr_headers (o_bh s1) - 1))
             else xret tt) in
  xwrite_samples p t).
Proof. reflexivity. Qed.

Lemma standing_same s s' : standing s -> at_end (o_file s') -> len (fdata (o_file s)) <= len (fdata (o_file s')) -> same_mode s s' -> standing s'.
Proof. intros (A & L & O) A' L' (F & M). split; [exact A'|]. split; [lia|]. rewrite F, M. exact O. Qed.

Lemma rest_ok cap sch p t s k l0 : follows cap k (o_file s) -> standing s -> exists l,
  l_rest p t (s, l0) = (fst (x_rest p t s), (snd (x_rest p t s), l0 ++ l)) /\
  appends l /\ standing (snd (x_rest p t s)) /\ same_mode s (snd (x_rest p t s)) /\
  len (fdata (o_file s)) <= len (fdata (o_file (snd (x_rest p t s)))) /\
  match k_ops cap sch l k with
  | (true, k') => follows cap k' (o_file (snd (x_rest p t s)))
  | (false, k') => full cap k' (fdata (o_file (snd (x_rest p t s))))
  end.
Proof.
  intros F St. destruct (logs_rest p t s l0) as (l & E & R & G & M). exists l. split; [exact E|]. split; [exact G|].
  pose proof St as (A & _). destruct (appends_file l G _ A) as (f' & R' & A' & x & D). rewrite R in R'. injection R' as R'.
  assert (Le : len (fdata (o_file s)) <= len (fdata (o_file (snd (x_rest p t s))))).
  { rewrite R', D, len_app. pose proof (len_nonneg x). lia. }
  split; [|split; [exact M|split; [exact Le|]]].
  - apply (standing_same s); [exact St| |exact Le|exact M]. rewrite R'. exact A'.
  - exact (appends_ok cap sch l G k _ _ F A R).
Qed.

Lemma call_min cap sch p m t s k : follows cap k (o_file s) -> standing s -> o_min s <> MNone -> exists l,
  xbind (l_set_min p m (t_hdr t)) (fun _ => l_rest p t) (s, []) =
    (fst (xbind (xset_min p m (t_hdr t)) (fun _ => x_rest p t) s), (snd (xbind (xset_min p m (t_hdr t)) (fun _ => x_rest p t) s), l)) /\
  (o_min s = MNone -> appends l) /\ standing (snd (xbind (xset_min p m (t_hdr t)) (fun _ => x_rest p t) s)) /\
  same_mode s (snd (xbind (xset_min p m (t_hdr t)) (fun _ => x_rest p t) s)) /\
  len (fdata (o_file s)) <= len (fdata (o_file (snd (xbind (xset_min p m (t_hdr t)) (fun _ => x_rest p t) s)))) /\
  match k_ops cap sch l k with
  | (true, k') => follows cap k' (o_file (snd (xbind (xset_min p m (t_hdr t)) (fun _ => x_rest p t) s)))
  | (false, k') => full cap k' (fdata (o_file s)) \/ full cap k' (fdata (o_file (snd (xbind (xset_min p m (t_hdr t)) (fun _ => x_rest p t) s))))
  end.
Proof.
  intros F St Mn. destruct (set_min_log p m (t_hdr t) s []) as (l & E & R & G & M).
  destruct (min_ok cap sch s l k _ F St Mn G R) as (A1 & L1 & K).
  unfold xbind. rewrite E. destruct (xset_min p m (t_hdr t) s) as [o s1]. cbn [fst snd app] in *.
  assert (S1 : standing s1) by (apply (standing_same s); [exact St|exact A1|lia|exact M]).
  destruct o as [u|e|];
    [|exists l; cbn [fst snd]; split; [reflexivity|]; split; [contradiction|]; split; [exact S1|]; split; [exact M|]; split; [lia|];
      destruct (k_ops cap sch l k) as [[] k']; [exact K|left; exact K]..].
  destruct (k_ops cap sch l k) as [[] k1] eqn:E1.
  - destruct (rest_ok cap sch p t s1 k1 l K S1) as (l' & E' & G' & S2 & M2 & Le & K2). exists (l ++ l').
    split; [exact E'|]. split; [contradiction|]. split; [exact S2|]. split; [exact (same_trans _ _ _ M M2)|]. split; [lia|].
    rewrite ops_app, E1. destruct (k_ops cap sch l' k1) as [[] k2]; [exact K2|right; exact K2].
  - destruct (logs_rest p t s1 l) as (l' & E' & R' & G' & M2). exists (l ++ l').
    destruct (appends_file l' G' _ A1) as (f' & R2 & A' & x & D). rewrite R' in R2. injection R2 as R2.
    assert (Le : len (fdata (o_file s1)) <= len (fdata (o_file (snd (x_rest p t s1)))))
      by (rewrite R2, D, len_app; pose proof (len_nonneg x); lia).
    split; [exact E'|]. split; [contradiction|]. split; [apply (standing_same s1); [exact S1|rewrite R2; exact A'|exact Le|exact M2]|].
    split; [exact (same_trans _ _ _ M M2)|]. split; [lia|]. rewrite ops_app, E1. left. exact K.
Qed.

Lemma call_ok cap sch p t s k : follows cap k (o_file s) -> standing s -> exists l,
  l_write_trace p t (s, []) = (fst (xwrite_trace p t s), (snd (xwrite_trace p t s), l)) /\
  (o_min s = MNone -> appends l) /\ standing (snd (xwrite_trace p t s)) /\ same_mode s (snd (xwrite_trace p t s)) /\
  len (fdata (o_file s)) <= len (fdata (o_file (snd (xwrite_trace p t s)))) /\
  match k_ops cap sch l k with
  | (true, k') => follows cap k' (o_file (snd (xwrite_trace p t s)))
  | (false, k') => full cap k' (fdata (o_file s)) \/ full cap k' (fdata (o_file (snd (xwrite_trace p t s))))
  end.
Proof.
  intros F St.
  assert (Q1 : l_write_trace p t (s, []) =
    xbind (match o_min s with MNone => xret tt | m => l_set_min p m (t_hdr t) end) (fun _ => l_rest p t) (s, [])) by reflexivity.
  assert (Q2 : xwrite_trace p t s =
    xbind (match o_min s with MNone => xret tt | m => xset_min p m (t_hdr t) end) (fun _ => x_rest p t) s) by reflexivity.
  rewrite Q1, Q2. clear Q1 Q2.
  destruct (o_min s) eqn:Em.
  { unfold xbind, xret. destruct (rest_ok cap sch p t s k [] F St) as (l & E & G & S1 & M & Le & K). exists l.
    split; [exact E|]. split; [intros _; exact G|]. split; [exact S1|]. split; [exact M|]. split; [exact Le|].
    destruct (k_ops cap sch l k) as [[] k']; [exact K|right; exact K]. }
  1, 2: rewrite <- Em; apply call_min; [exact F|exact St|rewrite Em; discriminate].
Qed.

(** ** All calls *)
Lemma close_follows cap k f : follows cap k f -> k_close cap k = cut cap (fdata f).
Proof.
  intros F. pose proof F as (B & A & C & D & P). unfold k_close. rewrite B.
  destruct (flush_ok cap (List.length (k_buf k)) k f F) as [G|G].
  - destruct (sync_done cap k f F (proj1 G)) as (E & L). rewrite E. unfold cut. symmetry. apply firstn_all2. unfold len in L. lia.
  - apply G.
Qed.
Lemma close_full cap k c : full cap k c -> k_close cap k = cut cap c.
Proof. intros (B & D & _). unfold k_close. rewrite B. exact D. Qed.

Lemma xok p t s s1 : write_trace p s t = Ok s1 -> exists u, xwrite_trace p t s = (Ok u, s1).
Proof.
  intros H. pose proof (xwrite_agrees p t s) as A. rewrite H in A. destruct (xwrite_trace p t s) as [o s2]. cbn [agrees] in A.
  injection A as -> ->. exists tt. reflexivity.
Qed.

Lemma client_ends cap sch p ts : forall s k e s' k', follows cap k (o_file s) -> standing s ->
  client cap sch p s k ts = Ok (e, s', k') ->
  match e with
  | AllWritten => write_traces p s ts = Ok s' /\ follows cap k' (o_file s') /\ standing s'
  | Refused n => exists t s1 x, nth_error ts n = Some t /\ write_traces p s (firstn n ts) = Ok s1 /\
      xwrite_trace p t s1 = (Throw x, s') /\ follows cap k' (o_file s') /\ standing s'
  | DiskFull n => exists t s1 o, nth_error ts n = Some t /\ write_traces p s (firstn n ts) = Ok s1 /\
      xwrite_trace p t s1 = (o, s') /\ (full cap k' (fdata (o_file s1)) \/ full cap k' (fdata (o_file s'))) /\
      len (fdata (o_file s1)) <= len (fdata (o_file s'))
  end.
Proof.
  induction ts as [|t ts IH]; intros s k e s' k' F St H; cbn [client] in H.
  - injection H as <- <- <-. cbn [write_traces]. auto.
  - destruct (call_ok cap sch p t s k F St) as (l & E & _ & S1 & M & Le & K). rewrite E in H. cbn [fst snd] in H.
    destruct (xwrite_trace p t s) as [o s1] eqn:X. cbn [fst snd] in *. destruct (k_ops cap sch l k) as [[] k1].
    + destruct o as [u|x|]; [|injection H as <- <- <-|discriminate].
      * apply bind_ok in H as ([[e1 s2] k2] & C & H). injection H as <- <- <-. pose proof (IH _ _ _ _ _ K S1 C) as Q.
        pose proof (agrees_ok p t s u s1 X) as W.
        destruct e1 as [|n|n]; cbn [later].
        -- cbn [write_traces]. rewrite W. exact Q.
        -- destruct Q as (t' & s3 & x & N & Wt & X' & F' & S'). exists t', s3, x. cbn [nth_error firstn write_traces]. rewrite W. auto.
        -- destruct Q as (t' & s3 & o & N & Wt & X' & F' & L'). exists t', s3, o. cbn [nth_error firstn write_traces]. rewrite W. auto.
      * exists t, s, x. cbn [nth_error firstn write_traces]. auto.
    + injection H as <- <- <-. exists t, s, o. cbn [nth_error firstn write_traces]. auto.
Qed.

Lemma stored_follows f : at_end f -> follows (len (fdata f)) (mkStream (fdata f) (fpos f) [] false 0) f.
Proof.
  intro A. unfold holds_file. cbn [k_bad k_at k_disk k_buf]. unfold at_end in A. pose proof (len_nonneg (fdata f)).
  rewrite over_nil by lia. change (len (@nil Z)) with 0. repeat split; lia.
Qed.
Lemma traces_grow p ts : forall s s', standing s -> write_traces p s ts = Ok s' ->
  standing s' /\ len (fdata (o_file s)) <= len (fdata (o_file s')).
Proof.
  induction ts as [|t ts IH]; intros s s' St H; cbn [write_traces] in H.
  - injection H as <-. split; [exact St|lia].
  - apply bind_ok in H as (s1 & W & H). destruct (xok p t s s1 W) as (u & X).
    destruct (call_ok _ (fun _ => O) p t s _ (stored_follows _ (proj1 St)) St) as (l & _ & _ & S1 & _ & Le & _).
    rewrite X in *. cbn [fst snd] in *. destruct (IH s1 s' S1 H). split; [assumption|lia].
Qed.

Lemma client_room cap sch p ts : forall s k s', follows cap k (o_file s) -> standing s -> write_traces p s ts = Ok s' ->
  len (fdata (o_file s')) <= cap -> exists k', client cap sch p s k ts = Ok (AllWritten, s', k') /\ follows cap k' (o_file s') /\ standing s'.
Proof.
  induction ts as [|t ts IH]; intros s k s' F St H C; cbn [write_traces] in H.
  - injection H as <-. exists k. auto.
  - apply bind_ok in H as (s1 & W & H). destruct (xok p t s s1 W) as (u & X).
    destruct (call_ok cap sch p t s k F St) as (l & E & _ & S1 & M & Le & K). rewrite X in *. cbn [fst snd] in *.
    destruct (traces_grow p ts s1 s' S1 H) as (_ & G). cbn [client]. rewrite E. cbn [fst snd].
    destruct (k_ops cap sch l k) as [[] k1].
    + destruct (IH s1 k1 s' K S1 H C) as (k' & E' & F'). rewrite E'. cbn [bind later]. exists k'. auto.
    + exfalso. destruct K as [(_ & _ & K)|(_ & _ & K)]; lia.
Qed.

(** A stream that hands over nothing on its own. *)
Definition lazy (sch : nat -> nat) : Prop := forall i, sch i = O.
Lemma lazy_ops cap sch l : lazy sch -> appends l -> forall k f, follows cap k f -> exists k', k_ops cap sch l k = (true, k').
Proof.
  intros Lz. induction 1 as [|o l (d & ->) _ IH]; intros k f F; cbn [k_ops]; [eauto|].
  pose proof (op_ok cap sch (FWrite d) k f _ F eq_refl I) as K. destruct (k_op cap sch (FWrite d) k) as [[] k1] eqn:E; [exact (IH _ _ K)|].
  exfalso. revert E. pose proof F as (B & A & C & _). unfold k_op. rewrite B. cbv zeta. rewrite Lz. unfold k_flush. cbn [firstn k_at k_disk k_buf].
  change (len (@nil Z)) with 0. replace (k_at k + 0 <=? cap) with true by lia. discriminate.
Qed.
Lemma client_lazy cap sch p ts : lazy sch -> forall s k s', follows cap k (o_file s) -> standing s -> o_min s = MNone -> write_traces p s ts = Ok s' ->
  exists k', client cap sch p s k ts = Ok (AllWritten, s', k') /\ follows cap k' (o_file s').
Proof.
  intros Lz. induction ts as [|t ts IH]; intros s k s' F St Mn H; cbn [write_traces] in H.
  - injection H as <-. exists k. auto.
  - apply bind_ok in H as (s1 & W & H). destruct (xok p t s s1 W) as (u & X).
    destruct (call_ok cap sch p t s k F St) as (l & E & G & S1 & M & Le & K). rewrite X in *. cbn [fst snd] in *.
    destruct (lazy_ops cap sch l Lz (G Mn) k _ F) as (k1 & E1). rewrite E1 in K.
    assert (Mn1 : o_min s1 = MNone) by (rewrite (proj2 M); exact Mn).
    destruct (IH s1 k1 s' K S1 Mn1 H) as (k' & E' & F'). cbn [client]. rewrite E. cbn [fst snd]. rewrite E1, E'.
    cbn [bind later]. exists k'. auto.
Qed.

(** ** The destructor *)
Lemma bad_ops cap sch o l k : k_bad k = true -> k_ops cap sch (o :: l) k = (false, k).
Proof. intro B. cbn [k_ops]. unfold k_op. rewrite B. reflexivity. Qed.

Lemma end_op f : at_end f -> len (fdata f) < 2 ^ 63 -> fop_do FEnd f = Ok f.
Proof.
  intros A L. cbn [fop_do]. unfold fseek_end, fseek. pose proof (len_nonneg (fdata f)). rewrite Z.add_0_r. replace (_ && _) with true by lia.
  unfold at_end in A. rewrite <- A. destruct f. reflexivity.
Qed.
Lemma stanza_appends s : appends (if bh_num_of_trailer_stanza (o_bh s) =? 0 then []
           else map (fun t => FWrite (firstn (Z.to_nat TEXT_HEADER_SIZE) t)) (o_stanzas s)).
Proof.
  destruct (_ =? 0); [constructor|]. induction (o_stanzas s); constructor; [eexists; reflexivity|assumption].
Qed.
Lemma writes_data (ts : list (list Z)) : forall f, at_end f -> exists f', fops (map (fun t => FWrite (firstn (Z.to_nat TEXT_HEADER_SIZE) t)) ts) f = Ok f' /\
  fdata f' = fdata f ++ concat (map (firstn (Z.to_nat 3200)) ts).
Proof.
  induction ts as [|t ts IH]; intros f A; cbn [map fops concat].
  - exists f. rewrite app_nil_r. auto.
  - cbn [fop_do bind]. destruct (fwrite_end (firstn (Z.to_nat TEXT_HEADER_SIZE) t) f A) as (E & A').
    destruct (IH _ A') as (f' & R & D). exists f'. split; [exact R|]. rewrite D, E, <- app_assoc. reflexivity.
Qed.

Lemma full_app cap k c x : full cap k c -> full cap k (c ++ x).
Proof.
  intros (B & D & L). split; [exact B|]. rewrite len_app. pose proof (len_nonneg x). split; [|lia].
  rewrite D, firstn_app. unfold len in L. replace (Z.to_nat cap - List.length c)%nat with O by lia. cbn [firstn]. rewrite app_nil_r. reflexivity.
Qed.

Lemma destroy_follows w cap sch s k : follows cap k (o_file s) -> at_end (o_file s) -> len (fdata (o_file s)) < 2 ^ 63 ->
  exists b, destroy (is_rev2 w) cap sch s k = (b, cut cap (fdata (o_file s) ++ stanza_bytes w s)) /\
    (b = false -> cap < len (fdata (o_file s) ++ stanza_bytes w s) /\ is_rev2 w = true) /\
    (is_rev2 w = true -> cap < len (fdata (o_file s)) -> b = false).
Proof.
  intros F A L. unfold destroy, stanza_bytes. destruct (is_rev2 w); cbn [andb].
  - unfold close_ops. cbn [k_ops].
    pose proof (op_ok cap sch FEnd k _ _ F (end_op _ A L) I) as K. destruct (k_op cap sch FEnd k) as [[] k1] eqn:E1.
    + set (l := if bh_num_of_trailer_stanza (o_bh s) =? 0 then [] else _).
      assert (R : exists f', fops l (o_file s) = Ok f' /\ fdata f' = fdata (o_file s) ++
         (if negb (bh_num_of_trailer_stanza (o_bh s) =? 0) then concat (map (firstn (Z.to_nat 3200)) (o_stanzas s)) else [])).
      { unfold l. destruct (_ =? 0); cbn [negb]; [|apply writes_data; exact A]. exists (o_file s). rewrite app_nil_r. split; reflexivity. }
      destruct R as (f' & R & D). pose proof (appends_ok cap sch l (stanza_appends s) k1 _ _ K A R) as K2. rewrite <- D.
      assert (Room : len (fdata (o_file s)) <= cap).
      { revert E1. pose proof F as (B & A1 & C & D1 & P1). unfold k_op. rewrite B. cbv zeta.
        set (k0 := mkStream (k_disk k) (k_at k) (k_buf k) false (S (k_n k))).
        assert (F0 : follows cap k0 (o_file s)) by (unfold holds_file, k0; cbn [k_bad k_at k_disk k_buf]; auto).
        destruct (k_bad (k_sync cap k0)) eqn:Kb; [discriminate|]. intros _. exact (proj2 (sync_done cap k0 _ F0 Kb)). }
      destruct (k_ops cap sch l k1) as [[] k2].
      * exists true. split; [rewrite (close_follows _ _ _ K2); reflexivity|]. split; [discriminate|]. intros _ ?. lia.
      * exists false. destruct K2 as (B & D2 & C). split; [unfold cut; rewrite D2; reflexivity|]. split; [intros _; split; [exact C|reflexivity]|]. reflexivity.
    + exists false. set (x := if negb _ then _ else []). destruct (full_app _ _ _ x K) as (B & D & C).
      split; [unfold cut; rewrite D; reflexivity|]. split; [intros _; split; [exact C|reflexivity]|]. reflexivity.
  - exists true. rewrite app_nil_r. split; [rewrite (close_follows _ _ _ F); reflexivity|]. split; [discriminate|discriminate].
Qed.
Lemma destroy_full rev2 cap sch s k c : full cap k c -> destroy rev2 cap sch s k = (negb rev2, cut cap c).
Proof.
  intros F. pose proof F as (B & D & C). unfold destroy. destruct rev2; cbn [negb].
  - unfold close_ops. rewrite bad_ops by exact B. rewrite D. reflexivity.
  - rewrite (close_full _ _ _ F). reflexivity.
Qed.

Lemma open_standing p w bh ls s : len (given_texts w) <= 65536 -> w_open p w bh ls = Ok s -> standing s.
Proof.
  intros Ln Ho. destruct (w_open_inv _ _ _ _ _ Ho Ln) as (_ & _ & t0 & tr & b & (D & L & A & F & X) & _).
  assert (K : len (fdata (o_file s)) = 3600 + len (concat tr)) by (rewrite D, !len_app, len_bin_block, L; lia).
  pose proof (len_nonneg (concat tr)). split; [exact A|]. split; [lia|]. intro M. rewrite (X M) in K. change (len (@nil Z)) with 0 in K.
  rewrite F. unfold at_end in A. lia.
Qed.

Lemma client_ub cap sch p ts : forall s k, follows cap k (o_file s) -> standing s ->
  (forall x, client cap sch p s k ts <> Throw x) /\
  (client cap sch p s k ts = UB -> exists n t s1 s2, nth_error ts n = Some t /\ write_traces p s (firstn n ts) = Ok s1 /\ xwrite_trace p t s1 = (UB, s2)).
Proof.
  induction ts as [|t ts IH]; intros s k F St; cbn [client]; [split; [intro|]; discriminate|].
  destruct (call_ok cap sch p t s k F St) as (l & E & _ & S1 & M & Le & K). rewrite E. cbn [fst snd].
  destruct (xwrite_trace p t s) as [o s1] eqn:X. cbn [fst snd] in *. destruct (k_ops cap sch l k) as [[] k1].
  - destruct o as [u|x|].
    + destruct (IH s1 k1 K S1) as (I1 & I2). pose proof (agrees_ok p t s u s1 X) as W.
      destruct (client cap sch p s1 k1 ts) as [[[e s2] k2]|x|]; cbn [bind].
      * split; [intro|]; discriminate.
      * destruct (I1 x eq_refl).
      * split; [intro; discriminate|]. intros _. destruct (I2 eq_refl) as (n & t' & s3 & s4 & N & Wt & X').
        exists (S n), t', s3, s4. cbn [nth_error firstn write_traces]. rewrite W. auto.
    + split; [intro|]; discriminate.
    + split; [intro; discriminate|]. intros _. exists O, t, s, s1. cbn [nth_error firstn write_traces]. auto.
  - split; [intro|]; discriminate.
Qed.
