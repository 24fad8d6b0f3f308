(** A SEG-Y writer on a disk from its constructor on (C108). *)
From Coq Require Import Lia.
From Verif Require Import BaseFacts BinFacts Platform Fp TraceHdr SegyTypes SegyCodec CodecSpec LayoutSpec ISegy OSegy StepX OSegyX ReadSpec RoundSpec FileSpec
  WriterFacts FileFacts DiskX DiskSpec DiskFacts CrashSpec CrashFacts StartX.
Local Open Scope Z_scope.

(** Operations that only make the file longer; [n] is its length before them. *)
Fixpoint straight (l : list fop) (n : Z) : Prop :=
  match l with
  | [] => True
  | FWrite d :: l' => straight l' (n + len d)
  | FSeek q :: l' => q = n /\ q < 2 ^ 63 /\ straight l' n
  | FTell :: l' => straight l' n
  | FEnd :: _ => False
  end.
Lemma straight_app a : forall b n, straight (a ++ b) n <-> straight a n /\ straight b (n + len (data a)).
Proof.
  induction a as [|o a IH]; intros b n; cbn [app straight].
  - unfold data. cbn [map concat]. change (len (@nil Z)) with 0. rewrite Z.add_0_r. tauto.
  - destruct o; unfold data; cbn [map concat]; fold (data a); cbn [app].
    + rewrite len_app, Z.add_assoc. apply IH.
    + rewrite IH. tauto.
    + tauto.
    + apply IH.
Qed.
Lemma straight_firstn j l n : straight l n -> straight (firstn j l) n.
Proof. intro H. rewrite <- (firstn_skipn j l) in H. apply straight_app in H. apply H. Qed.
Lemma appends_straight l : appends l -> forall n, straight l n.
Proof. induction 1 as [|o l (d & ->) _ IH]; intro n; cbn [straight]; [exact I|apply IH]. Qed.
Lemma data_app a b : data (a ++ b) = data a ++ data b.
Proof. unfold data. rewrite map_app, concat_app. reflexivity. Qed.

Lemma flush_at cap n k : k_at k = len (k_disk k) -> k_bad (k_flush cap n k) = false ->
  k_at (k_flush cap n k) = len (k_disk (k_flush cap n k)).
Proof.
  intros A B. unfold k_flush in *. destruct (_ <=? cap); [|discriminate]. cbn [k_at k_disk]. rewrite A, over_end, len_app. reflexivity.
Qed.
Lemma op_at cap sch o k k' f : follows cap k f -> k_at k = len (k_disk k) -> straight [o] (len (fdata f)) ->
  k_op cap sch o k = (true, k') -> k_at k' = len (k_disk k').
Proof.
  intros (B & _ & _ & D & _) A S. unfold k_op. rewrite B. cbv zeta. destruct o as [d|q| |]; cbn [straight] in S.
  - intro H. apply pair_equal_spec in H as (H1 & <-). apply flush_at; [exact A|]. apply Bool.negb_true_iff, H1.
  - set (k0 := mkStream _ _ _ _ _). destruct (k_bad (k_sync cap k0)) eqn:Kb; [discriminate|]. intro H. apply pair_equal_spec in H as (_ & <-). cbn [k_at k_disk]. destruct S as (-> & _).
    unfold k_sync, k_flush, k0 in *. cbn [k_buf k_at k_disk k_n] in *. rewrite firstn_all in *. destruct (_ <=? cap); [|discriminate]. cbn [k_disk].
    rewrite D. reflexivity.
  - destruct S.
  - intro H. injection H as <-. exact A.
Qed.

(** Such operations on the stream. *)
Lemma straight_op o f : at_end f -> straight [o] (len (fdata f)) ->
  exists f1, fop_do o f = Ok f1 /\ at_end f1 /\ fdata f1 = fdata f ++ data [o] /\ inside_op o f.
Proof.
  intros A S1. destruct o as [d|q| |]; cbn [straight fop_do inside_op] in *; unfold data; cbn [map concat]; rewrite ?app_nil_r.
  - destruct (fwrite_end d f A) as (E1 & E2). exists (fwrite d f). auto.
  - destruct S1 as (-> & L & _). pose proof (len_nonneg (fdata f)). unfold fseek.
    replace ((0 <=? len (fdata f)) && (len (fdata f) <? 2 ^ 63)) with true by lia.
    eexists. split; [reflexivity|]. unfold at_end. cbn [fpos fdata]. split; [reflexivity|]. split; [reflexivity|]. lia.
  - destruct S1.
  - exists f. auto.
Qed.
Lemma straight_cons o l f f1 : fdata f1 = fdata f ++ data [o] -> straight (o :: l) (len (fdata f)) ->
  straight [o] (len (fdata f)) /\ straight l (len (fdata f1)).
Proof. intros D S. apply (straight_app [o] l) in S. rewrite D, len_app. exact S. Qed.
Lemma straight_file l : forall f, at_end f -> straight l (len (fdata f)) ->
  exists f', fops l f = Ok f' /\ at_end f' /\ fdata f' = fdata f ++ data l.
Proof.
  induction l as [|o l IH]; intros f A S.
  - exists f. cbn [fops]. unfold data. cbn [map concat]. rewrite app_nil_r. auto.
  - destruct (straight_op o f A (proj1 (proj1 (straight_app [o] l _) S))) as (f1 & E & A1 & D1 & _).
    destruct (straight_cons o l f f1 D1 S) as (_ & S2). destruct (IH f1 A1 S2) as (f' & F1 & F2 & F3). exists f'.
    cbn [fops]. rewrite E. cbn [bind]. split; [exact F1|]. split; [exact F2|].
    rewrite F3, D1, <- app_assoc, <- data_app. reflexivity.
Qed.
Lemma straight_run cap sch l : forall k f f', follows cap k f -> at_end f -> k_at k = len (k_disk k) -> straight l (len (fdata f)) ->
  fops l f = Ok f' ->
  match k_ops cap sch l k with
  | (true, k') => follows cap k' f' /\ k_at k' = len (k_disk k')
  | (false, k') => full cap k' (fdata f')
  end.
Proof.
  induction l as [|o l IH]; intros k f f' F A Ka S H; cbn [fops k_ops] in *.
  - injection H as <-. auto.
  - destruct (straight_op o f A (proj1 (proj1 (straight_app [o] l _) S))) as (f1 & E & A1 & D1 & In1).
    destruct (straight_cons o l f f1 D1 S) as (S1 & S2). rewrite E in H. cbn [bind] in H.
    pose proof (op_ok cap sch o k f f1 F E In1) as Ok1. destruct (k_op cap sch o k) as [[] k1] eqn:Ek.
    + exact (IH k1 f1 f' Ok1 A1 (op_at cap sch o k k1 f F Ka S1 Ek) S2 H).
    + destruct (straight_file l f1 A1 S2) as (f2 & F1 & _ & F3). rewrite H in F1. injection F1 as <-. rewrite F3. apply full_app, Ok1.
Qed.
Lemma straight_room cap sch l : forall k f f', follows cap k f -> at_end f -> k_at k = len (k_disk k) -> straight l (len (fdata f)) ->
  fops l f = Ok f' -> len (fdata f') <= cap -> exists k', k_ops cap sch l k = (true, k').
Proof.
  intros k f f' F A Ka S H L. pose proof (straight_run cap sch l k f f' F A Ka S H) as Q. destruct (k_ops cap sch l k) as [[] k']; [eauto|].
  destruct Q as (_ & _ & Q). lia.
Qed.

(** What is on the disk after such operations is a beginning of the file. *)
Lemma straight_disk cap sch l f k : follows cap k f -> at_end f -> k_at k = len (k_disk k) -> straight l (len (fdata f)) ->
  exists q, 0 <= q <= len (fdata f ++ data l) /\ k_disk (snd (k_ops cap sch l k)) = firstn (Z.to_nat q) (fdata f ++ data l).
Proof.
  intros F A Ka S. destruct (straight_file l f A S) as (f' & H & _ & D). pose proof (straight_run cap sch l k f f' F A Ka S H) as Q. rewrite <- D.
  assert (C0 : 0 <= cap) by (destruct F as (_ & ? & ? & _); lia).
  destruct (k_ops cap sch l k) as [[] k']; cbn [snd].
  - destruct Q as ((_ & _ & _ & Q & _) & Ka'). rewrite Ka', over_end in Q. exists (len (k_disk k')).
    rewrite Q, len_app. pose proof (len_nonneg (k_disk k')). pose proof (len_nonneg (k_buf k')). split; [lia|].
    unfold len. rewrite Nat2Z.id, firstn_app, Nat.sub_diag, firstn_all. cbn [firstn]. rewrite app_nil_r. reflexivity.
  - destruct Q as (_ & Q & L). exists cap. split; [lia|exact Q].
Qed.

(** ** The constructors *)
Lemma new_follows cap : 0 <= cap -> follows cap new_stream empty_file.
Proof.
  intro H. unfold holds_file, new_stream. cbn [k_bad k_at k_disk k_buf]. change (len (@nil Z)) with 0.
  split; [reflexivity|]. split; [lia|]. split; [lia|]. split; reflexivity.
Qed.
Lemma texts_ops ts : straight (map text_op ts) 0 /\ data (map text_op ts) = concat (map first_text ts) /\ appends (map text_op ts).
Proof.
  assert (A : appends (map text_op ts)) by (apply Forall_forall; intros o I; apply in_map_iff in I as (t & <- & _); eexists; reflexivity).
  split; [apply appends_straight, A|]. split; [|exact A]. unfold data. rewrite map_map. reflexivity.
Qed.
Lemma ctor_facts p w bh ls s : len (given_texts w) <= 65536 -> w_open p w bh ls = Ok s ->
  straight (ctor_ops w bh s) 0 /\ data (ctor_ops w bh s) = fdata (o_file s) /\ fops (ctor_ops w bh s) empty_file = Ok (o_file s) /\
  3600 <= len (fdata (o_file s)).
Proof.
  intros Ln H.
  assert (Q : exists t0 tr, o_text s = t0 :: tr /\ ready s (first_text t0) (ctor_header w bh) (concat (map first_text tr))).
  { destruct w as [txt|txts|txts st]; cbn [w_open given_texts] in *.
    - apply rev0_open_inv in H as (_ & t & _ & Et & R & _ & _ & _ & Eb & _). exists t, []. split; [exact Et|]. rewrite Eb in R. exact R.
    - apply rev1_open_inv in H as (_ & t & tr & H); [|exact Ln]. cbv zeta in H. destruct H as (_ & Et & R & _). exists t, tr. auto.
    - apply rev2_open_inv in H as (_ & _ & _ & t & tr & H); [|exact Ln]. cbv zeta in H. destruct H as (_ & Et & R & _). exists t, tr. auto. }
  destruct Q as (t0 & tr & Et & (D & L & A & _)). unfold ctor_ops. rewrite Et, bin_header_bytes_eq.
  set (blk := bin_block (o_endian s) (ctor_header w bh)) in *.
  assert (St : straight ([text_op t0; FSeek TEXT_HEADER_SIZE; FWrite blk] ++ map text_op tr ++ [FTell]) 0).
  { cbn [app straight text_op]. fold (first_text t0). rewrite L. split; [reflexivity|]. split; [vm_compute; reflexivity|].
    apply straight_app. split; [apply appends_straight, texts_ops|exact I]. }
  assert (Da : data ([text_op t0; FSeek TEXT_HEADER_SIZE; FWrite blk] ++ map text_op tr ++ [FTell]) = fdata (o_file s)).
  { rewrite D. rewrite !data_app. rewrite (proj1 (proj2 (texts_ops tr))). unfold data. cbn [map concat text_op app]. rewrite !app_nil_r, <- app_assoc. reflexivity. }
  split; [exact St|]. split; [exact Da|]. split.
  - destruct (straight_file _ empty_file empty_end St) as (f' & F & A' & D'). rewrite F. f_equal. rewrite Da in D'. cbn [empty_file fdata app] in D'.
    unfold at_end in *. destruct f' as [d q]. destruct (o_file s) as [d2 q2]. cbn [fdata fpos] in *. congruence.
  - rewrite D, !len_app, L. unfold blk. rewrite len_bin_block. pose proof (len_nonneg (concat (map first_text tr))). lia.
Qed.

Lemma ctor_run cap sch p w bh ls s : 0 <= cap -> len (given_texts w) <= 65536 -> w_open p w bh ls = Ok s ->
  match k_ops cap sch (ctor_ops w bh s) new_stream with
  | (true, k) => follows cap k (o_file s) /\ k_at k = len (k_disk k)
  | (false, k) => full cap k (fdata (o_file s))
  end.
Proof.
  intros C Ln H. destruct (ctor_facts p w bh ls s Ln H) as (St & _ & F & _).
  exact (straight_run cap sch _ new_stream empty_file _ (new_follows cap C) empty_end eq_refl St F).
Qed.

(** ** From the constructor to the destructor *)
Lemma session_inv cap sch p w bh ls ts r b found : 0 <= cap -> len (given_texts w) <= 65536 -> session cap sch p w bh ls ts = Ok (r, b, found) ->
  exists s, w_open p w bh ls = Ok s /\
    ((r = None /\ b = true /\ cap < len (fdata (o_file s)) /\ found = cut cap (fdata (o_file s))) \/
     (exists e k s' k', r = Some e /\ follows cap k (o_file s) /\ client cap sch p s k ts = Ok (e, s', k') /\
        destroy (is_rev2 w) cap sch s' k' = (b, found))).
Proof.
  intros C Ln H. unfold session in H. apply bind_ok in H as (s & Ho & H). exists s. split; [exact Ho|].
  pose proof (ctor_run cap sch p w bh ls s C Ln Ho) as Q. destruct (k_ops cap sch (ctor_ops w bh s) new_stream) as [[] k].
  - right. apply bind_ok in H as ([[e s'] k'] & Ec & H). destruct (destroy _ _ _ _ _) as [b' fd] eqn:Ed. injection H as <- <- <-.
    exists e, k, s', k'. split; [reflexivity|]. split; [apply Q|]. auto.
  - left. injection H as <- <- <-. split; [reflexivity|]. split; [reflexivity|]. split; [apply Q|]. apply close_full, Q.
Qed.

(** Beginnings of the file that the constructor leaves are beginnings of the
    complete file or have no trace. *)
Lemma few_read p w bh nm l ls s ts sN q : sane_alloc p -> p_left_first p = true -> safe_layout l -> NoDup (names l) ->
  comes_back w bh l (bh_samp_per_tr (o_bh sN) mod 2 ^ 16) ts -> w_open p w bh ((nm, l) :: ls) = Ok s -> write_traces p s ts = Ok sN ->
  len (fdata (o_file sN)) < 2 ^ 63 -> 0 <= q <= len (fdata (o_file s)) ->
  beginning_read p ((nm, l) :: ls) (trace_back p (o_endian s) (bh_format_code (o_bh s)) l) s ts (firstn (Z.to_nat q) (fdata (o_file s))).
Proof.
  intros HA HL HS HN Cb Ho Hw Hl Hq. pose proof Cb as (Hok & _ & X & _). pose proof (texts_few _ _ Hok X) as Ln.
  pose proof (open_standing _ _ _ _ _ Ln Ho) as St.
  assert (C1 : comes_back w bh l (bh_samp_per_tr (o_bh s) mod 2 ^ 16) []) by exact (comes_firstn _ _ _ _ _ ts 0 Cb (or_intror eq_refl)).
  destruct (traces_grow2 p ts s sN St Hw) as (_ & _ & G).
  destruct (core p w bh nm l ls s [] s q HA HL HS HN C1 Ho eq_refl) as (n & sn & Q1 & Q2 & Q3 & Q4 & Q5); [lia..|].
  cbn [List.length] in Q1. assert (n = O) as -> by lia. cbn [firstn write_traces] in Q2. injection Q2 as <-.
  exists O, s. split; [lia|]. split; [reflexivity|]. split; [left; reflexivity|]. split; [|exact Q5].
  intros m sm Lm Wm. destruct (traces_grow2 p _ s sm St Wm) as (_ & _ & G2). unfold len in *. rewrite !firstn_length in *. lia.
Qed.

Lemma session_core p w bh nm l ls s ts sN cap sch r b found : sane_alloc p -> p_left_first p = true -> safe_layout l -> NoDup (names l) ->
  comes_back w bh l (bh_samp_per_tr (o_bh sN) mod 2 ^ 16) ts -> w_open p w bh ((nm, l) :: ls) = Ok s -> write_traces p s ts = Ok sN ->
  len (fdata (o_file sN)) < 2 ^ 63 -> 0 <= cap -> session cap sch p w bh ((nm, l) :: ls) ts = Ok (r, b, found) ->
  beginning_read p ((nm, l) :: ls) (trace_back p (o_endian s) (bh_format_code (o_bh s)) l) s ts found.
Proof.
  intros HA HL HS HN Cb Ho Hw Hl C H. pose proof Cb as (Hok & _ & X & _). pose proof (texts_few _ _ Hok X) as Ln.
  destruct (session_inv _ _ _ _ _ _ _ _ _ _ C Ln H) as (s1 & E & Q). rewrite Ho in E. injection E as <-.
  destruct Q as [(_ & _ & L & ->)|(e & k & s' & k' & _ & F & Cl & D)].
  - unfold cut. apply (few_read p w bh nm l ls s ts sN); auto. lia.
  - replace found with (snd (destroy (is_rev2 w) cap sch s' k')) by (rewrite D; reflexivity). eapply full_core; eassumption.
Qed.

Lemma killed_start p w bh nm l ls s ts sN cap sch j : sane_alloc p -> p_left_first p = true -> safe_layout l -> NoDup (names l) ->
  comes_back w bh l (bh_samp_per_tr (o_bh sN) mod 2 ^ 16) ts -> w_open p w bh ((nm, l) :: ls) = Ok s -> write_traces p s ts = Ok sN ->
  len (fdata (o_file sN)) < 2 ^ 63 -> o_min s = MNone -> 0 <= cap ->
  beginning_read p ((nm, l) :: ls) (trace_back p (o_endian s) (bh_format_code (o_bh s)) l) s ts
    (k_disk (snd (k_ops cap sch (firstn j (ctor_ops w bh s ++ all_ops p s ts)) new_stream))).
Proof.
  intros HA HL HS HN Cb Ho Hw Hl M C. pose proof Cb as (Hok & _ & X & _). pose proof (texts_few _ _ Hok X) as Ln.
  destruct (ops_data p ts s sN (open_standing _ _ _ _ _ Ln Ho) M Hw) as (Ap & D). destruct (ctor_facts _ _ _ _ _ Ln Ho) as (St & Dc & _ & _).
  set (os := ctor_ops w bh s ++ all_ops p s ts).
  assert (So : straight os 0) by (apply straight_app; split; [exact St|apply appends_straight, Ap]).
  assert (Do : data os = fdata (o_file sN)) by (unfold os; rewrite data_app, Dc, D; reflexivity).
  destruct (straight_disk cap sch (firstn j os) empty_file new_stream (new_follows cap C) empty_end eq_refl (straight_firstn j os 0 So)) as (q & Hq & ->).
  cbn [empty_file fdata app] in *.
  assert (E : fdata (o_file sN) = data (firstn j os) ++ data (skipn j os)) by (rewrite <- data_app, firstn_skipn; congruence).
  replace (firstn (Z.to_nat q) (data (firstn j os))) with (firstn (Z.to_nat q) (fdata (o_file sN))).
  - apply (core p w bh); auto. rewrite E, len_app. pose proof (len_nonneg (data (skipn j os))). lia.
  - rewrite E, firstn_app. replace (Z.to_nat q - List.length (data (firstn j os)))%nat with O by (unfold len in Hq; lia). cbn [firstn]. apply app_nil_r.
Qed.
