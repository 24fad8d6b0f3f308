(** A writer that stores its binary header a second time, cut off (C108). *)
From Coq Require Import Lia.
From Verif Require Import BaseFacts CodecFacts BinFacts Platform Fp TraceHdr SegyTypes SegyCodec CodecSpec LayoutSpec ISegy OSegy OpenFacts ReaderFacts StepX OSegyX ReadSpec RoundSpec FileSpec
  WriterFacts FileFacts RoundFacts RefuseFacts DiskX DiskSpec DiskFacts CrashSpec CrashFacts StartX StartFacts.
Local Open Scope Z_scope.

Lemma app_inv_len {A} (a b c d : list A) : a ++ b = c ++ d -> List.length a = List.length c -> a = c /\ b = d.
Proof.
  intros E L. pose proof (app_same_len _ _ _ _ E L) as ->. split; [reflexivity|]. exact (app_inv_head _ _ _ E).
Qed.

(** ** A header of which the first [q] bytes are new *)
Definition mix (q : nat) (a b : list Z) : list Z := firstn q a ++ skipn q b.
Lemma mix_app q a a' x x' : List.length a = List.length a' -> mix q (a ++ x) (a' ++ x') = mix q a a' ++ mix (q - List.length a) x x'.
Proof.
  intro L. unfold mix. rewrite firstn_app, skipn_app, <- L. destruct (Nat.le_gt_cases q (List.length a)) as [H|H].
  - replace (q - List.length a)%nat with O by lia. cbn [firstn skipn app]. rewrite app_nil_r, <- app_assoc. reflexivity.
  - rewrite (skipn_all2 a') by lia. cbn [app]. rewrite app_nil_r, app_assoc. reflexivity.
Qed.
Lemma mix_same q a : mix q a a = a.
Proof. apply firstn_skipn. Qed.
Lemma two_bytes e l : bytes l -> List.length l = 2%nat -> exists z, in_i 16 z = true /\ wr e 2 z = l.
Proof.
  assert (K : forall v, le_enc 2 (wrapu (8 * Z.of_nat 2) (wraps 16 v)) = le_enc 2 v).
  { intro v. change (8 * Z.of_nat 2) with 16. rewrite wrapu_wraps by lia. exact (le_enc_wrapu 2 v). }
  assert (I : forall v, in_i 16 (wraps 16 v) = true) by (intro v; apply wraps_range; lia).
  intros B L. destruct e.
  - exists (wraps 16 (le_dec l)). split; [apply I|]. unfold wr. rewrite K, <- L. apply le_enc_dec, B.
  - exists (wraps 16 (le_dec (rev l))). split; [apply I|]. unfold wr. rewrite le_enc_swapb, K.
    assert (Br : bytes (rev l)) by (apply bytes_rev, B). rewrite <- L, <- (rev_length l), (le_enc_dec _ Br). apply rev_involutive.
Qed.
Lemma mix_bytes q a b : bytes a -> bytes b -> bytes (mix q a b).
Proof.
  intros A B. unfold mix. apply bytes_app. rewrite <- (firstn_skipn q a) in A. rewrite <- (firstn_skipn q b) in B.
  apply bytes_app in A. apply bytes_app in B. tauto.
Qed.
Lemma mix_length q a b : List.length a = List.length b -> List.length (mix q a b) = List.length a.
Proof. intro L. unfold mix. rewrite app_length, firstn_length, skipn_length. lia. Qed.

Lemma block_shape e b : exists A B C, forall n si,
  bin_block e (set_samp_int (set_samp_per_tr b n) si) = A ++ wr e 2 si ++ B ++ wr e 2 n ++ C.
Proof.
  exists (wr e 4 (bh_job_id b) ++ wr e 4 (bh_line_num b) ++ wr e 4 (bh_reel_num b) ++ wr e 2 (bh_tr_per_ens b) ++ wr e 2 (bh_aux_per_ens b)).
  exists (wr e 2 (bh_samp_int_orig b)). destruct b. eexists. intros n si. unfold bin_block, chunks1, chunks2. cbn -[wr zeros app].
  rewrite <- !app_assoc. reflexivity.
Qed.
Lemma bin_mix e b n si q : exists x y, in_i 16 x = true /\ in_i 16 y = true /\
  mix q (bin_block e (set_samp_int (set_samp_per_tr b n) si)) (bin_block e b) = bin_block e (set_samp_int (set_samp_per_tr b x) y).
Proof.
  destruct (block_shape e b) as (A & B & C & H).
  assert (E : bin_block e b = A ++ wr e 2 (bh_samp_int b) ++ B ++ wr e 2 (bh_samp_per_tr b) ++ C) by (rewrite <- H; destruct b; reflexivity).
  rewrite E, H, !mix_app, !mix_same by (rewrite ?wr_length; reflexivity).
  match goal with |- context [A ++ mix ?q1 (wr e 2 si) ?v ++ B ++ mix ?q2 (wr e 2 n) ?w ++ C] =>
    destruct (two_bytes e (mix q1 (wr e 2 si) v)) as (y & Iy & Ey); [apply mix_bytes; apply wr_bytes|rewrite mix_length; rewrite !wr_length; reflexivity|];
    destruct (two_bytes e (mix q2 (wr e 2 n) w)) as (x & Ix & Ex); [apply mix_bytes; apply wr_bytes|rewrite mix_length; rewrite !wr_length; reflexivity|]
  end.
  exists x, y. split; [exact Ix|]. split; [exact Iy|]. rewrite H, Ex, Ey. reflexivity.
Qed.

(** ** Writes and questions for the position, anywhere in the file *)
Definition mild (o : fop) : Prop := match o with FWrite _ | FTell => True | _ => False end.
Lemma mild_run cap sch l : Forall mild l -> forall k, k_bad k = false -> 0 <= k_at k <= len (k_disk k) -> exists x y,
  k_disk (snd (k_ops cap sch l k)) = over (k_disk k) (k_at k) x /\ k_buf k ++ data l = x ++ y.
Proof.
  induction 1 as [|o l Ho _ IH]; intros [dk at' b bad i] B A; cbn [k_bad k_at k_disk k_buf] in *; subst bad.
  - exists [], (b ++ data []). cbn [k_ops snd k_disk]. rewrite over_nil by exact A. auto.
  - cbn [k_ops]. unfold k_op. cbn [k_bad k_n k_disk k_at k_buf]. destruct o as [d| | |]; [|destruct Ho..|].
    + unfold k_flush. cbn [k_disk k_at k_buf k_n].
      assert (E0 : b ++ data (FWrite d :: l) = (b ++ d) ++ data l) by (unfold data; cbn [map concat]; apply app_assoc).
      rewrite E0. set (n := sch i). set (h := firstn n (b ++ d)). destruct (at' + len h <=? cap) eqn:C; cbn [k_bad negb].
      * destruct (IH (mkStream (over dk at' h) (at' + len h) (skipn n (b ++ d)) false (S i)) eq_refl) as (x & y & E1 & E2).
        { cbn [k_at k_disk]. rewrite len_over by exact A. pose proof (len_nonneg h). lia. }
        cbn [k_disk k_at k_buf] in *. exists (h ++ x), y. rewrite E1. split; [symmetry; apply over_app, A|].
        rewrite <- (app_assoc h x y), <- E2, (app_assoc h _ (data l)). unfold h. rewrite firstn_skipn. reflexivity.
      * cbn [snd k_disk]. set (q := Z.to_nat (cap - at')).
        exists (firstn q h), (skipn q h ++ skipn n (b ++ d) ++ data l). split; [reflexivity|].
        rewrite (app_assoc _ _ (skipn n (b ++ d) ++ data l)), firstn_skipn. unfold h. rewrite (app_assoc _ _ (data l)), firstn_skipn. reflexivity.
    + destruct (IH (mkStream dk at' b false (S i)) eq_refl A) as (x & y & E1 & E2). exists x, y. cbn [k_disk k_at k_buf] in *. split; [exact E1|exact E2].
Qed.

(** ** The operations of the calls *)
Lemma mild_appends l : appends l -> Forall mild l.
Proof. apply Forall_impl. intros o (d & ->). exact I. Qed.
Lemma mild_straight l : Forall mild l -> forall n, straight l n.
Proof. induction 1 as [|o l Ho _ IH]; intro n; cbn [straight]; [exact Logic.I|]. destruct o; try destruct Ho; apply IH. Qed.
Lemma call_ops p t s s1 : standing s -> write_trace p s t = Ok s1 -> exists a b,
  l_write_trace p t (s, []) = (Ok tt, (s1, a ++ b)) /\ fops (a ++ b) (o_file s) = Ok (o_file s1) /\ appends b /\
  (a = [] \/ min_ops s a).
Proof.
  intros St W. destruct (xok p t s s1 W) as ([] & X).
  assert (Q1 : l_write_trace p t (s, []) =
    xbind (match o_min s with MNone => xret tt | m => l_set_min p m (t_hdr t) end) (fun _ => l_rest p t) (s, [])) by reflexivity.
  assert (Q2 : xwrite_trace p t s =
    xbind (match o_min s with MNone => xret tt | m => xset_min p m (t_hdr t) end) (fun _ => x_rest p t) s) by reflexivity.
  rewrite Q1. rewrite Q2 in X. clear Q1 Q2.
  assert (Min : forall m, xbind (xset_min p m (t_hdr t)) (fun _ => x_rest p t) s = (Ok tt, s1) -> exists a b,
    xbind (l_set_min p m (t_hdr t)) (fun _ => l_rest p t) (s, []) = (Ok tt, (s1, a ++ b)) /\ fops (a ++ b) (o_file s) = Ok (o_file s1) /\ appends b /\
    (a = [] \/ min_ops s a)).
  { intros m Xm. destruct (set_min_log p m (t_hdr t) s []) as (a & E & R & G & _). unfold xbind in *. rewrite E.
    destruct (xset_min p m (t_hdr t) s) as [[u|x|] s2]; cbn [fst snd app] in *; [|discriminate..].
    destruct (logs_rest p t s2 a) as (b & E2 & R2 & G2 & _). rewrite Xm in *. cbn [fst snd] in *. exists a, b.
    split; [exact E2|]. rewrite fops_app, R. cbn [bind]. auto. }
  destruct (o_min s); [|apply Min; exact X..].
  unfold xbind, xret in *. destruct (logs_rest p t s []) as (b & E2 & R2 & G2 & _). rewrite X in *. cbn [fst snd app] in *.
  exists [], b. auto.
Qed.
(** After the first trace, or if the binary header was given. *)
Lemma later_ops p ts : forall s sN, standing s -> o_min s = MNone \/ o_first s < fpos (o_file s) -> write_traces p s ts = Ok sN ->
  Forall mild (all_ops p s ts) /\ fdata (o_file sN) = fdata (o_file s) ++ data (all_ops p s ts).
Proof.
  induction ts as [|t ts IH]; intros s sN St M H; cbn [write_traces all_ops] in *.
  - injection H as <-. split; [constructor|]. unfold data. cbn [map concat]. rewrite app_nil_r. reflexivity.
  - apply bind_ok in H as (s1 & W & H). destruct (call_ops p t s s1 St W) as (a & b & E & F & Ap & Mi). rewrite E. cbn [fst snd].
    destruct (trace_grows p s t s1 St W) as (S1 & (F1 & M1) & G).
    assert (Ma : Forall mild a).
    { destruct Mi as [->|[->|(Q & blk & _ & ->)]]; [constructor|repeat constructor|].
      destruct M as [M|M]; [|lia].
      exfalso. destruct (xok p t s s1 W) as ([] & X).
      destruct (call_ok _ (fun _ => O) p t s _ (stored_follows _ (proj1 St)) St) as (l & El & Al & _). rewrite E in El.
      injection El as _ _ El. specialize (Al M). rewrite <- El in Al. inversion Al as [|o l0 (d & K) _]. discriminate K. }
    assert (Mab : Forall mild (a ++ b)) by (apply Forall_app; split; [exact Ma|apply mild_appends, Ap]).
    destruct (IH s1 sN S1) as (M2 & D2); [|exact H|].
    { destruct M as [M|M]; [left; congruence|]. right. rewrite F1. pose proof (proj1 S1) as A1. pose proof (proj1 St) as A. unfold at_end in *. lia. }
    split; [apply Forall_app; auto|].
    destruct (straight_file (a ++ b) (o_file s) (proj1 St) (mild_straight _ Mab _)) as (f' & F' & _ & D'). rewrite F in F'. injection F' as <-.
    rewrite D2, D', <- app_assoc, <- data_app. reflexivity.
Qed.

(** ** The writer without a binary header *)
Lemma blank_header p w bh ls s : len (given_texts w) <= 65536 -> bin_ok bh = true -> bh_ext_text_headers_num bh = len (ext_texts w) ->
  w_open p w bh ls = Ok s -> o_min s <> MNone ->
  exists txt d, In d [1; 5] /\ o_bh s = set_format_code bin_zero d /\ len txt = 3200 /\ fdata (o_file s) = txt ++ bin_block (o_endian s) (o_bh s).
Proof.
  intros Ln Hok X H M.
  destruct w as [txt|txts|txts st]; cbn [w_open given_texts] in *.
  - apply rev0_open_inv in H as (_ & t & _ & _ & (D & L & _) & _ & _ & _ & _ & [(K & _)|(_ & _ & Eb)]); [contradiction|].
    exists (first_text t), 1. rewrite app_nil_r in D. split; [left; reflexivity|]. auto.
  - apply rev1_open_inv in H as (_ & t & tr & H); [|exact Ln]. cbv zeta in H. destruct H as (U & _ & (D & L & _ & _ & Ex) & _ & _ & Eb & [(_ & _ & Z0 & _)|[(K & _)|(K & _)]]); [|contradiction..].
    rewrite (Ex M), app_nil_r in D. exists (first_text t), 5. split; [right; left; reflexivity|]. split; [exact Z0|]. split; [exact L|].
    rewrite D. rewrite Eb, set_ext_id; [reflexivity|..].
    + destruct (with_fmt_eqs bh 5) as (Q1 & Q2 & Q3 & Q4 & Q5 & Q6 & Q7 & Q8 & Q9).
      replace (bh_ext_text_headers_num (with_fmt bh 5)) with (bh_ext_text_headers_num bh) by congruence.
      rewrite X. unfold ext_texts. cbn [given_texts]. destruct U as [(-> & U)|(-> & _)]; [injection U as -> ->; reflexivity|]. cbn [tl]. rewrite len_cons. lia.
    + apply bin_ok_ext, with_fmt_ok; [exact Hok|reflexivity].
  - apply rev2_open_inv in H as (_ & _ & _ & t & tr & H); [|exact Ln]. cbv zeta in H. destruct H as (U & _ & (D & L & _ & _ & Ex) & _ & _ & Eb & [(_ & _ & Z0 & _)|[(K & _)|(K & _)]]); [|contradiction..].
    rewrite (Ex M), app_nil_r in D. exists (first_text t), 5. split; [right; left; reflexivity|]. split; [exact Z0|]. split; [exact L|].
    rewrite D. rewrite Eb, set_ext_id; [reflexivity|..].
    + destruct (with_fmt_eqs bh 5) as (Q1 & Q2 & Q3 & Q4 & Q5 & Q6 & Q7 & Q8 & Q9).
      replace (bh_ext_text_headers_num (with_fmt bh 5)) with (bh_ext_text_headers_num bh) by congruence.
      rewrite X. unfold ext_texts. cbn [given_texts]. destruct U as [(-> & U)|(-> & _)]; [injection U as -> ->; reflexivity|]. cbn [tl]. rewrite len_cons. lia.
    + apply bin_ok_ext, with_fmt_ok; [exact Hok|reflexivity].
Qed.

(** A file with such a header and nothing else has no traces. *)
Lemma mixed_read p s ts sN maps back bh txt d x y : sane_alloc p -> standing s -> write_traces p s ts = Ok sN ->
  check_tr_hdr_map bh maps = Ok tt -> In d [1; 5] -> in_i 16 x = true -> in_i 16 y = true -> len txt = 3200 ->
  endian_of 0 = Ok (o_endian s) -> o_min s <> MNone -> len (fdata (o_file s)) = 3600 ->
  beginning_read p maps back s ts (txt ++ bin_block (o_endian s) (set_samp_int (set_samp_per_tr (set_format_code bin_zero d) x) y)).
Proof.
  intros HA St Hw Ck Hd Hx Hy Lt Ee M L3. set (b := set_samp_int _ _). set (c := txt ++ _).
  assert (Lc : len c = 3600) by (unfold c; rewrite len_app, Lt, len_bin_block; reflexivity).
  assert (Bp : bytes_per_sample (bh_format_code b) = Some 4) by (destruct Hd as [<-|[<-|[]]]; reflexivity).
  assert (Dc : 0 <= declared b < 2 ^ 16) by (change (declared b) with (wrapu 16 x); apply wrapu_bound; lia).
  destruct (open_preamble p (o_endian s) b txt [] [] maps) with (bps := 4) as (r & Op & _ & _ & _ & _ & _ & _ & _ & _ & _ & _ & Cu & Eo); auto.
  - apply completed_ok; assumption.
  - left. reflexivity.
  - exact (check_zero _ _ Ck).
  - destruct Hd as [<-|[<-|[]]]; vm_compute; auto.
  - cbn [concat app]. rewrite app_nil_r. fold c. rewrite Lc. reflexivity.
  - apply Dc.
  - lia.
  - destruct HA as (HA & _). change (2 ^ 19) with 524288 in HA. lia.
  - cbn [concat app] in Op, Eo. rewrite app_nil_r in Op, Eo. fold c in Op, Eo.
    exists O%nat, s. split; [lia|]. split; [reflexivity|]. split; [left; reflexivity|]. split.
    + intros m sm Lm Wm. destruct (traces_grow2 p _ s sm St Wm) as (_ & _ & G). rewrite firstn_length in G. lia.
    + right. exists r, [], O%nat, (Ok r). split; [exact Op|]. split; [|split; [constructor|]].
      * cbn [collect]. unfold has_trace. rewrite Cu, Eo, Lc. reflexivity.
      * left. split; [eauto|]. left. auto.
Qed.

(** ** Killed *)
Lemma killed_any p w bh nm l ls s ts sN cap sch j : sane_alloc p -> p_left_first p = true -> safe_layout l -> NoDup (names l) ->
  comes_back w bh l (bh_samp_per_tr (o_bh sN) mod 2 ^ 16) ts -> w_open p w bh ((nm, l) :: ls) = Ok s -> write_traces p s ts = Ok sN ->
  len (fdata (o_file sN)) < 2 ^ 63 -> 0 <= cap ->
  beginning_read p ((nm, l) :: ls) (trace_back p (o_endian s) (bh_format_code (o_bh s)) l) s ts
    (k_disk (snd (k_ops cap sch (firstn j (ctor_ops w bh s ++ all_ops p s ts)) new_stream))).
Proof.
  intros HA HL HS HN Cb Ho Hw Hl C. pose proof Cb as (Hok & _ & X & _). pose proof (texts_few _ _ Hok X) as Ln.
  pose proof (open_standing _ _ _ _ _ Ln Ho) as St. destruct (ctor_facts _ _ _ _ _ Ln Ho) as (Sc & Dc & Fc & _).
  set (maps := (nm, l) :: ls) in *. set (back := trace_back _ _ _ _).
  assert (Mn : o_min s = MNone \/ o_min s <> MNone) by (destruct (o_min s); [left; reflexivity|right; discriminate..]).
  destruct Mn as [Mn|Mn]; [apply (killed_start p w bh nm l ls s ts sN); auto|].
  (* the headers of the constructor, cut off anywhere *)
  assert (Few : forall q, 0 <= q <= len (fdata (o_file s)) -> beginning_read p maps back s ts (firstn (Z.to_nat q) (fdata (o_file s))))
    by (intros q Hq; apply (few_read p w bh nm l ls s ts sN); auto).
  (* a beginning of the complete file *)
  assert (Pre : forall c x, fdata (o_file sN) = c ++ x -> beginning_read p maps back s ts c).
  { intros c x E. replace c with (firstn (Z.to_nat (len c)) (fdata (o_file sN))).
    - apply (core p w bh); auto. rewrite E, len_app. pose proof (len_nonneg c). pose proof (len_nonneg x). lia.
    - rewrite E. unfold len. rewrite Nat2Z.id, firstn_app, Nat.sub_diag, firstn_all. cbn [firstn]. apply app_nil_r. }
  assert (Pre2 : forall q c x, fdata (o_file sN) = c ++ x -> beginning_read p maps back s ts (firstn (Z.to_nat q) c)).
  { intros q c x E. apply (Pre _ (skipn (Z.to_nat q) c ++ x)). rewrite app_assoc, firstn_skipn. exact E. }
  destruct (w_open_inv _ _ _ _ _ Ho Ln) as ((_ & _ & Ge) & Ck & t0 & tr & b0 & Rd & _).
  destruct (blank_header p w bh maps s Ln Hok X Ho Mn) as (txt & d & Hd & Eb & Lt & D0).
  assert (L0 : len (fdata (o_file s)) = 3600) by (rewrite D0, len_app, Lt, len_bin_block; reflexivity).
  set (F0 := fdata (o_file s)) in *.
  destruct ts as [|t ts].
  { cbn [all_ops]. rewrite app_nil_r. cbn [write_traces] in Hw. injection Hw as <-.
    destruct (straight_disk cap sch (firstn j (ctor_ops w bh s)) empty_file new_stream (new_follows cap C) empty_end eq_refl (straight_firstn j _ 0 Sc)) as (q & Hq & ->).
    cbn [empty_file fdata app] in *. apply (Pre2 q _ (data (skipn j (ctor_ops w bh s)))). rewrite <- data_app, firstn_skipn. symmetry. exact Dc. }
  pose proof Hw as Hw'. cbn [write_traces] in Hw'. apply bind_ok in Hw' as (s1 & W1 & Hw').
  destruct (call_ops p t s s1 St W1) as (a & b & E & F & Ap & Mi).
  destruct (trace_grows p s t s1 St W1) as (S1 & (F1 & M1) & G1).
  assert (Po : o_first s = 3600) by (apply St, Mn).
  destruct (later_ops p ts s1 sN S1) as (M2 & D2); [|exact Hw'|].
  { right. rewrite F1, Po. pose proof (proj1 S1) as A1. unfold at_end in A1. fold F0 in G1. lia. }
  cbn [all_ops]. rewrite E. cbn [fst snd]. set (os := all_ops p s1 ts) in *.
  assert (Mbo : Forall mild (b ++ os)) by (apply Forall_app; split; [apply mild_appends, Ap|exact M2]).
  (* nothing but writes at the end *)
  assert (Str : straight a 3600 -> beginning_read p maps back s (t :: ts) (k_disk (snd (k_ops cap sch (firstn j (ctor_ops w bh s ++ (a ++ b) ++ os)) new_stream)))).
  { intro Sa. set (all := ctor_ops w bh s ++ (a ++ b) ++ os).
    assert (So : straight all 0).
    { unfold all. apply straight_app. split; [exact Sc|]. rewrite Dc, L0, <- app_assoc. apply straight_app. split; [exact Sa|]. apply mild_straight, Mbo. }
    destruct (straight_disk cap sch (firstn j all) empty_file new_stream (new_follows cap C) empty_end eq_refl (straight_firstn j _ 0 So)) as (q & Hq & ->).
    cbn [empty_file fdata app] in *. apply (Pre2 q _ (data (skipn j all))). rewrite <- data_app, firstn_skipn. unfold all. rewrite !data_app, Dc.
    assert (Sab : straight (a ++ b) (len F0)) by (rewrite L0; apply straight_app; split; [exact Sa|apply appends_straight, Ap]).
    destruct (straight_file (a ++ b) (o_file s) (proj1 St) Sab) as (f' & F' & _ & D'). rewrite F in F'. injection F' as <-.
    rewrite D2, D'. fold F0. rewrite data_app, <- !app_assoc. reflexivity. }
  destruct Mi as [->|[->|(_ & blk & Lb & ->)]]; [apply Str; exact I|apply Str; exact I|]. clear Str.
  (* the header a second time *)
  assert (Fs : fdata (o_file s1) = firstn 3200 F0 ++ blk ++ data b).
  { rewrite fops_app in F. cbn [fops fop_do bind] in F. unfold fseek in F. change ((0 <=? 3200) && (3200 <? 2 ^ 63)) with true in F. cbn [bind] in F.
    set (f1 := fwrite blk _) in F.
    assert (D1 : fdata f1 = firstn 3200 F0 ++ blk).
    { change (fdata f1) with (over F0 3200 blk). rewrite over_in, Lb, skipn_all2, app_nil_r by (unfold len in *; lia). reflexivity. }
    assert (A1 : at_end f1).
    { unfold at_end. rewrite D1. change (fpos f1) with (3200 + len blk). unfold len in *. rewrite app_length, firstn_length. lia. }
    destruct (straight_file b f1 A1 (appends_straight b Ap _)) as (f' & F' & _ & D'). rewrite F in F'. injection F' as <-. rewrite D', D1, <- app_assoc. reflexivity. }
  assert (FN : fdata (o_file sN) = firstn 3200 F0 ++ blk ++ data (b ++ os)) by (rewrite D2, Fs, data_app, <- !app_assoc; reflexivity).
  assert (T0 : firstn 3200 F0 = txt).
  { rewrite D0, firstn_app. unfold len in Lt. replace (3200 - List.length txt)%nat with O by lia. rewrite firstn_all2 by lia. apply app_nil_r. }
  assert (B0 : skipn 3200 F0 = bin_block (o_endian s) (o_bh s)).
  { rewrite D0, skipn_app. unfold len in Lt. replace (3200 - List.length txt)%nat with O by lia. rewrite skipn_all2 by lia. reflexivity. }
  assert (Blk : exists n si, blk = bin_block (o_endian s) (set_samp_int (set_samp_per_tr (o_bh s) n) si)).
  { destruct (write_all p s _ _ _ _ _ Rd Hw) as (s2 & recs & _ & _ & _ & _ & _ & [([K|K] & _)|(t1 & ts1 & _ & _ & (n & si & _ & _ & _ & E2 & _) & D3)]);
      [contradiction|discriminate K|].
    exists (wraps 16 n), si. rewrite <- E2. rewrite FN in D3. destruct Rd as (_ & Lx & _).
    apply app_inv_len in D3 as (_ & D3); [|unfold len in *; rewrite firstn_length; lia].
    apply app_inv_len in D3 as (D3 & _); [exact D3|]. pose proof (len_bin_block (o_endian s) (o_bh s2)) as Q. unfold len in *. lia. }
  destruct Blk as (n & si & Eblk).
  set (A := ctor_ops w bh s ++ [FTell]). set (R := FWrite blk :: b ++ os).
  replace (ctor_ops w bh s ++ ([FTell; FSeek 3200; FWrite blk] ++ b) ++ os) with (A ++ FSeek 3200 :: R)
    by (unfold A, R; rewrite <- !app_assoc; reflexivity).
  assert (SA : straight A 0) by (apply straight_app; split; [exact Sc|exact I]).
  assert (DA : data A = F0) by (unfold A; rewrite data_app, Dc; apply app_nil_r).
  assert (RunA : forall i, exists q, 0 <= q <= len F0 /\ k_disk (snd (k_ops cap sch (firstn i A) new_stream)) = firstn (Z.to_nat q) F0).
  { intro i. destruct (straight_disk cap sch (firstn i A) empty_file new_stream (new_follows cap C) empty_end eq_refl (straight_firstn i _ 0 SA)) as (q & Hq & ->).
    cbn [empty_file fdata app] in *. assert (EA : F0 = data (firstn i A) ++ data (skipn i A)) by (rewrite <- data_app, firstn_skipn; congruence).
    exists q. rewrite EA, len_app. pose proof (len_nonneg (data (skipn i A))). split; [lia|].
    rewrite firstn_app. replace (Z.to_nat q - List.length (data (firstn i A)))%nat with O by (unfold len in *; lia). cbn [firstn]. rewrite app_nil_r. reflexivity. }
  rewrite firstn_app. destruct (j - List.length A)%nat as [|j'] eqn:Ej.
  { cbn [firstn]. rewrite app_nil_r. destruct (RunA j) as (q & Hq & ->). apply Few, Hq. }
  replace (firstn j A) with A by (symmetry; apply firstn_all2; lia). cbn [firstn]. rewrite ops_app.
  assert (FA : fops A empty_file = Ok (o_file s)) by (unfold A; rewrite fops_app, Fc; reflexivity).
  pose proof (straight_run cap sch A new_stream empty_file _ (new_follows cap C) empty_end eq_refl SA FA) as Q.
  assert (Full : forall k, full cap k F0 -> beginning_read p maps back s (t :: ts) (k_disk k)).
  { intros k (_ & Q1 & Q2). rewrite Q1. apply Few. lia. }
  destruct (k_ops cap sch A new_stream) as [[] k1]; [|cbn [snd]; apply Full, Q].
  destruct Q as (Q & Ka). cbn [k_ops].
  assert (SK : fop_do (FSeek 3200) (o_file s) = Ok (mkFile F0 3200)) by reflexivity.
  assert (I1 : inside_op (FSeek 3200) (o_file s)) by (cbn [inside_op]; fold F0; lia).
  pose proof (op_ok cap sch (FSeek 3200) k1 (o_file s) _ Q SK I1) as K2.
  destruct (k_op cap sch (FSeek 3200) k1) as [[] k2] eqn:E2; [|cbn [snd]; apply Full; exact K2].
  assert (K3 : k_at k2 = 3200 /\ k_buf k2 = []).
  { clear - E2. unfold k_op in E2. destruct (k_bad k1); [discriminate|]. cbv zeta in E2. set (k0 := mkStream _ _ _ _ _) in E2.
    destruct (k_bad (k_sync cap k0)); [discriminate|]. apply pair_equal_spec in E2 as (_ & <-). split; reflexivity. }
  destruct K3 as (K3 & K4). destruct K2 as (Kb & Kr & _ & Kd & _). rewrite K3 in Kr. rewrite K3, K4 in Kd. cbn [fdata] in Kd.
  assert (Kd2 : k_disk k2 = F0) by (rewrite Kd; symmetry; apply over_nil; exact Kr).
  assert (MR : Forall mild (firstn j' R)).
  { assert (MR : Forall mild R) by (constructor; [exact I|exact Mbo]). rewrite <- (firstn_skipn j' R) in MR. apply Forall_app in MR. apply MR. }
  destruct (mild_run cap sch (firstn j' R) MR k2 Kb) as (x & y & -> & Exy); [rewrite K3, Kd2; lia|].
  rewrite K3, Kd2. rewrite K4 in Exy. cbn [app] in Exy.
  assert (DR : blk ++ data (b ++ os) = x ++ y ++ data (skipn j' R)).
  { rewrite (app_assoc x y), <- Exy, <- data_app, firstn_skipn. reflexivity. }
  rewrite over_in by lia. change (Z.to_nat 3200) with 3200%nat.
  destruct (Z.le_gt_cases 400 (len x)) as [Lx|Lx].
  - rewrite (skipn_all2 (n := Z.to_nat (3200 + len x))) by (unfold len in *; lia). rewrite app_nil_r.
    apply (Pre _ (y ++ data (skipn j' R))). rewrite FN, DR, <- !app_assoc. reflexivity.
  - assert (Xb : x = firstn (List.length x) blk).
    { pose proof (f_equal (firstn (List.length x)) DR) as Z1. rewrite !firstn_app, Nat.sub_diag, firstn_all in Z1. cbn [firstn] in Z1.
      replace (List.length x - List.length blk)%nat with O in Z1 by (unfold len in *; lia). cbn [firstn] in Z1. rewrite !app_nil_r in Z1. symmetry. exact Z1. }
    replace (skipn (Z.to_nat (3200 + len x)) F0) with (skipn (List.length x) (skipn 3200 F0))
      by (rewrite skipn_skipn'; f_equal; unfold len; lia).
    rewrite T0, B0. rewrite Xb at 1. fold (mix (List.length x) blk (bin_block (o_endian s) (o_bh s))). rewrite Eblk.
    destruct (bin_mix (o_endian s) (o_bh s) n si (List.length x)) as (u & v & Iu & Iv & ->). rewrite Eb.
    apply (mixed_read p s (t :: ts) sN maps back bh); auto. rewrite Eb in Ge. exact Ge.
Qed.
