(** Reading what is left of a SEG-Y file whose writing was cut off (C106). *)
From Coq Require Import Reals Lia.
From Verif Require Import BaseFacts Platform Fp TraceHdr SegyTypes SegyCodec CodecSpec LayoutSpec ISegy OSegy ReaderFacts StepX OSegyX ReadSpec RoundSpec FileSpec
  WriterFacts FileFacts ReadFacts2 ReadFacts3 ReadFacts4 RoundFacts DiskX DiskSpec DiskFacts PropertiesRead PropertiesRound CrashSpec.
Local Open Scope Z_scope.

(** ** The writer *)
Lemma traces_app p a : forall b s, write_traces p s (a ++ b) = (let* s1 := write_traces p s a in write_traces p s1 b).
Proof.
  induction a as [|t a IH]; intros b s; cbn [app write_traces bind]; [reflexivity|].
  destruct (write_trace p s t); cbn [bind]; [apply IH|reflexivity..].
Qed.
Lemma traces_prefix p s ts sN n : write_traces p s ts = Ok sN -> exists sn, write_traces p s (firstn n ts) = Ok sn /\
  write_traces p sn (skipn n ts) = Ok sN.
Proof.
  intro H. rewrite <- (firstn_skipn n ts), traces_app in H. apply bind_ok in H as (sn & E & H). exists sn. auto.
Qed.

(** A trace has at least its header. *)
Lemma trace_grows p s t s' : standing s -> write_trace p s t = Ok s' -> standing s' /\ same_mode s s' /\ len (fdata (o_file s)) + 240 <= len (fdata (o_file s')).
Proof.
  intros St H. destruct (xok p t s s' H) as (u & X).
  destruct (call_ok _ (fun _ => O) p t s _ (stored_follows _ (proj1 St)) St) as (l & _ & _ & S1 & M & Le & _).
  rewrite X in *. cbn [fst snd] in *. split; [exact S1|]. split; [exact M|].
  rewrite write_trace_body in H. apply bind_ok in H as (s1 & E & H).
  assert (K : at_end (o_file s1) /\ len (fdata (o_file s)) = len (fdata (o_file s1))).
  { assert (J : forall m, o_min s <> MNone -> set_min p m (t_hdr t) s = Ok s1 -> at_end (o_file s1) /\ len (fdata (o_file s)) = len (fdata (o_file s1))).
    { intros m Mn Q. destruct St as (A & L3 & Fi). apply set_min_inv in Q as [(-> & _)|(Po & _ & n & si & _ & _ & _ & _ & _ & _ & W)]; [split; [exact A|reflexivity]|].
      rewrite (Fi Mn) in Po. pose proof A as A'. unfold at_end in A'. rewrite Po in A'.
      assert (D : fdata (o_file s) = firstn (Z.to_nat 3200) (fdata (o_file s)) ++ skipn (Z.to_nat 3200) (fdata (o_file s)) ++ [])
        by (rewrite app_nil_r, firstn_skipn; reflexivity).
      assert (L1 : len (firstn (Z.to_nat 3200) (fdata (o_file s))) = 3200) by (unfold len in *; rewrite firstn_length; lia).
      assert (L2 : len (skipn (Z.to_nat 3200) (fdata (o_file s))) = 400) by (unfold len in *; rewrite skipn_length; lia).
      destruct (write_bin_header_mid _ _ _ _ _ _ _ D L1 L2 W) as (D' & P'). unfold at_end. rewrite P', D', !len_app, BinFacts.len_bin_block, L1.
      change (len (@nil Z)) with 0. lia. }
    destruct (o_min s) eqn:Em.
    - injection E as <-. split; [exact (proj1 St)|reflexivity].
    - exact (J _ ltac:(discriminate) E).
    - exact (J _ ltac:(discriminate) E). }
  destruct K as (A1 & L1). destruct (write_body_inv p s1 t s' A1 H) as (r & (hb & ab & R & Lh & _) & D & _).
  rewrite D, len_app, R, !len_app, Lh. pose proof (len_nonneg ab). rewrite L1. 
  match goal with |- _ <= _ + (240 + (_ + len ?z)) => pose proof (len_nonneg z) end. lia.
Qed.
Lemma traces_grow2 p ts : forall s s', standing s -> write_traces p s ts = Ok s' ->
  standing s' /\ same_mode s s' /\ len (fdata (o_file s)) + 240 * Z.of_nat (List.length ts) <= len (fdata (o_file s')).
Proof.
  induction ts as [|t ts IH]; intros s s' St H; cbn [write_traces] in H.
  - injection H as <-. split; [exact St|]. split; [apply same_refl|]. cbn [List.length]. lia.
  - apply bind_ok in H as (s1 & W & H). destruct (trace_grows p s t s1 St W) as (S1 & M1 & L1). destruct (IH s1 s' S1 H) as (S2 & M2 & L2).
    split; [exact S2|]. split; [exact (same_trans _ _ _ M1 M2)|]. cbn [List.length]. lia.
Qed.

(** From the first trace on, or if the binary header was given, the file only
    gets longer. *)
Lemma prefix_file p s ts sN n sn : standing s -> write_traces p s ts = Ok sN -> write_traces p s (firstn n ts) = Ok sn ->
  (n <= List.length ts)%nat -> o_min s = MNone \/ (0 < n)%nat ->
  o_bh sN = o_bh sn /\ exists x, fdata (o_file sN) = fdata (o_file sn) ++ x.
Proof.
  intros St H Hn Ln M. destruct (traces_prefix p s ts sN n H) as (sn' & E & R). rewrite Hn in E. injection E as <-.
  destruct (traces_grow2 p _ s sn St Hn) as (S1 & (M1 & M2) & L1). rewrite firstn_length in L1.
  destruct (fun U => write_none p (skipn n ts) sn sN (proj1 S1) U R) as (recs & _ & D & _ & _ & B).
  - destruct M as [M|M]; [left; congruence|]. destruct (o_min s) eqn:Em; [left; congruence|right..];
      (rewrite M1, (proj2 (proj2 St)) by (rewrite Em; discriminate); pose proof (proj1 S1) as A; unfold at_end in A; destruct St as (_ & L3 & _); lia).
  - split; [exact B|]. eexists. exact D.
Qed.

(** ** The loop of the reader *)
Lemma collect_same p : forall f g s a x b o, collect p f s = (a, Ok x) -> collect p g s = (b, o) -> o <> Throw ELoop -> b = a /\ o = Ok x.
Proof.
  induction f as [|f IH]; intros g s a x b o H G N; destruct g as [|g]; cbn [collect] in H, G; destruct (has_trace s); try congruence.
  1, 2, 3, 5: injection H as <- <-; injection G as <- <-; auto.
  destruct (read_trace p s) as [[t s1]|e|]; [|discriminate..]. destruct (collect p f s1) as [a1 o1] eqn:E1. destruct (collect p g s1) as [b1 o2] eqn:E2.
  injection H as <- ->. injection G as <- <-. destruct (IH _ _ _ _ _ _ E1 E2 N) as (-> & ->). auto.
Qed.
Lemma read_collect p : forall f s ts s', read_all p f s = Ok (ts, s') -> has_trace s' = false -> collect p f s = (ts, Ok s').
Proof.
  induction f as [|f IH]; intros s ts s' H N; cbn [read_all collect] in *; destruct (has_trace s) eqn:Hs; try discriminate.
  - injection H as <- <-. reflexivity.
  - apply bind_ok in H as ([t s1] & E & H). apply bind_ok in H as ([ts1 s2] & E2 & H). injection H as <- <-.
    rewrite E, (IH _ _ _ E2 N). reflexivity.
  - injection H as <- <-. reflexivity.
Qed.
Lemma reads_last p a t : forall s s', reads p s (a ++ [t]) s' -> exists s1, reads p s a s1 /\ read_trace p s1 = Ok (t, s').
Proof.
  induction a as [|t0 a IH]; intros s s' H; unfold reads in *; cbn [app List.length repeat read_mixed map] in *;
    apply bind_ok in H as ([x s1] & E & H).
  - cbn [bind] in H. injection H as H1 H2. exists s. split; [reflexivity|].
    apply bind_ok in E as ([t' s2] & E & F). injection F as <- <-. rewrite E. congruence.
  - apply bind_ok in H as ([l s2] & E2 & H). injection H as H1 H2 H3. subst x l s2.
    destruct (IH s1 s') as (s3 & R & T); [exact E2|]. exists s3. rewrite E. cbn [bind]. rewrite R. split; [reflexivity|exact T].
Qed.
Lemma reads_fun p a s s1 s2 : reads p s a s1 -> reads p s a s2 -> s1 = s2.
Proof. unfold reads. intros H G. rewrite H in G. congruence. Qed.

(** ** The complete file comes back *)
Definition same_rev (b b' : bin_hdr) : Prop :=
  bh_SEGY_rev_major_ver b' = bh_SEGY_rev_major_ver b /\ bh_max_num_add_tr_headers b' = bh_max_num_add_tr_headers b /\
  bh_num_of_trailer_stanza b' = bh_num_of_trailer_stanza b.
Lemma open_kept p w bh ls s : len (given_texts w) <= 65536 -> w_open p w bh ls = Ok s -> same_rev bh (o_bh s).
Proof.
  intros Ln H. unfold same_rev. destruct w as [txt|txts|txts st]; cbn [w_open given_texts] in *.
  - apply rev0_open_inv in H as (_ & t & _ & _ & _ & _ & _ & _ & Eb & _).
    destruct (with_fmt_eqs bh 1) as (Q1 & Q2 & Q3 & Q4 & Q5 & Q6 & Q7 & Q8 & Q9). rewrite Eb. auto.
  - apply rev1_open_inv in H as (_ & t & tr & _ & _ & _ & _ & _ & Eb & _); [|exact Ln]. cbv zeta in Eb.
    destruct (with_fmt_eqs bh 5) as (Q1 & Q2 & Q3 & Q4 & Q5 & Q6 & Q7 & Q8 & Q9). rewrite Eb. auto.
  - apply rev2_open_inv in H as (_ & _ & _ & t & tr & _ & _ & _ & _ & _ & Eb & _); [|exact Ln]. cbv zeta in Eb.
    destruct (with_fmt_eqs bh 5) as (Q1 & Q2 & Q3 & Q4 & Q5 & Q6 & Q7 & Q8 & Q9). rewrite Eb. auto.
Qed.
Lemma traces_kept p w bh ls s ts sN : len (given_texts w) <= 65536 -> w_open p w bh ls = Ok s -> write_traces p s ts = Ok sN -> same_rev bh (o_bh sN).
Proof.
  intros Ln Ho Hw. pose proof (open_kept _ _ _ _ _ Ln Ho) as (K1 & K2 & K3).
  destruct (w_open_inv _ _ _ _ _ Ho Ln) as (_ & _ & t0 & tr & b & Rd & _).
  destruct (write_all p s _ _ _ _ _ Rd Hw) as (s1 & recs & _ & _ & B & _ & _ & D). rewrite B.
  destruct D as [(_ & -> & _)|(t1 & ts1 & _ & _ & (n & si & _ & _ & _ & E1 & _) & _)]; [repeat split; assumption|].
  rewrite E1. repeat split; assumption.
Qed.
Lemma texts_few w bh : bin_ok bh = true -> bh_ext_text_headers_num bh = len (ext_texts w) -> len (given_texts w) <= 65536.
Proof.
  intros Hok X1. pose proof (bin_ok_ext _ Hok) as K. unfold in_i in K. change (16 - 1) with 15 in K. rewrite X1 in K. unfold ext_texts in K.
  destruct (given_texts w) as [|t0 tr]; [vm_compute; discriminate|]. cbn [tl] in K. rewrite len_cons. clear - K. lia.
Qed.

Definition whole_read p maps (back : trace -> trace -> Prop) (c : list Z) (ts : list trace) : Prop :=
  exists r ts' r', isegy_open p c maps = Ok r /\ read_all p (List.length ts) r = Ok (ts', r') /\ has_trace r' = false /\ Forall2 back ts ts' /\
    bh_num_of_trailer_stanza (i_bh r) = 0 /\ bh_max_num_add_tr_headers (i_bh r) = 0.
Lemma back_zero b b' : bin_back b b' -> (bh_SEGY_rev_major_ver b <= 1 \/ bh_num_of_trailer_stanza b = 0 /\ bh_max_num_add_tr_headers b = 0) ->
  bh_num_of_trailer_stanza b' = 0 /\ bh_max_num_add_tr_headers b' = 0.
Proof.
  intros (_ & H) C. unfold bin_fields in H. cbn [skipn] in H. destruct (Z.leb_spec (bh_SEGY_rev_major_ver b) 1) as [L|L].
  - injection H as H1 H2 H3 H4 H5. auto.
  - destruct C as [C|(C1 & C2)]; [lia|]. injection H as H1 H2 H3 H4 H5. split; congruence.
Qed.
Lemma whole p w bh nm l ls s ts sN : sane_alloc p -> p_left_first p = true -> safe_layout l -> NoDup (names l) ->
  comes_back w bh l (bh_samp_per_tr (o_bh sN) mod 2 ^ 16) ts -> w_open p w bh ((nm, l) :: ls) = Ok s -> write_traces p s ts = Ok sN ->
  len (fdata (o_file sN)) < 2 ^ 63 ->
  whole_read p ((nm, l) :: ls) (trace_back p (o_endian s) (bh_format_code (o_bh s)) l) (fdata (o_file sN)) ts.
Proof.
  intros HA HL HS HN (Hok & Hmk & X & Hext & Hr & Hc & Hf) Ho Hw Hl. pose proof (texts_few _ _ Hok X) as Ln.
  destruct (traces_kept _ _ _ _ _ _ _ Ln Ho Hw) as (K1 & K2 & K3). unfold whole_read.
  destruct w as [txt|txts|txts st]; cbn [w_open own_count] in *.
  - destruct (C16_rev0_file_round_trip p txt bh nm l ls ts s sN) as (r & ts' & r' & R1 & R2 & _ & R3 & R4 & R5); auto.
    { rewrite X. destruct txt; reflexivity. }
    exists r, ts', r'. repeat (split; [assumption|]). apply (back_zero _ _ R2). left. lia.
  - destruct (C17_rev1_file_round_trip p txts bh nm l ls ts s sN) as (r & ts' & r' & R1 & R2 & _ & R3 & R4 & R5); auto.
    { intro Z0. apply Hc. lia. }
    { intro Z0. apply Hf. destruct Z0 as [Z0|Z0]; [left; lia|right; exact Z0]. }
    exists r, ts', r'. repeat (split; [assumption|]). apply (back_zero _ _ R2). left. lia.
  - destruct Hr as (Hr1 & Hr2 & Hr3).
    assert (Cl : exists f, rev2_close sN = Ok f /\ fdata f = fdata (o_file sN)).
    { destruct (traces_grow2 p ts s sN (open_standing _ (W2 txts st) _ _ _ Ln Ho) Hw) as (S1 & _).
      pose proof (end_op _ (proj1 S1) Hl) as E. cbn [fop_do] in E. unfold rev2_close. rewrite E. cbn [bind]. rewrite K3, Hr2.
      eexists. split; reflexivity. }
    destruct Cl as (f & Cl & Ef).
    destruct (C18_rev2_file_round_trip_partial p txts bh st nm l ls ts s sN f) as (r & ts' & r' & R1 & R2 & _ & R3 & R4 & R5); auto.
    { intro Z0. apply Hc. lia. }
    { intro Z0. apply Hf. destruct Z0 as [Z0|Z0]; [left; lia|right; exact Z0]. }
    { rewrite Ef. exact Hl. }
    rewrite Ef in R1. exists r, ts', r'. repeat (split; [assumption|]). apply (back_zero _ _ R2). right. split; congruence.
Qed.

(** ** The beginning of the file *)
Lemma firstn_in {A} m (ts : list A) t : In t (firstn m ts) -> In t ts.
Proof. intro H. rewrite <- (firstn_skipn m ts). apply in_or_app. left. exact H. Qed.
Lemma comes_firstn w bh l c c' ts m : comes_back w bh l c ts -> c' = c \/ m = O -> comes_back w bh l c' (firstn m ts).
Proof.
  intros (H1 & H2 & H3 & H4 & H5 & H6 & H7) C. repeat (split; [assumption|]). split.
  - intros O t I. apply (H6 O t), (firstn_in m), I.
  - intros O t I. destruct C as [->| ->]; [|destruct I]. apply (H7 O t), (firstn_in m), I.
Qed.
Lemma Forall2_len {A B} (R : A -> B -> Prop) a b : Forall2 R a b -> List.length a = List.length b.
Proof. induction 1; cbn; congruence. Qed.
Lemma app_same_len {A} (a b c d : list A) : a ++ b = c ++ d -> List.length a = List.length c -> a = c.
Proof.
  revert c. induction a as [|x a IH]; intros [|y c] H L; cbn in *; try congruence. injection H as -> H. f_equal. apply IH; congruence.
Qed.

Lemma core p w bh nm l ls s ts sN k : sane_alloc p -> p_left_first p = true -> safe_layout l -> NoDup (names l) ->
  comes_back w bh l (bh_samp_per_tr (o_bh sN) mod 2 ^ 16) ts -> w_open p w bh ((nm, l) :: ls) = Ok s -> write_traces p s ts = Ok sN ->
  len (fdata (o_file sN)) < 2 ^ 63 -> 0 <= k <= len (fdata (o_file sN)) ->
  beginning_read p ((nm, l) :: ls) (trace_back p (o_endian s) (bh_format_code (o_bh s)) l) s ts (firstn (Z.to_nat k) (fdata (o_file sN))).
Proof.
  intros HA HL HS HN Cb Ho Hw Hl Hk. pose proof Cb as (Hok & _ & X & _). pose proof (texts_few _ _ Hok X) as Ln.
  pose proof (open_standing _ _ _ _ _ Ln Ho) as St. set (maps := (nm, l) :: ls) in *. set (back := trace_back _ _ _ _).
  set (F := fdata (o_file sN)) in *.
  assert (Lc : len (firstn (Z.to_nat k) F) = k) by (unfold len in *; rewrite firstn_length; lia).
  destruct (whole p w bh nm l ls s ts sN HA HL HS HN Cb Ho Hw Hl) as (r & ts' & r' & R1 & R2 & R3 & R4 & R5 & R6).
  fold maps back F in R1, R4. pose proof (read_collect p _ _ _ _ R2 R3) as Cl.
  assert (A63 : p_max_alloc p < 2 ^ 63) by apply HA.
  assert (Co : constructor p maps (fun c => isegy_open p c maps)) by (left; reflexivity).
  assert (Ad : add_ok (i_bh r)) by (unfold add_ok; rewrite R6; lia).
  assert (Am : 0 <= bh_max_num_add_tr_headers (i_bh r) < len maps).
  { rewrite R6. unfold maps. rewrite len_cons. pose proof (len_nonneg ls). lia. }
  assert (T : forall q, 0 <= q <= len F -> let c := firstn (Z.to_nat q) F in
    if q <? 3600 + 3200 * (len (i_text r) - 1) then isegy_open p c maps = Throw EIO
    else exists s' ts1 ts2 fuel', isegy_open p c maps = Ok s' /\ ts' = ts1 ++ ts2 /\
    ((exists sk s1, reads p r ts1 s1 /\ i_cur s1 = q /\ collect p fuel' s' = (ts1, Ok sk)) \/
     (exists s1, reads p r ts1 s1 /\ i_cur s1 <> q /\ (q < i_cur s1 -> ts1 = []) /\
        (forall t s2, read_trace p s1 = Ok (t, s2) -> q < i_cur s2) /\ collect p fuel' s' = (ts1, Throw EIO))))
    by (intros q Hq; exact (C24_truncated_files_are_reported p maps _ F r _ ts' r' q Co A63 Hl R1 Cl R5 Ad Am Hq)).
  assert (Pos : forall m sm, (m <= List.length ts)%nat -> write_traces p s (firstn m ts) = Ok sm -> o_min s = MNone \/ (0 < m)%nat ->
    let q := len (fdata (o_file sm)) in 3600 + 3200 * (len (i_text r) - 1) <= q /\ exists s1, reads p r (firstn m ts') s1 /\ i_cur s1 = q).
  { intros m sm Lm Wm Mm q. destruct (prefix_file p s ts sN m sm St Hw Wm Lm Mm) as (Eb & x & Ex). fold F in Ex.
    assert (Eq : firstn (Z.to_nat q) F = fdata (o_file sm)).
    { rewrite Ex. unfold q, len. rewrite Nat2Z.id, firstn_app, Nat.sub_diag, firstn_all. cbn [firstn]. apply app_nil_r. }
    assert (Lq : 0 <= q <= len F) by (unfold q; rewrite Ex, len_app; pose proof (len_nonneg (fdata (o_file sm))); pose proof (len_nonneg x); lia).
    destruct (whole p w bh nm l ls s (firstn m ts) sm HA HL HS HN) as (rm & tm & rm' & Q1 & Q2 & Q3 & Q4 & _); auto.
    { apply (comes_firstn _ _ _ _ _ _ _ Cb). left. rewrite Eb. reflexivity. }
    { fold q. lia. }
    fold maps back in Q1, Q4. pose proof (read_collect p _ _ _ _ Q2 Q3) as Cm.
    specialize (T q Lq). cbv zeta in T. rewrite Eq in T. destruct (Z.ltb_spec q (3600 + 3200 * (len (i_text r) - 1))) as [B|B]; [congruence|].
    split; [exact B|]. destruct T as (sx & ts1 & ts2 & fuel & T1 & T2 & T3). rewrite Q1 in T1. injection T1 as <-.
    assert (E1 : forall o, collect p fuel rm = (ts1, o) -> o <> Throw ELoop -> ts1 = tm /\ o = Ok rm')
      by (intros o Y N; exact (collect_same p _ _ _ _ _ _ _ Cm Y N)).
    destruct T3 as [(sk & s1 & T4 & T5 & T6)|(s1 & _ & _ & _ & _ & T6)].
    - destruct (E1 _ T6 ltac:(discriminate)) as (Et & _). exists s1. split; [|exact T5].
      assert (Lt : List.length ts1 = m) by (rewrite Et, <- (Forall2_len _ _ _ Q4), firstn_length; lia).
      rewrite T2, firstn_app, Lt, Nat.sub_diag, <- Lt, firstn_all. cbn [firstn]. rewrite app_nil_r. exact T4.
    - destruct (E1 _ T6 ltac:(discriminate)) as (_ & E). discriminate E. }
  assert (Grow : forall n sn m sm, (n <= m <= List.length ts)%nat -> write_traces p s (firstn n ts) = Ok sn -> write_traces p s (firstn m ts) = Ok sm ->
    len (fdata (o_file sn)) <= len (fdata (o_file sm))).
  { intros n sn m sm L Wn Wm. destruct (traces_prefix p s (firstn m ts) sm n Wm) as (sn' & E & R).
    rewrite firstn_firstn, Nat.min_l, Wn in E by lia. injection E as <-.
    destruct (traces_grow2 p _ s sn St Wn) as (S1 & _). destruct (traces_grow2 p _ sn sm S1 R) as (_ & _ & G). lia. }
  specialize (T k Hk) as Tk. cbv zeta in Tk.
  destruct (Z.ltb_spec k (3600 + 3200 * (len (i_text r) - 1))) as [B|B].
  { exists O, s. split; [lia|]. split; [reflexivity|]. split; [left; reflexivity|]. rewrite Lc. split.
    - intros m sm Lm Wm. destruct (Pos m sm ltac:(lia) Wm ltac:(right; lia)) as (Q & _). lia.
    - left. split; [reflexivity|exact Tk]. }
  destruct Tk as (sx & ts1 & ts2 & fuel & T1 & T2 & T3). set (n := List.length ts1).
  assert (Lt : List.length ts = List.length ts') by exact (Forall2_len _ _ _ R4).
  assert (Lnn : (n <= List.length ts)%nat) by (rewrite Lt, T2, app_length; lia).
  assert (En : firstn n ts' = ts1) by (rewrite T2; unfold n; rewrite firstn_app, Nat.sub_diag, firstn_all; cbn [firstn]; apply app_nil_r).
  destruct (traces_prefix p s ts sN n Hw) as (sn & Wn & _).
  assert (F2 : Forall2 back (firstn n ts) ts1).
  { rewrite <- (firstn_skipn n ts), T2 in R4. apply Forall2_app_inv_r in R4 as (a & b & G1 & G2 & G3).
    replace (firstn n ts) with a; [exact G1|]. symmetry. apply (app_same_len _ _ _ _ G3).
    rewrite (Forall2_len _ _ _ G1), firstn_length. lia. }
  assert (Next : forall s1, reads p r ts1 s1 -> (forall t s2, read_trace p s1 = Ok (t, s2) -> k < i_cur s2) ->
    forall m sm, (n < m <= List.length ts)%nat -> write_traces p s (firstn m ts) = Ok sm -> k < len (fdata (o_file sm))).
  { intros s1 Rd Nx m sm Lm Wm. destruct (traces_prefix p s ts sN (S n) Hw) as (sn1 & Wn1 & _).
    pose proof (Grow (S n) sn1 m sm ltac:(lia) Wn1 Wm) as G.
    destruct (Pos (S n) sn1 ltac:(lia) Wn1 ltac:(right; lia)) as (_ & s2 & Rd2 & C2).
    destruct ts2 as [|t2 ts2]; [rewrite app_nil_r in T2; rewrite Lt, T2 in Lm; unfold n in Lm; lia|].
    assert (E2 : firstn (S n) ts' = ts1 ++ [t2]).
    { rewrite T2, firstn_app. unfold n. replace (S (List.length ts1) - List.length ts1)%nat with 1%nat by lia.
      rewrite firstn_all2 by lia. reflexivity. }
    rewrite E2 in Rd2. destruct (reads_last _ _ _ _ _ Rd2) as (s1' & Rd1 & Rt). rewrite (reads_fun _ _ _ _ _ Rd1 Rd) in Rt.
    pose proof (Nx _ _ Rt). lia. }
  exists n, sn. split; [exact Lnn|]. split; [exact Wn|]. rewrite Lc.
  assert (Dec : n = O /\ o_min s <> MNone \/ (o_min s = MNone \/ (0 < n)%nat)).
  { destruct n; [|right; right; lia]. destruct (o_min s); [right; left; reflexivity|left; split; [reflexivity|discriminate]..]. }
  destruct T3 as [(sk & s1 & Rd & Ck & Cc)|(s1 & Rd & Ck & C0 & Nx & Cc)].
  - assert (Ek : n = O /\ o_min s <> MNone \/ k = len (fdata (o_file sn))).
    { destruct Dec as [D|D]; [left; exact D|right]. destruct (Pos n sn Lnn Wn D) as (_ & s2 & Rd2 & C2). rewrite En in Rd2.
      rewrite (reads_fun _ _ _ _ _ Rd2 Rd) in C2. lia. }
    assert (Nx : forall t s2, read_trace p s1 = Ok (t, s2) -> k < i_cur s2).
    { intros t s2 E.
      assert (I : ReadFacts.r_inv p s1 /\ bh_max_num_add_tr_headers (i_bh s1) = 0).
      { assert (I0 : ReadFacts.r_inv p r) by (unfold isegy_open in R1; exact (ReadFacts.open_r_inv _ _ _ _ _ _ R1 A63 Hl)). clear - Rd I0 A63 R6.
        revert r Rd I0 R6. induction ts1 as [|t ts1 IH]; intros r Rd I0 R6.
        - unfold reads in Rd. cbn in Rd. injection Rd as <-. auto.
        - unfold reads in Rd. cbn [List.length repeat read_mixed map] in Rd. apply bind_ok in Rd as ([x r1] & E & Rd).
          apply bind_ok in Rd as ([y r2] & E2 & Rd). injection Rd as H1 H2 H3. subst x y r2. apply bind_ok in E as ([t' r3] & E & K). injection K as _ <-.
          destruct (ReadFacts.read_trace_inv _ _ _ _ A63 I0 E) as (I1 & Sm & _). apply (IH r3 E2 I1).
          unfold same_reader in Sm. intuition congruence. }
      destruct I as (I & Ad1). pose proof (ReadFacts.read_trace_inv _ _ _ _ A63 I E) as ((_ & _ & _ & _ & _ & _ & Bz & _) & _ & P & _).
      unfold ReadFacts.header_bytes in P. rewrite Ad1 in P. lia. }
    split; [destruct Ek as [(Z0 & _)|Ek]; [left; exact Z0|right; lia]|]. split; [exact (Next s1 Rd Nx)|]. right.
    exists sx, ts1, fuel, (Ok sk). split; [exact T1|]. split; [exact Cc|]. split; [exact F2|]. left. split; [exists sk; reflexivity|exact Ek].
  - assert (Ek : n = O \/ len (fdata (o_file sn)) < k).
    { destruct (Nat.eq_dec n 0) as [Z0|Z0]; [left; exact Z0|right]. destruct (Pos n sn Lnn Wn ltac:(right; lia)) as (_ & s2 & Rd2 & C2).
      rewrite En in Rd2. rewrite (reads_fun _ _ _ _ _ Rd2 Rd) in C2.
      destruct (Z.lt_trichotomy (i_cur s1) k) as [G|[G|G]]; [lia|lia|]. exfalso. apply Z0. unfold n. rewrite (C0 G). reflexivity. }
    split; [destruct Ek as [Z0|Ek]; [left; exact Z0|right; lia]|]. split; [exact (Next s1 Rd Nx)|]. right.
    exists sx, ts1, fuel, (Throw EIO). split; [exact T1|]. split; [exact Cc|]. split; [exact F2|]. right. split; [reflexivity|exact Ek].
Qed.

(** ** The disk becomes full *)
Lemma firstn_cap (F : list Z) cap : 0 <= cap -> exists k, 0 <= k <= len F /\ firstn (Z.to_nat cap) F = firstn (Z.to_nat k) F.
Proof.
  intro H. destruct (Z.le_gt_cases cap (len F)) as [L|L]; [exists cap; auto|]. exists (len F). split; [pose proof (len_nonneg F); lia|].
  rewrite !firstn_all2 by (unfold len in *; lia). reflexivity.
Qed.
Lemma full_core p w bh nm l ls s ts sN k cap sch e s' k' : sane_alloc p -> p_left_first p = true -> safe_layout l -> NoDup (names l) ->
  comes_back w bh l (bh_samp_per_tr (o_bh sN) mod 2 ^ 16) ts -> w_open p w bh ((nm, l) :: ls) = Ok s -> write_traces p s ts = Ok sN ->
  len (fdata (o_file sN)) < 2 ^ 63 -> holds_file cap k (o_file s) -> client cap sch p s k ts = Ok (e, s', k') ->
  beginning_read p ((nm, l) :: ls) (trace_back p (o_endian s) (bh_format_code (o_bh s)) l) s ts (snd (destroy (is_rev2 w) cap sch s' k')).
Proof.
  intros HA HL HS HN Cb Ho Hw Hl Hf Hc. pose proof Cb as (Hok & _ & X & _ & Hr & _). pose proof (texts_few _ _ Hok X) as Ln.
  pose proof (open_standing _ _ _ _ _ Ln Ho) as St.
  assert (C0 : 0 <= cap) by (destruct Hf as (_ & ? & ? & _); lia).
  assert (Pre : forall c x, fdata (o_file sN) = c ++ x -> cap <= len c ->
    beginning_read p ((nm, l) :: ls) (trace_back p (o_endian s) (bh_format_code (o_bh s)) l) s ts (firstn (Z.to_nat cap) c)).
  { intros c x E L. replace (firstn (Z.to_nat cap) c) with (firstn (Z.to_nat cap) (fdata (o_file sN))).
    - apply (core p w bh); auto. rewrite E, len_app. pose proof (len_nonneg x). lia.
    - rewrite E, firstn_app. replace (Z.to_nat cap - List.length c)%nat with O by (unfold len in L; lia). cbn [firstn]. apply app_nil_r. }
  assert (Call : forall n t s1 o s2, nth_error ts n = Some t -> write_traces p s (firstn n ts) = Ok s1 -> xwrite_trace p t s1 = (o, s2) ->
    write_traces p s (firstn (S n) ts) = Ok s2 /\ (S n <= List.length ts)%nat /\ exists u, o = Ok u).
  { intros n t s1 o s2 N W Xw. assert (Sn : firstn (S n) ts = firstn n ts ++ [t]).
    { clear - N. revert ts N. induction n as [|n IH]; intros [|a ts] N; try discriminate; cbn [nth_error] in N.
      - injection N as ->. reflexivity.
      - cbn [firstn app]. rewrite <- (IH ts N). reflexivity. }
    destruct (traces_prefix p s ts sN (S n) Hw) as (s3 & W3 & _). pose proof W3 as W4. rewrite Sn, traces_app, W in W4. cbn [bind write_traces] in W4.
    apply bind_ok in W4 as (s4 & W4 & E). injection E as ->. destruct (xok p t s1 s3 W4) as (u & Xu). rewrite Xw in Xu. injection Xu as -> ->.
    split; [exact W3|]. split; [|exists u; reflexivity]. assert (n < List.length ts)%nat by (apply nth_error_Some; congruence). lia. }
  pose proof (client_ends cap sch p ts s k e s' k' Hf St Hc) as Q. destruct e as [|n|n].
  - destruct Q as (W & F' & S'). rewrite Hw in W. injection W as <-.
    destruct (destroy_follows w cap sch sN k' F' (proj1 S')) as (b & D & _); [lia|]. rewrite D. cbn [snd]. unfold cut.
    assert (Sb : stanza_bytes w sN = []).
    { unfold stanza_bytes. destruct (traces_kept _ _ _ _ _ _ _ Ln Ho Hw) as (_ & _ & K3). destruct w; cbn [is_rev2 andb]; [reflexivity..|].
      destruct Hr as (_ & Hr & _). rewrite K3, Hr. reflexivity. }
    rewrite Sb, app_nil_r. destruct (firstn_cap (fdata (o_file sN)) cap C0) as (q & Hq & ->). apply (core p w bh); auto.
  - destruct Q as (t & s1 & x & N & W & Xw & _). destruct (Call n t s1 _ _ N W Xw) as (_ & _ & u & E). discriminate E.
  - destruct Q as (t & s1 & o & N & W & Xw & Fu & _). destruct (Call n t s1 _ _ N W Xw) as (W2 & Ls & _).
    destruct Fu as [Fu|Fu]; rewrite (destroy_full (is_rev2 w) cap sch s' k' _ Fu); cbn [snd]; unfold cut; destruct Fu as (_ & _ & Lc).
    + assert (Dec : n = O \/ (0 < n)%nat) by lia. destruct Dec as [-> |Dec].
      * cbn [firstn write_traces] in W. injection W as <-.
        assert (C1 : comes_back w bh l (bh_samp_per_tr (o_bh s) mod 2 ^ 16) []) by exact (comes_firstn _ _ _ _ _ ts 0 Cb (or_intror eq_refl)).
        destruct (traces_grow2 p ts s sN St Hw) as (_ & _ & G).
        destruct (core p w bh nm l ls s [] s cap HA HL HS HN C1 Ho eq_refl) as (n & sn & Q1 & Q2 & Q3 & Q4 & Q5); [lia..|].
        cbn [List.length] in Q1. assert (n = O) as -> by lia. cbn [firstn write_traces] in Q2. injection Q2 as <-.
        exists O, s. split; [lia|]. split; [reflexivity|]. split; [left; reflexivity|]. split; [|exact Q5].
        intros m sm Lm Wm. destruct (traces_grow2 p _ s sm St Wm) as (_ & _ & G2). unfold len in *. rewrite firstn_length. lia.
      * destruct (prefix_file p s ts sN n s1 St Hw W ltac:(lia) (or_intror Dec)) as (_ & x & Ex). apply (Pre _ _ Ex). lia.
    + destruct (prefix_file p s ts sN (S n) s' St Hw W2 Ls ltac:(right; lia)) as (_ & x & Ex). apply (Pre _ _ Ex). lia.
Qed.

(** ** The program is killed *)
Definition data (l : list fop) : list Z := concat (map (fun o => match o with FWrite d => d | _ => [] end) l).
Lemma over_end d l : over d (len d) l = d ++ l.
Proof. rewrite over_in by (pose proof (len_nonneg d); lia). unfold len. rewrite Nat2Z.id, firstn_all. f_equal. rewrite skipn_all2 by lia. apply app_nil_r. Qed.
Lemma lazy_data cap l : appends l -> forall k, k_bad k = false -> k_at k <= cap -> k_at k = len (k_disk k) -> exists n,
  k_ops cap (fun _ => O) l k = (true, mkStream (k_disk k) (k_at k) (k_buf k ++ data l) false n).
Proof.
  induction 1 as [|o l (d & ->) _ IH]; intros [dk at' b bad i] B C D; cbn [k_bad k_at k_disk k_buf] in *; subst bad.
  - exists i. cbn [k_ops]. unfold data. cbn [map concat]. rewrite app_nil_r. reflexivity.
  - cbn [k_ops]. unfold k_op. cbn [k_bad k_n k_disk k_at k_buf]. unfold k_flush. cbn [firstn skipn k_disk k_at k_buf k_n].
    change (len (@nil Z)) with 0. replace (at' + 0 <=? cap) with true by lia. cbn [k_bad negb].
    replace (over dk at' []) with dk by (rewrite D, over_end, app_nil_r; reflexivity). rewrite Z.add_0_r.
    destruct (IH (mkStream dk at' (b ++ d) false (S i)) eq_refl C D) as (n & E). exists n. rewrite E. cbn [k_disk k_at k_buf].
    unfold data. cbn [map concat]. rewrite app_assoc. reflexivity.
Qed.
Lemma ops_data p ts : forall s sN, standing s -> o_min s = MNone -> write_traces p s ts = Ok sN ->
  appends (all_ops p s ts) /\ fdata (o_file sN) = fdata (o_file s) ++ data (all_ops p s ts).
Proof.
  induction ts as [|t ts IH]; intros s sN St M H; cbn [write_traces all_ops] in *.
  - injection H as <-. split; [constructor|]. unfold data. cbn [map concat]. rewrite app_nil_r. reflexivity.
  - apply bind_ok in H as (s1 & W & H). destruct (xok p t s s1 W) as (u & X).
    destruct (call_ok _ (fun _ => O) p t s _ (stored_follows _ (proj1 St)) St) as (l & El & Ap & S1 & (_ & M1) & _ & K).
    rewrite El, X in *. cbn [fst snd] in *. specialize (Ap M).
    destruct (IH s1 sN S1 ltac:(congruence) H) as (A2 & D2). split; [apply Forall_app; auto|].
    pose proof (proj1 St) as A. unfold at_end in A.
    destruct (lazy_data (len (fdata (o_file s))) l Ap (mkStream (fdata (o_file s)) (fpos (o_file s)) [] false 0) eq_refl) as (n & E); [cbn [k_at]; lia|exact A|].
    rewrite E in K. destruct K as (_ & _ & _ & K & _). cbn [k_disk k_at k_buf app] in K. rewrite A, over_end in K.
    rewrite D2, K. unfold data. rewrite map_app, concat_app, app_assoc. reflexivity.
Qed.
Lemma killed_data cap sch l : appends l -> forall k, k_bad k = false -> k_at k = len (k_disk k) -> exists x y,
  k_disk (snd (k_ops cap sch l k)) = k_disk k ++ x /\ k_buf k ++ data l = x ++ y.
Proof.
  induction 1 as [|o l (d & ->) _ IH]; intros [dk at' b bad i] B D; cbn [k_bad k_at k_disk k_buf] in *; subst bad.
  - exists [], (b ++ data []). cbn [k_ops snd k_disk]. rewrite app_nil_r. auto.
  - cbn [k_ops]. unfold k_op. cbn [k_bad k_n k_disk k_at k_buf]. unfold k_flush. cbn [k_disk k_at k_buf k_n]. rewrite D, !over_end.
    assert (E0 : b ++ data (FWrite d :: l) = (b ++ d) ++ data l) by (unfold data; cbn [map concat]; apply app_assoc).
    rewrite E0. set (n := sch i). destruct (_ <=? cap) eqn:C; cbn [k_bad negb].
    + destruct (IH (mkStream (dk ++ firstn n (b ++ d)) (len dk + len (firstn n (b ++ d))) (skipn n (b ++ d)) false (S i)) eq_refl) as (x & y & E1 & E2).
      { cbn [k_at k_disk]. rewrite len_app. reflexivity. }
      cbn [k_disk k_buf] in *. exists (firstn n (b ++ d) ++ x), y. rewrite E1. split; [symmetry; apply app_assoc|].
      rewrite <- (app_assoc _ x y), <- E2, (app_assoc _ _ (data l)), firstn_skipn. reflexivity.
    + cbn [snd k_disk]. set (q := Z.to_nat (cap - len dk)).
      exists (firstn q (firstn n (b ++ d))), (skipn q (firstn n (b ++ d)) ++ skipn n (b ++ d) ++ data l). split; [reflexivity|].
      rewrite (app_assoc _ _ (skipn n (b ++ d) ++ data l)), firstn_skipn, (app_assoc _ _ (data l)), firstn_skipn. reflexivity.
Qed.
Lemma killed_core p w bh nm l ls s ts sN k cap sch j : sane_alloc p -> p_left_first p = true -> safe_layout l -> NoDup (names l) ->
  comes_back w bh l (bh_samp_per_tr (o_bh sN) mod 2 ^ 16) ts -> w_open p w bh ((nm, l) :: ls) = Ok s -> write_traces p s ts = Ok sN ->
  len (fdata (o_file sN)) < 2 ^ 63 -> o_min s = MNone -> holds_file cap k (o_file s) -> k_at k = len (k_disk k) ->
  beginning_read p ((nm, l) :: ls) (trace_back p (o_endian s) (bh_format_code (o_bh s)) l) s ts
    (k_disk (snd (k_ops cap sch (firstn j (all_ops p s ts)) k))).
Proof.
  intros HA HL HS HN Cb Ho Hw Hl M Hf Ha. pose proof Cb as (Hok & _ & X & _). pose proof (texts_few _ _ Hok X) as Ln.
  destruct (ops_data p ts s sN (open_standing _ _ _ _ _ Ln Ho) M Hw) as (Ap & D). set (os := all_ops p s ts) in *.
  assert (Aj : appends (firstn j os)).
  { unfold appends in *. rewrite Forall_forall in *. intros o I. apply Ap, (firstn_in j), I. }
  destruct Hf as (B & _ & _ & Fd & _). destruct (killed_data cap sch _ Aj k B Ha) as (x & y & E1 & E2). rewrite E1.
  assert (E : fdata (o_file sN) = (k_disk k ++ x) ++ y ++ data (skipn j os)).
  { rewrite D, Fd, Ha, over_end, <- !app_assoc. f_equal. rewrite (app_assoc x y), <- E2, <- app_assoc. f_equal.
    unfold data. rewrite <- concat_app, <- map_app, firstn_skipn. reflexivity. }
  replace (k_disk k ++ x) with (firstn (Z.to_nat (len (k_disk k ++ x))) (fdata (o_file sN))).
  - apply (core p w bh); auto. rewrite E, (len_app (k_disk k ++ x)). pose proof (len_nonneg (k_disk k ++ x)). pose proof (len_nonneg (y ++ data (skipn j os))). lia.
  - rewrite E. unfold len. rewrite Nat2Z.id, firstn_app, Nat.sub_diag, firstn_all. cbn [firstn]. apply app_nil_r.
Qed.
