(** Lemmas for C19-C21. *)
From Verif Require Import BaseFacts Platform Fp TraceHdr SegyTypes SegyCodec CodecFacts SampleFacts
     HdrFacts ISegy OSegy OpenFacts CodecSpec LayoutSpec LayoutFacts BinFacts WriterFacts RoundSpec ReaderFacts
     RoundFacts FileSpec.

Lemma width_bps fmt bps : o_bytes_per_sample fmt = Some bps -> In fmt supported -> bps = sample_width fmt.
Proof.
  intros H Hin. unfold supported in Hin. cbn [In] in Hin.
  repeat (destruct Hin as [<-|Hin]; [injection H as <-; reflexivity|]). contradiction.
Qed.

Lemma add_blocks_spec p e h : forall n ls r, safe_layouts ls -> add_blocks p e ls h n = Ok r ->
  exists bs, r = concat bs /\ List.length bs = n /\
    forall i b, nth_error bs i = Some b -> is_block p e (option_map snd (nth_error ls i)) h b.
Proof.
  induction n as [|n IH]; intros ls r HS H; cbn [add_blocks] in H.
  - injection H as <-. exists []. split; [reflexivity|]. split; [reflexivity|]. intros [|i] b K; discriminate.
  - destruct ls as [|[nm l] ls].
    + apply bind_ok in H as (r' & E & H). injection H as <-. apply IH in E as (bs & -> & L & K); [|exact HS].
      exists (zeros 240 :: bs). split; [reflexivity|]. split; [cbn; congruence|].
      intros [|i] b Hb; cbn [nth_error] in *.
      * injection Hb as <-. split; reflexivity.
      * apply K in Hb. destruct i; exact Hb.
    + apply bind_ok in H as (b0 & Eb & H). apply bind_ok in H as (r' & E & H). injection H as <-.
      apply IH in E as (bs & -> & L & K); [|intros n' l' Hin; apply (HS n'); right; exact Hin].
      exists (b0 :: bs). split; [reflexivity|]. split; [cbn; congruence|].
      intros [|i] b Hb; cbn [nth_error] in *.
      * injection Hb as <-. cbn [option_map snd].
        destruct (hdr_block_spec p e l h b0 (HS nm l (or_introl eq_refl)) Eb) as (L1 & _ & L2 & L3).
        split; [exact L1|]. split; assumption.
      * apply K, Hb.
Qed.

(** The sample part of a stored record. *)
Lemma stored_record p s sb t r smp : o_good p s -> safe_layouts (o_maps s) -> p_max_alloc p < 2 ^ 63 ->
  len sb <= p_max_alloc p -> stored p s sb t r smp ->
  is_record p (o_endian s) (bh_format_code (o_bh s)) (o_maps s) (Z.of_nat (S (add_count s))) (len smp) t r /\
  (if o_var s then exists n, hget (t_hdr t) "SAMP_NUM" = Some (VInt n) /\ len smp = n * o_bps s
   else len smp = len sb) /\ len smp <= p_max_alloc p.
Proof.
  intros G HS HA Ls (hb & ab & -> & L1 & L2 & Hm & sb1 & Hv & Hf).
  destruct (o_maps s) as [|[nm l] ls] eqn:M; [contradiction|]. destruct Hm as [Eh Ea].
  assert (HS' : safe_layouts ls) by (intros n' l' Hin; apply (HS n'); right; exact Hin).
  apply add_blocks_spec in Ea as (bs & -> & Lb & Kb); [|exact HS'].
  apply fill_samples_inv in Hf as (w & encs & W & E & Sm & Lsm & Lc).
  pose proof (good_bps _ _ G) as Bp.
  split; [|].
  { exists (hb :: bs), encs, (skipn (List.length (concat encs)) sb1). split; [|split; [|split; [|split]]].
    - cbn [concat]. rewrite Sm, <- app_assoc. reflexivity.
    - unfold len. cbn [List.length]. rewrite Lb. reflexivity.
    - intros [|i] b Hb; cbn [nth_error] in *; [|apply Kb, Hb]. injection Hb as <-. cbn [option_map snd].
      destruct (hdr_block_spec p _ l _ hb (HS nm l (or_introl eq_refl)) Eh) as (K1 & _ & K2 & K3).
      split; [exact K1|]. split; assumption.
    - apply mapM_ok in E. clear - E W. induction E; constructor; auto. exists w. auto.
    - rewrite Sm. reflexivity. }
  destruct (o_var s).
  - unfold var_buf in Hv. apply bind_ok in Hv as (v & Ev & Hv). apply bind_ok in Hv as (n & En & Hv).
    unfold get_req in Ev. destruct (hget (t_hdr t) "SAMP_NUM") as [x|]; [|discriminate].
    injection Ev as ->. destruct v; [|discriminate]. injection En as ->.
    unfold sarith in Hv. destruct (in_i 64 _) eqn:I; [|discriminate]. cbn [bind] in Hv. cbv zeta in Hv.
    unfold in_i in I. change (64 - 1) with 63 in I.
    assert (K : len sb1 = wrapu 64 (n * o_bps s) /\ len sb1 <= p_max_alloc p).
    { destruct (Z.eqb_spec (wrapu 64 (n * o_bps s)) (len sb)) as [K|K].
      - injection Hv as <-. split; [congruence|exact Ls].
      - apply resize_buf_inv in Hv as [V1 V2]. rewrite wrapu_idem in V1, V2. split; [exact V1|congruence]. }
    destruct K as [K1 K2]. rewrite Lsm. split; [|exact K2]. exists n. split; [reflexivity|].
    assert (NN : 0 <= n * o_bps s).
    { destruct (Z.lt_ge_cases (n * o_bps s) 0) as [Ng|Ng]; [exfalso|exact Ng].
      assert (wrapu 64 (n * o_bps s) = n * o_bps s + 2 ^ 64).
      { unfold wrapu. rewrite <- (Z_mod_plus_full _ 1). apply Z.mod_small. lia. }
      lia. }
    rewrite K1. apply wrapu_small. lia.
  - subst sb1. split; [exact Lsm|congruence].
Qed.

Lemma stored_all_records p s : o_good p s -> safe_layouts (o_maps s) -> p_max_alloc p < 2 ^ 63 ->
  forall ts sb recs, len sb <= p_max_alloc p -> stored_all p s sb ts recs ->
  Forall2 (fun t r => exists area,
    is_record p (o_endian s) (bh_format_code (o_bh s)) (o_maps s) (Z.of_nat (S (add_count s))) area t r /\
    if o_var s then exists n, hget (t_hdr t) "SAMP_NUM" = Some (VInt n) /\ area = n * o_bps s
    else area = len sb) ts recs.
Proof.
  intros G HS HA. induction ts as [|t ts IH]; intros sb recs Ls H; destruct recs as [|r recs]; try contradiction.
  - constructor.
  - destruct H as (smp & S & H). apply stored_record in S as (R & K & L); auto.
    constructor; [exists (len smp); auto|]. specialize (IH smp recs L H).
    destruct (o_var s); [exact IH|]. rewrite K in IH. exact IH.
Qed.

(** What opening any of the writers gives. *)
Lemma w_open_inv p w bh ls s : w_open p w bh ls = Ok s -> len (given_texts w) <= 65536 ->
  o_good p s /\ check_tr_hdr_map bh ls = Ok tt /\
  exists t0 tr b, ready s (first_text t0) b (concat tr) /\
    tr = ext_texts w /\ Forall (fun t => len t = 3200) tr /\
    (given_texts w <> [] -> first_text t0 :: tr = given_texts w) /\
    set_ext_text_headers_num b 0 = set_ext_text_headers_num (o_bh s) 0 /\
    o_maps s = ls /\ o_add s = match w with W2 _ _ => negb (bh_max_num_add_tr_headers bh =? 0) | _ => false end /\
    bh_max_num_add_tr_headers (o_bh s) = bh_max_num_add_tr_headers bh /\
    bh_samp_per_tr (o_bh s) = bh_samp_per_tr bh /\
    o_var s = own_count w bh /\
    ((o_min s <> MNone /\ o_sbuf s = []) \/
     (o_min s = MNone /\ o_var s = false /\
      resize_buf p (wrapu 16 (bh_samp_per_tr bh) * o_bps s) [] = Ok (o_sbuf s)) \/
     (o_min s = MNone /\ o_var s = true /\ o_sbuf s = [])).
Proof.
  assert (X : forall d txts (t0 : list Z) tr, texts_used d txts (t0 :: tr) ->
     tr = tl txts /\ Forall (fun t => len t = 3200) tr /\ (txts <> [] -> first_text t0 :: tr = txts) /\
     map first_text tr = tr).
  { intros d txts t0 tr [[-> U]|[-> [_ U]]].
    - injection U as _ U. subst tr. repeat split; [constructor|congruence].
    - inversion U; subst. split; [reflexivity|]. split; [assumption|]. rewrite first_text_id by assumption.
      split; [reflexivity|]. apply first_texts_id. assumption. }
  intros H Ln. destruct w as [txt|txts|txts st]; cbn [w_open ext_texts given_texts] in *.
  - split; [eapply rev0_good; exact H|].
    apply rev0_open_inv in H as (Ck & t & Ht & Etx & Rd & Em & Ea & Ev & Eb & Md). split; [exact Ck|].
    destruct (with_fmt_eqs bh 1) as (Q1 & Q2 & Q3 & Q4 & Q5 & Q6 & Q7 & Q8 & Q9). cbv zeta in *.
    exists t, [], (o_bh s). split; [exact Rd|].
    split; [destruct txt; reflexivity|]. split; [constructor|]. split.
    { intros N. destruct Ht as [[-> K]|[<- K]]; [contradiction|]. rewrite first_text_id by exact K.
      destruct txt; [discriminate|reflexivity]. }
    split; [reflexivity|]. split; [exact Em|]. split; [exact Ea|].
    split; [rewrite Eb; exact Q7|]. split; [rewrite Eb; exact Q3|]. split; [exact Ev|].
    destruct Md as [(M1 & M2)|(M1 & M2 & M3)]; auto.
  - split; [eapply rev1_good; exact H|].
    apply rev1_open_inv in H as (Ck & t0 & tr & U & Etx & Rd & Em & Ea & Eb & Md); [|exact Ln]. split; [exact Ck|].
    destruct (with_fmt_eqs bh 5) as (Q1 & Q2 & Q3 & Q4 & Q5 & Q6 & Q7 & Q8 & Q9). cbv zeta in *.
    apply X in U as (X1 & X2 & X3 & X4). rewrite X4 in Rd.
    exists t0, tr, (with_fmt bh 5). split; [exact Rd|]. split; [exact X1|]. split; [exact X2|]. split; [exact X3|].
    split; [rewrite Eb; reflexivity|]. split; [exact Em|]. split; [exact Ea|].
    split; [rewrite Eb; exact Q7|]. split; [rewrite Eb; exact Q3|]. unfold own_count.
    destruct Md as [(M1 & M2 & M3 & M4)|[(M1 & M2 & M3 & M4)|(M1 & M2 & M3 & M4)]].
    + split; [|auto]. rewrite M4. rewrite <- Q6. replace (bh_fixed_tr_length (with_fmt bh 5)) with (bh_fixed_tr_length (o_bh s)) by (rewrite Eb; reflexivity).
      rewrite M3. reflexivity.
    + split; [|auto]. rewrite M3. destruct (Z.eqb_spec (bh_fixed_tr_length bh) 0); congruence.
    + split; [|auto]. rewrite M3, M2. reflexivity.
  - split; [eapply rev2_good; exact H|].
    apply rev2_open_inv in H as (Ck & _ & _ & t0 & tr & U & Etx & Rd & Em & Ea & Eb & Md); [|exact Ln]. split; [exact Ck|].
    destruct (with_fmt_eqs bh 5) as (Q1 & Q2 & Q3 & Q4 & Q5 & Q6 & Q7 & Q8 & Q9). cbv zeta in *.
    apply X in U as (X1 & X2 & X3 & X4). rewrite X4 in Rd.
    exists t0, tr, (with_fmt bh 5). split; [exact Rd|]. split; [exact X1|]. split; [exact X2|]. split; [exact X3|].
    split; [rewrite Eb; reflexivity|]. split; [exact Em|]. split; [exact Ea|].
    split; [rewrite Eb; exact Q7|]. split; [rewrite Eb; exact Q3|]. unfold own_count.
    destruct Md as [(M1 & M2 & M3 & M4)|[(M1 & M2 & M3 & M4)|(M1 & M2 & M3 & M4)]].
    + split; [|auto]. rewrite M4. rewrite <- Q6. replace (bh_fixed_tr_length (with_fmt bh 5)) with (bh_fixed_tr_length (o_bh s)) by (rewrite Eb; reflexivity).
      rewrite M3. reflexivity.
    + split; [|auto]. rewrite M3. destruct (Z.eqb_spec (bh_fixed_tr_length bh) 0); congruence.
    + split; [|auto]. rewrite M3, M2. reflexivity.
Qed.

Lemma Forall2_weaken {A B} (P Q : A -> B -> Prop) : (forall a b, P a b -> Q a b) ->
  forall la lb, Forall2 P la lb -> Forall2 Q la lb.
Proof. intros H. induction 1; constructor; auto. Qed.

Lemma sum_app_len (P : trace -> list Z -> Prop) (f : trace -> Z) :
  (forall t r, P t r -> len r = f t) -> forall ts recs, Forall2 P ts recs ->
  len (concat recs) = sum (map f ts).
Proof.
  intros H. induction 1 as [|t r ts recs K _ IH]; [reflexivity|].
  cbn [concat map sum fold_right]. rewrite len_app, (H _ _ K), IH. reflexivity.
Qed.

Lemma is_record_len p e fmt ls n area t r : is_record p e fmt ls n area t r -> len r = 240 * n + area.
Proof.
  intros (bs & smps & pad & -> & L & K & _ & A). rewrite len_app, A. f_equal. rewrite <- L.
  assert (F : Forall (fun x => List.length x = 240%nat) bs).
  { apply Forall_forall. intros b Hb. apply In_nth_error in Hb as (i & Hi). apply K in Hi as [Hl _]. unfold len in Hl. lia. }
  rewrite (concat_len_const _ _ F). reflexivity.
Qed.

Lemma file_layout p w bh ls ts s s' : sane_alloc p -> safe_layouts ls -> len (given_texts w) <= 65536 ->
  w_open p w bh ls = Ok s -> write_traces p s ts = Ok s' ->
  exists text bin recs b,
    fdata (o_file s') = text ++ bin ++ concat (ext_texts w) ++ concat recs /\
    len text = 3200 /\ len bin = 400 /\ len (concat (ext_texts w)) = 3200 * len (ext_texts w) /\
    (given_texts w <> [] -> text :: ext_texts w = given_texts w) /\
    bin_header_bytes (o_endian s) b = Ok bin /\
    set_ext_text_headers_num b 0 = set_ext_text_headers_num (o_bh s') 0 /\
    Forall2 (fun t r => is_record p (o_endian s) (bh_format_code (o_bh s')) ls (header_count w bh)
       (sample_area (own_count w bh) (bh_samp_per_tr (o_bh s') mod 2 ^ 16) (bh_format_code (o_bh s')) t) t r) ts recs.
Proof.
  intros HA HS Ln Ho Hw. destruct (w_open_inv _ _ _ _ _ Ho Ln) as (G & Ck & t0 & tr & b & Rd & Et & F3 & Tx & Eb & Em & Ea & Ax & Sx & Ev & Md).
  destruct (write_all p s _ _ _ _ _ Rd Hw) as (s1 & recs & C1 & C & B & A & SA & D).
  pose proof (good_bps _ _ G) as Bp. pose proof HA as [HA1 HA2].
  assert (G1 : o_good p s1 /\ bh_max_num_add_tr_headers (o_bh s1) = bh_max_num_add_tr_headers bh /\
     len (o_sbuf s1) <= p_max_alloc p /\ (ts <> [] -> o_var s = false -> len (o_sbuf s1) = bh_samp_per_tr (o_bh s1) mod 2 ^ 16 * o_bps s)).
  { destruct D as [(Mo & -> & _)|(t1 & ts1 & Mo & Ets & Cm & _)].
    - split; [exact G|]. split; [exact Ax|].
      destruct Md as [(M1 & M2)|[(M1 & M2 & M3)|(M1 & M2 & M3)]].
      + rewrite M2. change (len []) with 0. split; [clear - HA1; lia|]. intros K. destruct Mo; contradiction.
      + apply resize_buf_inv in M3 as [K1 K2]. split; [congruence|]. intros _ _. rewrite K1, Sx.
        pose proof (wrapu_bound 16 (bh_samp_per_tr bh) ltac:(lia)). apply wrapu_small. clear - H Bp. unfold wrapu in *. nia.
      + rewrite M3. change (len []) with 0. split; [clear - HA1; lia|]. congruence.
    - pose proof Cm as (n & si & _ & _ & _ & E1 & _).
      split; [eapply good_min; eassumption|]. split; [rewrite E1; exact Ax|].
      destruct (completed_buf p s _ _ _ HA (proj1 Bp) Cm) as [K1 K2]. auto. }
  destruct G1 as (G1 & Ax1 & Lsb & Dsb).
  pose proof C1 as (C11 & _ & _ & C14 & C15 & _ & _ & C18 & C19).
  assert (HS1 : safe_layouts (o_maps s1)) by (rewrite C11, Em; exact HS).
  pose proof (stored_all_records p s1 G1 HS1 HA2 _ _ _ Lsb SA) as FR.
  assert (Wd : o_bps s = sample_width (bh_format_code (o_bh s'))).
  { rewrite B. destruct G1 as ((wr & W) & Bps & _). rewrite <- C15. apply width_bps; [exact Bps|]. eapply writer_fmt; exact W. }
  assert (Hc : Z.of_nat (S (add_count s1)) = header_count w bh).
  { unfold add_count, header_count. rewrite C18, Ea, Ax1. destruct w; try reflexivity.
    destruct (Z.eqb_spec (bh_max_num_add_tr_headers bh) 0) as [E|E]; cbn [negb]; lia. }
  assert (FR' : Forall2 (fun t r => is_record p (o_endian s) (bh_format_code (o_bh s')) ls (header_count w bh)
       (sample_area (own_count w bh) (bh_samp_per_tr (o_bh s') mod 2 ^ 16) (bh_format_code (o_bh s')) t) t r) ts recs).
  { rewrite Hc, C11, C14, C19, Em, Ev, C15, Wd, <- B in FR. unfold sample_area.
    destruct (own_count w bh) eqn:Ow.
    - eapply Forall2_weaken; [|exact FR]. intros t r (area & R & n & Hn & ->). unfold given. rewrite Hn. exact R.
    - destruct ts as [|t ts]; [inversion FR; constructor|].
      rewrite (Dsb ltac:(discriminate) Ev), <- B, Wd in FR.
      eapply Forall2_weaken; [|exact FR]. intros x r (area & R & ->). exact R. }
  assert (L3 : len (concat tr) = 3200 * len tr) by (apply concat_len_3200; exact F3).
  destruct Rd as (_ & Lt & _ & _ & Mn).
  destruct D as [(Mo & -> & D)|(t1 & ts1 & Mo & Ets & Cm & D)].
  - exists (first_text t0), (bin_block (o_endian s) b), recs, b. rewrite <- Et.
    split; [exact D|]. split; [exact Lt|]. split; [apply len_bin_block|].
    split; [exact L3|]. split; [exact Tx|]. split; [apply bin_header_bytes_eq|]. split; [congruence|exact FR'].
  - exists (first_text t0), (bin_block (o_endian s) (o_bh s1)), recs, (o_bh s1). rewrite <- Et, (Mn Mo) in *.
    split; [exact D|]. split; [exact Lt|]. split; [apply len_bin_block|].
    split; [exact L3|]. split; [exact Tx|]. split; [apply bin_header_bytes_eq|]. split; [congruence|exact FR'].
Qed.

(** ** Appending *)
Lemma nth_error_app_some {A} (a b : list A) i x : nth_error a i = Some x -> nth_error (a ++ b) i = Some x.
Proof. intros H. rewrite nth_error_app1; [exact H|]. apply nth_error_Some. congruence. Qed.

Lemma append_only p w bh ls ts t s s1 s2 : len (given_texts w) <= 65536 ->
  w_open p w bh ls = Ok s -> write_traces p s ts = Ok s1 -> write_trace p s1 t = Ok s2 ->
  forall i x, nth_error (fdata (o_file s1)) i = Some x ->
  nth_error (fdata (o_file s2)) i = Some x \/ ts = [] /\ 3200 <= Z.of_nat i < 3600.
Proof.
  intros Ln Ho Hw Ht i x Hx. destruct (w_open_inv _ _ _ _ _ Ho Ln) as (_ & _ & t0 & tr & b & Rd & _).
  pose proof Rd as (D0 & Lt & A0 & F0 & Mn).
  assert (App : at_end (o_file s1) -> o_min s1 = MNone \/ o_first s1 < fpos (o_file s1) -> nth_error (fdata (o_file s2)) i = Some x).
  { intros A M. assert (W : write_traces p s1 [t] = Ok s2) by (cbn [write_traces]; rewrite Ht; reflexivity).
    apply write_none in W as (recs & _ & D & _); auto. rewrite D. apply nth_error_app_some, Hx. }
  destruct (write_all p s _ _ _ _ _ Rd Hw) as (sx & recs & C1 & C & B & A & SA & D).
  pose proof C as (_ & _ & _ & _ & _ & C6 & C7 & _).
  destruct D as [([Mo|Mo] & -> & D)|(t1 & ts1 & Mo & Ets & Cm & D)].
  - left. apply App; [exact A|left; congruence].
  - subst ts. cbn [write_traces] in Hw. injection Hw as <-.
    assert (Q : o_min s = MNone \/ o_min s <> MNone) by (destruct (o_min s); [left; reflexivity|right; discriminate..]).
    destruct Q as [Q|Q]; [left; apply App; auto|].
    assert (W : write_traces p s [t] = Ok s2) by (cbn [write_traces]; rewrite Ht; reflexivity).
    destruct (write_all p s _ _ _ _ _ Rd W) as (s3 & recs' & _ & _ & _ & _ & _ & D').
    destruct D' as [([K|K] & _)|(t2 & ts2 & _ & _ & _ & D')]; [contradiction|discriminate|].
    rewrite D0, (Mn Q), app_nil_r in Hx. rewrite D'.
    assert (Li : (i < 3600)%nat).
    { assert (nth_error (first_text t0 ++ bin_block (o_endian s) b) i <> None) as K by congruence.
      apply nth_error_Some in K. rewrite app_length in K. unfold len in Lt. pose proof (len_bin_block (o_endian s) b) as LB. unfold len in LB. lia. }
    destruct (Z.lt_ge_cases (Z.of_nat i) 3200) as [H|H]; [left|right; split; [reflexivity|lia]].
    unfold len in Lt. rewrite nth_error_app1 in Hx |- * by lia. exact Hx.
  - left. apply App; [exact A|right]. rewrite C6, F0. unfold at_end in A, A0. rewrite A, A0, D0, D, (Mn Mo), app_nil_r, !len_app, !len_bin_block.
    subst ts. destruct recs as [|r recs]; [contradiction|]. destruct SA as (smp & S & _). apply stored_len in S.
    cbn [concat]. rewrite len_app. pose proof (len_nonneg (concat recs)). lia.
Qed.

(** ** Records of exactly filled traces *)
Lemma stored_all_snoc p s : o_good p s -> safe_layouts (o_maps s) -> p_max_alloc p < 2 ^ 63 ->
  forall ts t sb recs, len sb <= p_max_alloc p -> stored_all p s sb (ts ++ [t]) recs ->
  exists recs0 r sb1 smp, recs = recs0 ++ [r] /\ stored_all p s sb ts recs0 /\ stored p s sb1 t r smp /\
    len sb1 <= p_max_alloc p /\ (o_var s = false -> len sb1 = len sb).
Proof.
  intros G HS HA. induction ts as [|t0 ts IH]; intros t sb recs Ls H.
  - destruct recs as [|r [|r2 recs]]; [contradiction| |].
    + destruct H as (smp & S & _). exists [], r, sb, smp. cbn [stored_all app]. auto.
    + destruct H as (smp & _ & []).
  - destruct recs as [|r recs]; [contradiction|]. destruct H as (smp & S & H).
    destruct (stored_record _ _ _ _ _ _ G HS HA Ls S) as (_ & K & L).
    destruct (IH t smp recs L H) as (recs0 & r' & sb1 & smp' & -> & S0 & S1 & L1 & K1).
    exists (r :: recs0), r', sb1, smp'. split; [reflexivity|]. split; [exists smp; auto|]. split; [exact S1|].
    split; [exact L1|]. intros V. rewrite (K1 V). rewrite V in K. exact K.
Qed.

(** A record whose sample area is exactly filled is determined by the trace. *)
Definition the_record (p : platform) (e : endian) (fmt : Z) (ls : layouts) (n : nat) (t : trace) (r : list Z) : Prop :=
  exists hb ab w encs, r = hb ++ ab ++ concat encs /\
    match ls with [] => False | (_, l) :: ls' =>
      hdr_block p e l (t_hdr t) = Ok hb /\ add_blocks p e ls' (t_hdr t) n = Ok ab end /\
    sample_writer p e fmt = Ok w /\ mapM w (t_smp t) = Ok encs.

Lemma the_record_fun p e fmt ls n t r r' : the_record p e fmt ls n t r -> the_record p e fmt ls n t r' -> r = r'.
Proof.
  intros (hb & ab & w & encs & -> & M & W & E) (hb' & ab' & w' & encs' & -> & M' & W' & E').
  destruct ls as [|[nm l] ls]; [contradiction|]. destruct M as [M1 M2], M' as [M1' M2'].
  assert (w' = w) by congruence. subst w'. congruence.
Qed.

Lemma stored_the p s sb t r smp : o_good p s -> safe_layouts (o_maps s) -> p_max_alloc p < 2 ^ 63 ->
  len sb <= p_max_alloc p -> stored p s sb t r smp ->
  (if o_var s then given (t_hdr t) "SAMP_NUM" = Some (len (t_smp t)) else len sb = len (t_smp t) * o_bps s) ->
  the_record p (o_endian s) (bh_format_code (o_bh s)) (o_maps s) (add_count s) t r.
Proof.
  intros G HS HA Ls S K. destruct (stored_record _ _ _ _ _ _ G HS HA Ls S) as (_ & V & _).
  destruct S as (hb & ab & -> & L1 & L2 & Hm & sb1 & Hv & Hf).
  apply fill_samples_inv in Hf as (w & encs & W & E & Sm & Lsm & Lc).
  destruct (encs_len _ _ _ _ _ _ _ W (proj1 (proj2 G)) E) as (F & Le & B1).
  assert (Q : len smp = len (t_smp t) * o_bps s).
  { destruct (o_var s); [|congruence]. destruct V as (n & Hn & ->). unfold given in K. rewrite Hn in K. congruence. }
  exists hb, ab, w, encs. split; [|split; [exact Hm|split; assumption]].
  f_equal. f_equal. rewrite Sm. rewrite skipn_all2; [apply app_nil_r|]. rewrite Lsm in Q. unfold len in *. lia.
Qed.

Lemma record_of p w bh ls ts t s s1 s2 : sane_alloc p -> safe_layouts ls -> len (given_texts w) <= 65536 ->
  w_open p w bh ls = Ok s -> write_traces p s ts = Ok s1 -> write_trace p s1 t = Ok s2 ->
  (if own_count w bh then given (t_hdr t) "SAMP_NUM" = Some (len (t_smp t))
   else len (t_smp t) = bh_samp_per_tr (o_bh s2) mod 2 ^ 16) ->
  exists pre r, fdata (o_file s2) = pre ++ r /\ len pre = len (fdata (o_file s1)) /\
    the_record p (o_endian s) (bh_format_code (o_bh s)) ls (Z.to_nat (header_count w bh - 1)) t r.
Proof.
  intros HA HS Ln Ho Hw Ht K. destruct (w_open_inv _ _ _ _ _ Ho Ln) as (G & Ck & t0 & tr & b & Rd & Et & F3 & Tx & Eb & Em & Ea & Ax & Sx & Ev & Md).
  assert (Hw2 : write_traces p s (ts ++ [t]) = Ok s2).
  { revert Hw. clear - Ht. revert s. induction ts as [|x ts IH]; intros s H; cbn [write_traces app] in *.
    - injection H as ->. rewrite Ht. reflexivity.
    - apply bind_ok in H as (s0 & E & H). rewrite E. cbn [bind]. apply IH, H. }
  destruct (write_all p s _ _ _ _ _ Rd Hw2) as (sx & recs & C1 & C & B & A & SA & D).
  destruct (write_all p s _ _ _ _ _ Rd Hw) as (sy & recsy & C1y & Cy & By & Ay & SAy & Dy).
  pose proof (good_bps _ _ G) as Bp. pose proof HA as [HA1 HA2].
  assert (G1 : o_good p sx /\ bh_max_num_add_tr_headers (o_bh sx) = bh_max_num_add_tr_headers bh /\
     bh_format_code (o_bh sx) = bh_format_code (o_bh s) /\
     len (o_sbuf sx) <= p_max_alloc p /\ (o_var s = false -> len (o_sbuf sx) = bh_samp_per_tr (o_bh sx) mod 2 ^ 16 * o_bps s)).
  { destruct D as [(Mo & -> & _)|(t1 & ts1 & Mo & Ets & Cm & _)].
    - split; [exact G|]. split; [exact Ax|]. split; [reflexivity|].
      destruct Md as [(M1 & M2)|[(M1 & M2 & M3)|(M1 & M2 & M3)]].
      + destruct Mo; [contradiction|]. destruct ts; discriminate.
      + apply resize_buf_inv in M3 as [K1 K2]. split; [congruence|]. intros _. rewrite K1, Sx.
        pose proof (wrapu_bound 16 (bh_samp_per_tr bh) ltac:(lia)). apply wrapu_small. clear - H Bp. unfold wrapu in *. nia.
      + rewrite M3. change (len []) with 0. split; [clear - HA1; lia|]. congruence.
    - pose proof Cm as (n & si & _ & _ & _ & E1 & _).
      split; [eapply good_min; eassumption|]. split; [rewrite E1; exact Ax|]. split; [rewrite E1; reflexivity|].
      destruct (completed_buf p s _ _ _ HA (proj1 Bp) Cm) as [K1 K2]. auto. }
  destruct G1 as (G1 & Ax1 & Fx1 & Lsb & Dsb).
  pose proof C1 as (C11 & _ & _ & C14 & C15 & _ & _ & C18 & C19).
  assert (HS1 : safe_layouts (o_maps sx)) by (rewrite C11, Em; exact HS).
  destruct (stored_all_snoc p sx G1 HS1 HA2 _ _ _ _ Lsb SA) as (recs0 & r & sb1 & smp & -> & SA0 & S & L1 & V1).
  apply stored_the in S; auto.
  2:{ rewrite C19, Ev in *. destruct (own_count w bh); [exact K|]. rewrite (V1 eq_refl), (Dsb eq_refl), C15, K, B. reflexivity. }
  assert (Hc : add_count sx = Z.to_nat (header_count w bh - 1)).
  { unfold add_count, header_count. rewrite C18, Ea, Ax1. destruct w; try reflexivity.
    destruct (Z.eqb_spec (bh_max_num_add_tr_headers bh) 0) as [E|E]; cbn [negb]; lia. }
  rewrite C14, C11, Em, Fx1, Hc in S.
  assert (X : exists pre, fdata (o_file s2) = pre ++ r).
  { destruct D as [(_ & _ & D)|(_ & _ & _ & _ & _ & D)]; rewrite D, concat_app; cbn [concat]; rewrite app_nil_r, !app_assoc; eexists; reflexivity. }
  destruct X as (pre & X). exists pre, r. split; [exact X|]. split; [|exact S].
  (* length: the record was the only thing added *)
  assert (Lr : len (fdata (o_file s2)) = len (fdata (o_file s1)) + len r).
  { assert (Y : exists r', the_record p (o_endian s) (bh_format_code (o_bh s)) ls (Z.to_nat (header_count w bh - 1)) t r' /\
       len (fdata (o_file s2)) = len (fdata (o_file s1)) + len r').
    { destruct D as [(Mo & -> & D)|(t1 & ts1 & Mo & Ets & Cm & D)].
      - exists r. split; [exact S|]. assert (Q : o_min s = MNone) by (destruct Mo as [Mo|Mo]; [exact Mo|destruct ts; discriminate]).
        destruct Dy as [(_ & -> & Dy)|(_ & _ & Ny & _)]; [|contradiction].
        assert (Z : len (concat recsy) = len (concat recs0)).
        { pose proof (stored_all_records p s G HS1 HA2 _ _ _ Lsb SAy) as F1.
          pose proof (stored_all_records p s G HS1 HA2 _ _ _ Lsb SA0) as F2.
          clear - F1 F2. revert recs0 F2. induction F1 as [|x r1 xs rs (a1 & R1 & V1) _ IH]; intros recs0 F2; inversion F2 as [|? r2 ? rs2 (a2 & R2 & V2) F2']; subst; [reflexivity|].
          cbn [concat]. rewrite !len_app, (IH _ F2'), (is_record_len _ _ _ _ _ _ _ _ R1), (is_record_len _ _ _ _ _ _ _ _ R2).
          destruct (o_var s); [|congruence]. destruct V1 as (n1 & N1 & ->), V2 as (n2 & N2 & ->). congruence. }
        rewrite D, Dy, concat_app, !len_app, Z. cbn [concat]. rewrite app_nil_r. lia.
      - exists r. split; [exact S|]. destruct ts as [|x ts].
        + injection Hw as <-. destruct recs0; [|contradiction]. rewrite D. destruct Rd as (R0 & _ & _ & _ & Mn). rewrite R0, (Mn Mo).
          cbn [concat app]. rewrite !app_nil_r, !len_app, !len_bin_block. lia.
        + injection Ets as <- <-.
          destruct Dy as [([My|My] & _)|(t2 & ts2 & _ & Ey & Cmy & Dy)]; [contradiction|discriminate|]. injection Ey as <- <-.
          assert (Eq : o_bh sx = o_bh sy /\ len (o_sbuf sx) = len (o_sbuf sy)).
          { cbn [write_traces app] in Hw, Hw2. apply bind_ok in Hw as (sa & Ea1 & Hw). apply bind_ok in Hw2 as (sb & Ea2 & Hw2).
            rewrite Ea1 in Ea2. injection Ea2 as <-. rewrite write_trace_body in Ea1. apply bind_ok in Ea1 as (sm & Em1 & Em2).
            destruct Rd as (R0 & R1 & R2 & R3 & R4).
            assert (E1' : set_min p (o_min s) (t_hdr x) s = Ok sm) by (destruct (o_min s); [contradiction|exact Em1..]).
            apply set_min_inv in E1' as [[_ KK]|(_ & CC & n & si & Gn & Hn & Ebb & _ & _ & Er & Ew)]; [lia|].
            rewrite (R4 Mo), app_nil_r in R0.
            destruct (write_bin_header_mid _ _ _ _ (first_text t0) (bin_block (o_endian s) b) [] ltac:(rewrite app_nil_r; exact R0) R1 (len_bin_block _ _) Ew) as [D1 P1].
            rewrite app_nil_r in D1.
            assert (A1 : at_end (o_file sm)) by (unfold at_end; rewrite P1, D1, len_app, len_bin_block, R1; reflexivity).
            apply write_body_inv in Em2 as (rr & SS & DD & AA & CC2 & BB); [|exact A1].
            assert (P2 : o_first sa < fpos (o_file sa)).
            { assert (o_first sa = o_first s) as ->.
              { destruct CC as (_&_&_&_&_&CC&_), CC2 as (_&_&_&_&_&CC2&_). congruence. }
              rewrite R3. unfold at_end in R2, AA. rewrite R2, AA, DD, D1, R0, !len_app, !len_bin_block.
              apply stored_len in SS. lia. }
            apply write_none in Hw as (_ & _ & _ & _ & _ & Bw); auto.
            apply write_none in Hw2 as (_ & _ & _ & _ & _ & Bw2); auto.
            split; [congruence|].
            destruct Cm as (m1 & z1 & M1 & _ & _ & _ & _ & M2), Cmy as (m2 & z2 & N1 & _ & _ & _ & _ & N2).
            apply resize_buf_inv in M2 as [M2 _]. apply resize_buf_inv in N2 as [N2 _]. congruence. }
          destruct Eq as [Eq1 Eq2].
          assert (Lsy : len (o_sbuf sy) <= p_max_alloc p) by congruence.
          assert (Gy : o_good p sy).
          { pose proof Cmy as (n & si & _ & _ & _ & E1 & _). exact (good_min p s sy si _ G C1y E1). }
          assert (HSy : safe_layouts (o_maps sy)) by (destruct C1y as (C1y & _); rewrite C1y, Em; exact HS).
          assert (Z : len (concat recsy) = len (concat recs0)).
          { pose proof (stored_all_records p sy Gy HSy HA2 _ _ _ Lsy SAy) as F1.
            pose proof (stored_all_records p sx G1 HS1 HA2 _ _ _ Lsb SA0) as F2.
            assert (Q1 : o_var sy = o_var sx) by (destruct C1y as (_&_&_&_&_&_&_&_&C1y); congruence).
            assert (Q2 : o_bps sy = o_bps sx) by (destruct C1y as (_&_&_&_&C1y&_); congruence).
            assert (Q3 : add_count sy = add_count sx).
            { unfold add_count. rewrite Eq1. destruct C1y as (_&_&_&_&_&_&_&C1y&_). rewrite C1y, C18. reflexivity. }
            rewrite Q1, Q2, Q3, Eq2 in *. rewrite <- Eq2 in *.
            clear - F1 F2. revert F1 F2. generalize (x :: ts). intros l F1 F2. revert recs0 F2.
            induction F1 as [|y r1 xs rs (a1 & R1 & V1) _ IH]; intros recs0 F2; inversion F2 as [|? r2 ? rs2 (a2 & R2 & V2) F2']; subst; [reflexivity|].
            cbn [concat]. rewrite !len_app, (IH _ F2'), (is_record_len _ _ _ _ _ _ _ _ R1), (is_record_len _ _ _ _ _ _ _ _ R2).
            destruct (o_var sx); [|congruence]. destruct V1 as (n1 & N1 & ->), V2 as (n2 & N2 & ->). congruence. }
          rewrite D, Dy, concat_app, !len_app, !len_bin_block, Z. cbn [concat]. rewrite app_nil_r. lia. }
    destruct Y as (r' & S' & Y). rewrite (the_record_fun _ _ _ _ _ _ _ _ S S'). exact Y. }
  rewrite X, len_app in Lr. lia.
Qed.

(** Samples that are in the record fit the sample area. *)
Lemma is_record_fits p e fmt ls n decl t r : 
  is_record p e fmt ls n (decl * sample_width fmt) t r -> len (t_smp t) <= decl.
Proof.
  intros (bs & smps & pad & _ & _ & _ & F & A). destruct (t_smp t) as [|d ds] eqn:Et.
  { inversion F; subst. rewrite len_app in A. change (len (concat [])) with 0 in A. pose proof (len_nonneg pad).
    assert (0 < sample_width fmt). { unfold sample_width. repeat match goal with |- context [match ?x with _ => _ end] => destruct x end; lia. }
    change (len []) with 0. nia. }
  assert (W : exists w, sample_writer p e fmt = Ok w) by (inversion F as [|? ? ? ? (w & W & _) _]; eauto).
  destruct W as (w & W). rewrite <- Et in *.
  destruct (bps_agree _ (writer_fmt _ _ _ _ W)) as (k & _ & B & Hk).
  pose proof (width_bps _ _ B (writer_fmt _ _ _ _ W)) as Wd.
  assert (E : mapM w (t_smp t) = Ok smps).
  { apply mapM_ok. clear - F W. induction F as [|x y xs ys (w' & W' & H) _ IH]; constructor; auto. congruence. }
  destruct (encs_len _ _ _ _ _ _ _ W B E) as (_ & L & _). rewrite len_app, L in A. pose proof (len_nonneg pad). nia.
Qed.
