(** Lemmas for C62: traces. *)
From Coq Require Import Reals.
From Verif Require Import BaseFacts Platform Fp FpSpec TraceHdr SegyTypes SegyCodec CodecSpec CodecFacts SampleFacts
     LayoutSpec LayoutFacts HdrFacts ISegy OSegy OpenFacts BinFacts WriterFacts RoundSpec ReaderFacts RoundFacts
     ReadSpec ReadFacts ReadFacts2 ReadFacts3 SegyDecSpec SegyDecFacts SegyDecFacts2 SegyDecFacts3 FileSpec FileFacts
     SegyEncSpec SegyEncFacts SegyEncFacts2 SegyEncFacts3 SegyEncFacts4 CopySpec CopyFacts CopyFacts2.
Local Open Scope Z_scope.

(** ** The header *)
Lemma field_kept p e t l v : bytes l -> len l = width t -> int_field t <> None -> shown (ord e) t l v ->
  wr_field p e t (Some v) = Ok l.
Proof.
  intros B L I S. pose proof (unsigned_sval (ord e) l B) as U. pose proof (unsigned_uval (ord e) l B) as V.
  unfold len in L. unfold wr_field.
  destruct t; cbn [width shown int_field] in *; try congruence; subst v; cbn [bind get_int]; f_equal;
    lazymatch type of L with Z.of_nat _ = ?k => let n := eval vm_compute in (Z.to_nat k) in
      assert (Ln : List.length l = n) by lia end;
    first [apply wr24_back; [exact B|exact Ln|rewrite <- Ln; assumption] | rewrite <- Ln; apply wr_back; assumption].
Qed.

Lemma rev_nodup {A} (l : list A) : NoDup l -> NoDup (rev l).
Proof. apply NoDup_rev. Qed.

Lemma find_name k : forall l en, NoDup (names l) -> In en l -> e_name en = k ->
  find (fun f : Z * entry => String.eqb (e_name (snd f)) k) (map (pair 0) l) = Some (0, en).
Proof.
  induction l as [|a l IH]; intros en N I E; [contradiction|]. cbn [map find snd]. inversion N as [|? ? N1 N2]; subst.
  destruct I as [->|I].
  - rewrite String.eqb_refl. reflexivity.
  - destruct (String.eqb_spec (e_name a) (e_name en)) as [Q|Q]; [|apply IH; auto].
    exfalso. apply N1. unfold names. rewrite Q. apply in_map. exact I.
Qed.
Lemma only_field nm l ls en : NoDup (names l) -> In en l ->
  field_named (e_name en) (fields_of ((nm, l) :: ls) 1) = Some (0, en).
Proof.
  intros N I. unfold field_named. rewrite fields_of_cons. change (fields_of ls 0) with (@nil (Z * entry)). cbn [map].
  rewrite app_nil_r, <- map_rev. apply find_name; [|rewrite <- in_rev; exact I|reflexivity].
  unfold names in *. rewrite map_rev. apply NoDup_rev. exact N.
Qed.

Lemma block_fun p e l h a b : safe_layout l -> is_block p e (Some l) h a -> is_block p e (Some l) h b -> a = b.
Proof.
  intros (Sa & _) (La & Fa & Za) (Lb & Fb & Zb). apply nth_error_ext. intros i.
  destruct (Z.lt_ge_cases (Z.of_nat i) 240) as [H|H].
  - destruct (in_dec Z.eq_dec 1 (map (fun en => if (e_off en <=? Z.of_nat i) && (Z.of_nat i <? e_off en + width (e_type en)) then 1 else 0) l)) as [C|C].
    + apply in_map_iff in C as (en & C & I). destruct (_ && _) eqn:Q; [|discriminate].
      pose proof (Fa en I) as A. rewrite (Fb en I) in A. injection A as A. destruct (Sa en I) as (I1 & I2).
      pose proof (nth_slice (e_off en) (width (e_type en)) a (Z.of_nat i - e_off en) ltac:(lia) ltac:(lia)) as X.
      pose proof (nth_slice (e_off en) (width (e_type en)) b (Z.of_nat i - e_off en) ltac:(lia) ltac:(lia)) as Y.
      rewrite <- A, Y in X. replace (Z.to_nat (e_off en + (Z.of_nat i - e_off en))) with i in X by lia. auto.
    + assert (N : ~ covered l (Z.of_nat i)).
      { intros (en & I & Q). apply C. apply in_map_iff. exists en. split; [|exact I].
        replace (_ && _) with true by lia. reflexivity. }
      pose proof (Za (Z.of_nat i) ltac:(lia) N) as X. pose proof (Zb (Z.of_nat i) ltac:(lia) N) as Y.
      rewrite Nat2Z.id in X, Y. congruence.
  - unfold len in *. rewrite (proj2 (nth_error_None a i)), (proj2 (nth_error_None b i)) by lia. reflexivity.
Qed.

Lemma header_kept p e b nm l ls c pos h ns : bytes c -> safe_layout l -> NoDup (names l) -> integers l ->
  bh_max_num_add_tr_headers b = 0 -> 0 <= pos -> head_at (ord e) b ((nm, l) :: ls) c pos h ns ->
  (forall i, 0 <= i < 240 -> ~ covered l i -> nth_error c (Z.to_nat (pos + i)) = Some 0) ->
  pos + 240 <= len c /\ hdr_block p e l h = Ok (slice pos 240 c).
Proof.
  intros B S N Ints M P (H & L & _) T. unfold block_count in *. rewrite M in *. change (Z.max 0 (0 + 1)) with 1 in *.
  change (Z.to_nat 1) with 1%nat in H. rewrite len_cons in L. pose proof (len_nonneg ls) as L0.
  replace (Z.min 1 (1 + len ls)) with 1 in L by lia. specialize (L ltac:(lia)). split; [lia|].
  assert (Lb : len (slice pos 240 c) = 240) by (apply slice_length; lia).
  assert (F : forall en, In en l -> wr_field p e (e_type en) (hget h (e_name en)) = Ok (slice (e_off en) (width (e_type en)) (slice pos 240 c))).
  { intros en I. destruct (proj1 S en I) as (I1 & I2). pose proof (width_pos (e_type en)) as W.
    pose proof (only_field nm l ls en N I) as O.
    assert (K : exists v, hget h (e_name en) = Some v /\ shown (ord e) (e_type en) (slice (pos + e_off en) (width (e_type en)) c) v).
    { destruct (H (e_name en)) as [K|(_ & K1 & K2 & _)].
      - unfold hdr_says in K. rewrite O in K. destruct K as (v & K & Sv). exists v. split; [exact K|].
        replace (pos + 240 * 0 + e_off en) with (pos + e_off en) in Sv by lia. exact Sv.
      - rewrite <- K1, O in K2. discriminate. }
    destruct K as (v & -> & Sv). rewrite slice_slice by lia. apply field_kept; [apply bytes_slice, B| |apply Ints, I|exact Sv].
    apply slice_length; lia. }
  assert (G : is_ok (wr_fields p e l h (zeros TR_HEADER_SIZE)) = true).
  { apply wr_fields_ok; [apply S| |reflexivity]. intros en I. rewrite (F en I). reflexivity. }
  unfold hdr_block. destruct (wr_fields p e l h (zeros TR_HEADER_SIZE)) as [blk| |] eqn:E; try discriminate. f_equal.
  destruct (hdr_block_spec p e l h blk S E) as (K1 & _ & K2 & K3).
  apply (block_fun p e l h); [exact S|split; [exact K1|split; assumption]|]. split; [exact Lb|]. split; [exact F|].
  intros i Hi Nc. rewrite nth_slice by lia. apply T; assumption.
Qed.

(** ** The samples *)
Lemma samples_kept p e fmt r w c : p_left_first p = true -> sample_reader p e fmt = Ok r -> bytes c ->
  code_width fmt = Some w -> 1 <= w -> forall ds pos, 0 <= pos ->
  (0 < len ds -> pos + w * len ds <= len c) ->
  (forall i d, nth_error ds i = Some d -> sample_says (ord e) fmt (slice (pos + w * Z.of_nat i) w c) d) ->
  (forall i, 0 <= i < len ds -> keeps p (ord e) fmt (slice (pos + w * i) w c)) ->
  exists smps, Forall2 (sample_as p e fmt) ds smps /\ concat smps = slice pos (w * len ds) c.
Proof.
  intros Hp R B W W1. induction ds as [|d ds IH]; intros pos P L S K.
  - exists []. split; [constructor|]. change (len (@nil Z)) with 0. rewrite Z.mul_0_r. unfold slice. reflexivity.
  - rewrite len_cons in *. pose proof (len_nonneg ds) as L0. specialize (L ltac:(lia)).
    destruct (IH (pos + w)) as (smps & F & E).
    + lia.
    + intros _. nia.
    + intros i x Hx. specialize (S (Datatypes.S i) x Hx). replace (pos + w + w * Z.of_nat i) with (pos + w * Z.of_nat (Datatypes.S i)) by nia. exact S.
    + intros i Hi. specialize (K (1 + i) ltac:(lia)). replace (pos + w + w * i) with (pos + w * (1 + i)) by nia. exact K.
    + exists (slice pos w c :: smps). split.
      * constructor; [|exact F]. specialize (S 0%nat d eq_refl). specialize (K 0 ltac:(lia)).
        replace (pos + w * Z.of_nat 0) with pos in S by lia. replace (pos + w * 0) with pos in K by lia.
        eapply sample_kept; try eassumption; [apply bytes_slice, B|]. rewrite W. f_equal. symmetry. apply slice_length; nia.
      * cbn [concat]. rewrite E, <- slice_cut by lia. f_equal. lia.
Qed.

Lemma samples_mapM p e fmt ds smps : Forall2 (sample_as p e fmt) ds smps -> forall w, sample_writer p e fmt = Ok w -> mapM w ds = Ok smps.
Proof.
  intros F w W. apply mapM_ok. induction F as [|d l ds smps (w' & W' & E) _ IH]; constructor; auto. congruence.
Qed.

(** ** One trace *)
Lemma copy_trace p s nm l ls b c pos t next r :
  p_left_first p = true -> p_max_alloc p < 2 ^ 63 -> bytes c -> safe_layout l -> NoDup (names l) -> integers l ->
  o_min s = MNone -> o_add s = false -> o_maps s = (nm, l) :: ls -> o_good p s ->
  sample_reader p (o_endian s) (bh_format_code b) = Ok r ->
  bh_format_code (o_bh s) = bh_format_code b -> o_bps s = sample_width (bh_format_code b) ->
  o_var s = negb (same_length b) ->
  (o_var s = false -> len (o_sbuf s) = declared b * o_bps s) ->
  bh_max_num_add_tr_headers b = 0 -> 0 <= pos ->
  trace_at (ord (o_endian s)) b ((nm, l) :: ls) c pos t next ->
  sample_width (bh_format_code b) * len (t_smp t) <= p_max_alloc p ->
  (forall i, 0 <= i < 240 -> ~ covered l i -> nth_error c (Z.to_nat (pos + i)) = Some 0) ->
  (forall i, 0 <= i < len (t_smp t) -> keeps p (ord (o_endian s)) (bh_format_code b)
     (slice (pos + 240 + sample_width (bh_format_code b) * i) (sample_width (bh_format_code b)) c)) ->
  at_end (o_file s) ->
  exists s', write_trace p s t = Ok s' /\ fdata (o_file s') = fdata (o_file s) ++ slice pos (next - pos) c /\
    at_end (o_file s') /\ same_cfg s s' /\ o_bh s' = o_bh s /\
    (o_var s = false -> len (o_sbuf s') = declared b * o_bps s) /\
    next = pos + 240 + sample_width (bh_format_code b) * len (t_smp t).
Proof.
  intros Hp A B S N Ints Mn Ad Mp G R Fm Bp Va Sb M0 P T Al Ti Ke En.
  destruct T as (w & Cw & H & Sy & Nx & Le). cbv zeta in *.
  assert (Ww : w = sample_width (bh_format_code b)).
  { clear - Cw. unfold code_width in Cw. unfold sample_width. destruct (bh_format_code b) as [|q|q]; try discriminate.
    do 5 (destruct q as [q|q|]; try discriminate; try congruence). }
  assert (W1 : 1 <= w) by (clear - Ww; subst w; unfold sample_width; destruct (bh_format_code b) as [|q|q]; try lia; do 5 (destruct q as [q|q|]; try lia)).
  rewrite <- Ww in *. unfold block_count in Nx, Sy. rewrite M0 in Nx, Sy. change (240 * Z.max 0 (0 + 1)) with 240 in Nx, Sy.
  destruct (header_kept p (o_endian s) b nm l ls c pos (t_hdr t) _ B S N Ints M0 P H Ti) as (Lh & Eh).
  destruct (samples_kept p (o_endian s) _ r w c Hp R B Cw W1 (t_smp t) (pos + 240) ltac:(lia)) as (smps & F & Ec).
  { intros K. specialize (Le K). lia. }
  { exact Sy. } { exact Ke. }
  pose proof (len_nonneg (t_smp t)) as L0.
  assert (Lc : len (slice (pos + 240) (w * len (t_smp t)) c) = w * len (t_smp t)).
  { destruct (Z.eq_dec (len (t_smp t)) 0) as [Z0|Z0].
    - rewrite Z0, Z.mul_0_r. unfold slice. reflexivity.
    - apply slice_length; [lia|nia|]. specialize (Le ltac:(lia)). lia. }
  assert (V : exists sb1, (if o_var s then var_buf p (t_hdr t) (o_bps s) (o_sbuf s) else Ok (o_sbuf s)) = Ok sb1 /\ len sb1 = w * len (t_smp t)).
  { destruct H as (_ & _ & Hn). rewrite Va. destruct (same_length b); cbn [negb].
    - eexists. split; [reflexivity|]. rewrite Sb by (rewrite Va; reflexivity). rewrite Hn, Bp. lia.
    - unfold var_buf, get_req. rewrite Hn. cbn [bind get_int]. rewrite Bp.
      rewrite sarith_ok by (unfold in_i; change (64 - 1) with 63; lia). cbn [bind]. cbv zeta.
      rewrite wrapu_small by lia. destruct (Z.eqb_spec (len (t_smp t) * w) (len (o_sbuf s))) as [Q|Q].
      + eexists. split; [reflexivity|]. lia.
      + unfold resize_buf, resize_to. cbv zeta. rewrite wrapu_small by lia.
        replace (len (t_smp t) * w <=? p_max_alloc p) with true by lia. cbn [bind]. eexists. split; [reflexivity|].
        unfold len. rewrite app_length, firstn_length, repeat_length. unfold len in *. lia. }
  destruct V as (sb1 & V & Lv).
  destruct G as ((wr & Wr) & _).
  assert (Fs : fill_samples p (o_endian s) (bh_format_code (o_bh s)) (t_smp t) sb1 = Ok (concat smps)).
  { unfold fill_samples. rewrite Wr. cbn [bind]. rewrite Fm in Wr. rewrite (samples_mapM _ _ _ _ _ F wr Wr). cbn [bind].
    unfold upd. rewrite Ec, Lc, Lv, !Z.leb_refl. cbn [andb]. change (Z.to_nat 0) with 0%nat. cbn [firstn app].
    rewrite skipn_all2 by (unfold len in *; lia). rewrite app_nil_r. reflexivity. }
  rewrite write_trace_body, Mn. cbn [bind].
  assert (Bd : exists s', write_body p s t = Ok s').
  { unfold write_body, write_trace_header. rewrite Mp, Eh, Ad. cbn [bind]. rewrite V. cbn [bind]. rewrite Fs. cbn [bind]. eauto. }
  destruct Bd as (s' & Bd). exists s'. split; [exact Bd|].
  apply write_body_inv in Bd as (rec & St & D & A' & C & Bh); [|exact En].
  destruct St as (hb & ab & -> & _ & _ & St & sb2 & V2 & F2). rewrite Mp in St. destruct St as (E1 & E2).
  unfold add_count in E2. rewrite Ad in E2. cbn [add_blocks] in E2. destruct ls; injection E2 as <-.
  all: rewrite Eh in E1; injection E1 as <-.
  all: assert (sb2 = sb1) by (destruct (o_var s); congruence); subst sb2.
  all: rewrite F2 in Fs; injection Fs as Fs.
  all: split; [|split; [exact A'|split; [exact C|split; [exact Bh|split; [|lia]]]]].
  all: try (rewrite D, Fs, Ec; cbn [app]; f_equal; rewrite <- slice_cut by nia; f_equal; lia).
  all: intros V0; rewrite Fs, Ec, Lc; rewrite V0 in V; injection V as V; rewrite <- Lv, <- V; apply Sb, V0.
Qed.

(** ** All traces *)
Definition fit (p : platform) (fmt : Z) (t : trace) : Prop := sample_width fmt * len (t_smp t) <= p_max_alloc p.

Lemma trace_next o b ls c pos t next : bh_max_num_add_tr_headers b = 0 -> ls <> [] ->
  trace_at o b ls c pos t next -> pos + 240 <= next <= len c /\
  next = pos + 240 + sample_width (bh_format_code b) * len (t_smp t).
Proof.
  intros M N (w & Cw & (_ & L & _) & _ & Nx & Le). cbv zeta in *. unfold block_count in *. rewrite M in *.
  change (Z.max 0 (0 + 1)) with 1 in *. destruct ls as [|a ls]; [congruence|]. rewrite len_cons in L. pose proof (len_nonneg ls) as L0.
  replace (Z.min 1 (1 + len ls)) with 1 in L by lia. specialize (L ltac:(lia)).
  assert (Ww : w = sample_width (bh_format_code b) /\ 1 <= w).
  { clear - Cw. unfold code_width in Cw. unfold sample_width. destruct (bh_format_code b) as [|q|q]; try discriminate.
    do 5 (destruct q as [q|q|]; try discriminate; try (injection Cw as <-; split; [reflexivity|lia])). }
  destruct Ww as (Ww & W1). rewrite <- Ww. pose proof (len_nonneg (t_smp t)) as L1.
  destruct (Z.eq_dec (len (t_smp t)) 0) as [Z0|Z0]; [rewrite Z0 in *; lia|]. specialize (Le ltac:(lia)). nia.
Qed.

Lemma copy_traces p nm l ls b c r e : p_left_first p = true -> p_max_alloc p < 2 ^ 63 -> bytes c -> safe_layout l ->
  NoDup (names l) -> integers l -> sample_reader p e (bh_format_code b) = Ok r -> bh_max_num_add_tr_headers b = 0 ->
  forall ts s pos next, o_endian s = e ->
  o_min s = MNone -> o_add s = false -> o_maps s = (nm, l) :: ls -> o_good p s ->
  bh_format_code (o_bh s) = bh_format_code b -> o_bps s = sample_width (bh_format_code b) ->
  o_var s = negb (same_length b) -> (o_var s = false -> len (o_sbuf s) = declared b * o_bps s) -> 0 <= pos ->
  items_at (ord e) b ((nm, l) :: ls) c pos (map Full ts) next -> Forall (fit p (bh_format_code b)) ts ->
  tidy p (ord e) (bh_format_code b) l c pos ts -> at_end (o_file s) ->
  exists s', write_traces p s ts = Ok s' /\ fdata (o_file s') = fdata (o_file s) ++ slice pos (next - pos) c /\
    at_end (o_file s') /\ o_bh s' = o_bh s /\ pos <= next.
Proof.
  intros Hp A B Sf N Ints R M0. induction ts as [|t ts IH]; intros s pos next Ee Mn Ad Mp G Fm Bp Va Sb P It Ft Ti En.
  - inversion It; subst. exists s. cbn [write_traces]. split; [reflexivity|]. rewrite Z.sub_diag. unfold slice. change (Z.to_nat 0) with 0%nat.
    cbn [firstn]. rewrite app_nil_r. split; [reflexivity|]. split; [exact En|]. split; [reflexivity|lia].
  - cbn [map] in It. inversion It as [|? x mid l0 nx T It']; subst. cbn [item_at] in T.
    inversion Ft as [|? ? F1 F2]; subst. destruct Ti as (T1 & T2 & T3).
    assert (Nn : (nm, l) :: ls <> []) by discriminate.
    pose proof (trace_next _ _ _ _ _ _ _ M0 Nn T) as (Hm & Em).
    destruct (copy_trace p s nm l ls b c pos t mid r) as (s1 & W & D & A1 & C & Bh & Sb1 & _); try assumption.
    pose proof C as (C1 & C2 & C3 & C4 & C5 & C6 & C7 & C8 & C9).
    rewrite <- Em in T3.
    destruct (IH s1 mid next) as (s2 & W2 & D2 & A2 & Bh2 & Hn); try congruence.
    + unfold o_good. rewrite Bh, C4, C5. exact G.
    + rewrite C9, C5. exact Sb1.
    + lia.
    + exists s2. cbn [write_traces]. rewrite W. cbn [bind]. split; [exact W2|]. split; [|split; [exact A2|split; [congruence|lia]]].
      rewrite D2, D, <- app_assoc. f_equal. replace mid with (pos + (mid - pos)) at 2 by lia. rewrite <- slice_cut by lia. f_equal. lia.
Qed.

Lemma all_traces p : p_left_first p = true -> p_max_alloc p < 2 ^ 63 -> forall fuel s ts s', r_inv p s ->
  bytes (fdata (i_file s)) -> short_count (i_maps s) -> i_spt s = declared (i_bh s) ->
  read_all p fuel s = Ok (ts, s') ->
  items_at (ord (i_endian s)) (i_bh s) (i_maps s) (fdata (i_file s)) (i_cur s) (map Full ts) (i_eod s) /\
  Forall (fit p (bh_format_code (i_bh s))) ts.
Proof.
  intros Hp A. induction fuel as [|fuel IH]; intros s ts s' I B Sc Sp H; cbn [read_all] in H; unfold has_trace in H;
    destruct (Z.eqb_spec (i_cur s) (i_eod s)) as [Q|Q]; cbn [negb] in H; try discriminate.
  1,2: injection H as <- <-; rewrite Q; split; constructor.
  apply bind_ok in H as ([t s1] & E & H). apply bind_ok in H as ([ts1 s2] & E2 & H). injection H as <- <-.
  pose proof (read_trace_says _ _ _ _ Hp A I B Sc Sp E) as T.
  pose proof (read_trace_inv _ _ _ _ A I E) as (I1 & SR & Cu & _ & Le & _).
  destruct SR as (R1 & R2 & R3 & R4 & R5 & R6 & R7 & R8 & R9 & R10).
  assert (B1 : bytes (fdata (i_file s1))) by (rewrite R10; exact B).
  assert (Sc1 : short_count (i_maps s1)) by (rewrite R2; exact Sc).
  destruct (IH s1 ts1 s2 I1 B1 Sc1 ltac:(congruence) E2) as (X1 & X2).
  rewrite R1, R2, R5, R9, R10 in X1. rewrite R1 in X2. split.
  - cbn [map]. econstructor; [exact T|exact X1].
  - constructor; [|exact X2]. unfold fit. pose proof I1 as (_ & _ & _ & _ & _ & _ & Bz & _).
    destruct T as (w & Cw & _ & _ & Nx & _). cbv zeta in Nx.
    assert (Hb : header_bytes s = 240 * block_count (i_bh s)) by (unfold header_bytes, block_count; lia).
    assert (Ww : w = sample_width (bh_format_code (i_bh s))).
    { clear - Cw. unfold code_width in Cw. unfold sample_width. destruct (bh_format_code (i_bh s)) as [|q|q]; try discriminate.
      do 5 (destruct q as [q|q|]; try discriminate; try congruence). }
    rewrite <- Ww. lia.
Qed.
