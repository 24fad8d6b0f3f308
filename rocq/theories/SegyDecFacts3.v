(** Lemmas about decoding SEG-Y traces (C57). *)
From Coq Require Import Reals.
From Verif Require Import BaseFacts Platform Fp FpSpec TraceHdr SegyTypes SegyCodec CodecFacts
     SampleFacts HdrFacts ISegy OpenFacts CodecSpec LayoutSpec LayoutFacts RoundSpec ReaderFacts ReadSpec
     ReadFacts ReadFacts2 ReadFacts3 SegyDecSpec SegyDecFacts SegyDecFacts2.
Local Open Scope Z_scope.

Lemma code_width_bps p e fmt r w : sample_reader p e fmt = Ok r -> bytes_per_sample fmt = Some w -> code_width fmt = Some w.
Proof.
  intros H W. pose proof (reader_fmt _ _ _ _ H) as Sup. unfold supported in Sup. cbn [In] in Sup.
  repeat (destruct Sup as [<-|Sup]); try contradiction; exact W.
Qed.

Lemma fields_of_in k ls n i en : field_named k (fields_of ls n) = Some (i, en) ->
  e_name en = k /\ exists nm l, In (nm, l) ls /\ In en l.
Proof.
  intros H. unfold field_named in H. apply find_some in H as (H & E). apply String.eqb_eq in E. split; [exact E|].
  apply in_rev in H. unfold fields_of in H. apply in_flat_map in H as (j & _ & H).
  apply in_map_iff in H as (x & X & H). injection X as _ ->.
  destruct (nth_error ls j) as [[nm l]|] eqn:N; [|contradiction]. exists nm, l. split; [eapply nth_error_In; exact N|exact H].
Qed.

Lemma sval_small o l : bytes l -> len l <= 4 -> - 2 ^ 31 <= sval o l < 2 ^ 32.
Proof.
  intros B L. unfold sval, as_signed. pose proof (uval_range o l B) as U. rewrite Z.mod_small by exact U.
  assert (256 ^ len l <= 2 ^ 32) by (change (2 ^ 32) with (256 ^ 4); apply Z.pow_le_mono_r; lia).
  change (256 ^ Z.of_nat (List.length l)) with (256 ^ len l).
  destruct (Z.ltb_spec (2 * uval o l) (256 ^ len l)); lia.
Qed.

Lemma shown_small o t l n : bytes l -> len l <= 4 -> shown o t l (VInt n) -> - 2 ^ 31 <= n < 2 ^ 32.
Proof.
  intros B L S. pose proof (sval_small o l B L) as H1. pose proof (uval_range o l B) as H2.
  assert (256 ^ len l <= 2 ^ 32) by (change (2 ^ 32) with (256 ^ 4); apply Z.pow_le_mono_r; lia).
  destruct t; cbn [shown] in S; try (destruct S as (d & S & _); discriminate); try discriminate; injection S as ->; lia.
Qed.

Lemma hidx_get h k v h' : hidx h k = (v, h') -> hget h' k = Some v /\ (forall k', k' <> k -> hget h' k' = hget h k') /\
  match hget h k with Some v0 => v0 = v | None => v = VInt 0 end.
Proof.
  unfold hidx. destruct (hget h k) as [v0|] eqn:E; intros H; injection H as <- <-.
  - repeat split; auto.
  - split; [apply hget_hset_same|]. split; [|reflexivity]. intros k' N. apply hget_hset_other. exact N.
Qed.

(** Blocks with fields are inside the file. *)
Lemma rd_headers_inside p e : forall ls n f h h' f', rd_headers p e ls n f h = Ok (h', f') -> 0 <= fpos f ->
  0 < Z.min n (len ls) -> fpos f + 240 * Z.min n (len ls) <= len (fdata f).
Proof.
  induction ls as [|[nm l] ls IH]; intros n f h h' f' H P L; cbn [rd_headers] in H.
  { unfold len in L. cbn [List.length] in L. lia. }
  replace (n <=? 0) with false in H by lia. apply bind_ok in H as ([b f1] & E & H).
  destruct (fread_ok 240 f b f1 ltac:(lia) E P) as (Lb & Sb & D & Q).
  apply bind_ok in H as (h1 & _ & H).
  assert (Ll : len ((nm, l) :: ls) = 1 + len ls) by (unfold len; cbn [List.length]; lia). rewrite Ll in *.
  assert (Fi : fpos f + 240 <= len (fdata f)).
  { unfold fread in E. change (TR_HEADER_SIZE =? 0) with false in E. cbv iota in E. change TR_HEADER_SIZE with 240 in E.
    destruct (Z.leb_spec (fpos f + 240) (len (fdata f))); [assumption|discriminate]. }
  destruct (Z.le_gt_cases (Z.min (n - 1) (len ls)) 0) as [M|M].
  - replace (Z.min n (1 + len ls)) with 1; [lia|]. pose proof (len_nonneg ls). lia.
  - specialize (IH _ _ _ _ _ H ltac:(lia) M). rewrite D in IH. lia.
Qed.

Lemma trc_header_says p s h f1 : p_left_first p = true -> r_inv p s -> bytes (fdata (i_file s)) -> read_trc_header p s = Ok (h, f1) ->
  (forall k, hdr_says (ord (i_endian s)) (fdata (i_file s)) (i_maps s) (Z.to_nat (block_count (i_bh s))) (i_cur s) k (hget h k)) /\
  (0 < Z.min (block_count (i_bh s)) (len (i_maps s)) ->
   i_cur s + 240 * Z.min (block_count (i_bh s)) (len (i_maps s)) <= len (fdata (i_file s))).
Proof.
  intros Hp I B E. pose proof I as (P & C & L & _). unfold read_trc_header in E. apply bind_ok in E as (n & En & E).
  unfold sarith in En. destruct (in_i _ _); [|discriminate]. injection En as <-. split.
  - intros k. pose proof (rd_headers_says p _ Hp _ _ _ _ _ _ E B ltac:(lia) L k) as X. unfold hdr_says, block_count.
    replace (Z.to_nat (Z.max 0 (bh_max_num_add_tr_headers (i_bh s) + 1))) with (Z.to_nat (bh_max_num_add_tr_headers (i_bh s) + 1)) by lia.
    rewrite P in X. destruct (field_named k _) as [[i en]|]; exact X.
  - intros M. pose proof (rd_headers_inside _ _ _ _ _ _ _ _ E ltac:(lia)) as X. rewrite P in X. unfold block_count in *. lia.
Qed.

(** The header of a trace of variable length. *)
Lemma head_var p s h f1 v h' : p_left_first p = true -> r_inv p s -> bytes (fdata (i_file s)) -> short_count (i_maps s) ->
  read_trc_header p s = Ok (h, f1) -> same_length (i_bh s) = false -> hidx h "SAMP_NUM" = (VInt v, h') ->
  head_at (ord (i_endian s)) (i_bh s) (i_maps s) (fdata (i_file s)) (i_cur s) h' v /\ - 2 ^ 31 <= v < 2 ^ 32.
Proof.
  intros Hp I B Sc E FX Hi. apply hidx_get in Hi as (G1 & G2 & G3).
  destruct (trc_header_says _ _ _ _ Hp I B E) as (HS & Ins).
  pose proof (HS "SAMP_NUM"%string) as HN. unfold head_at. cbv zeta. rewrite FX. unfold hdr_says in HN. split.
  - split.
    { intros k. destruct (String.eqb_spec k "SAMP_NUM") as [->|N]; [|rewrite (G2 k N); left; apply HS].
      unfold hdr_says in *. destruct (field_named "SAMP_NUM" _) as [[i en]|].
      - left. destruct HN as (x & Ev & Sv). exists x. split; [|exact Sv]. rewrite Ev in G3. congruence.
      - right. rewrite HN in G3. rewrite G1, G3. auto. }
    split; [exact Ins|exact G1].
  - destruct (field_named "SAMP_NUM" _) as [[i en]|] eqn:FN.
    + destruct HN as (x & Ev & Sv). rewrite Ev in G3. subst x.
      apply fields_of_in in FN as (Nm & nm & l & In1 & In2). pose proof (Sc nm l en In1 In2 Nm) as Wd.
      refine (shown_small _ _ _ _ (bytes_slice _ _ _ B) _ Sv).
      unfold slice, len. rewrite firstn_length. pose proof (width_pos (e_type en)). lia.
    + rewrite HN in G3. injection G3 as ->. lia.
Qed.

Lemma head_fix p s h f1 : p_left_first p = true -> r_inv p s -> bytes (fdata (i_file s)) ->
  read_trc_header p s = Ok (h, f1) -> same_length (i_bh s) = true ->
  head_at (ord (i_endian s)) (i_bh s) (i_maps s) (fdata (i_file s)) (i_cur s) h (declared (i_bh s)).
Proof.
  intros Hp I B E FX. destruct (trc_header_says _ _ _ _ Hp I B E) as (HS & Ins).
  unfold head_at. cbv zeta. rewrite FX. split; [left; apply HS|]. split; [exact Ins|reflexivity].
Qed.

Lemma wrap_prod n w : - 2 ^ 31 <= n < 2 ^ 32 -> 1 <= w <= 8 ->
  wrapu 64 (wrapu 64 n * w) = if n <? 0 then n * w + 2 ^ 64 else n * w.
Proof.
  intros Hn Hw. unfold wrapu. rewrite Z.mul_mod_idemp_l by lia. destruct (Z.ltb_spec n 0).
  - symmetry. apply Z.mod_unique with (q := -1); nia.
  - apply Z.mod_small. nia.
Qed.
Lemma wraps_prod n w : - 2 ^ 31 <= n < 2 ^ 32 -> 1 <= w <= 8 -> wraps 64 (wrapu 64 n * w) = n * w.
Proof.
  intros Hn Hw. pose proof (wrap_prod n w Hn Hw) as X. unfold wraps. unfold wrapu in X at 1.
  rewrite X. change (2 ^ (64 - 1)) with (2 ^ 63).
  destruct (Z.ltb_spec n 0); [destruct (Z.ltb_spec (n * w + 2 ^ 64) (2 ^ 63))|destruct (Z.ltb_spec (n * w) (2 ^ 63))]; nia.
Qed.

Lemma read_trace_says p s t s' : p_left_first p = true -> p_max_alloc p < 2 ^ 63 -> r_inv p s ->
  bytes (fdata (i_file s)) -> short_count (i_maps s) -> i_spt s = declared (i_bh s) ->
  read_trace p s = Ok (t, s') ->
  trace_at (ord (i_endian s)) (i_bh s) (i_maps s) (fdata (i_file s)) (i_cur s) t (i_cur s').
Proof.
  intros Hp A I B Sc Sp H. pose proof I as (P & C & L & (r & R) & Bp & I32 & Bf & Fx).
  pose proof (read_trace_inv _ _ _ _ A I H) as (_ & _ & Cu & _ & Le & _).
  pose proof (bps_range _ _ _ _ _ R Bp) as Hw.
  unfold read_trace in H. apply bind_ok in H as ([h f1] & E & H).
  pose proof (trc_header_inv _ _ _ _ I E) as (D1 & P1 & R1).
  unfold trace_at. cbv zeta. exists (i_bps s). split; [exact (code_width_bps _ _ _ _ _ R Bp)|].
  change (is_fixed (i_bh s)) with (same_length (i_bh s)) in *.
  unfold header_bytes in *. fold (block_count (i_bh s)) in *.
  destruct (same_length (i_bh s)) eqn:FX.
  - apply bind_ok in H as ([smp f2] & E2 & H). injection H as <- <-. cbn [t_hdr t_smp]. specialize (Fx eq_refl).
    cbn [i_bufsz i_set i_cur] in *.
    assert (Bf1 : bytes (fdata f1)) by (rewrite D1; exact B).
    destruct (smpls_says p s (i_bufsz s) f1 smp f2 Hp I Bf1 ltac:(lia) R1 ltac:(rewrite D1; exact L) E2) as (Ls & Ss).
    rewrite Fx, Z.div_mul in Ls by lia. rewrite Ls.
    split; [rewrite Sp; exact (head_fix _ _ _ _ Hp I B E FX)|]. split.
    { intros i d Hi. specialize (Ss i d Hi). rewrite P1, D1 in Ss. exact Ss. }
    split; [lia|]. intros Hn. apply Le. rewrite Fx. nia.
  - destruct (hidx h "SAMP_NUM") as [v h'] eqn:Hi.
    apply bind_ok in H as (n & En & H). cbv zeta in H. destruct v as [z|]; [|discriminate]. injection En as ->.
    destruct (head_var _ _ _ _ _ _ Hp I B Sc E FX Hi) as (HA & Hn).
    pose proof (wrapu_bound 64 (wrapu 64 n * i_bps s) ltac:(lia)) as W.
    rewrite (buf_want p (i_bufsz s) _ A Bf W) in H. rewrite (wrap_prod n (i_bps s) Hn Hw) in *.
    destruct (Z.leb_spec (if n <? 0 then n * i_bps s + 2 ^ 64 else n * i_bps s) (p_max_alloc p)) as [Al|Al]; [|discriminate].
    cbn [bind] in H. destruct (Z.ltb_spec n 0) as [N|N]; [nia|].
    apply bind_ok in H as ([smp f2] & E2 & H). injection H as <- <-. cbn [t_hdr t_smp].
    cbn [i_bufsz i_set i_cur] in *.
    assert (Bf1 : bytes (fdata f1)) by (rewrite D1; exact B).
    destruct (smpls_says p s (n * i_bps s) f1 smp f2 Hp I Bf1 ltac:(lia) R1 ltac:(rewrite D1; exact L) E2) as (Ls & Ss).
    rewrite Z.div_mul in Ls by lia. rewrite Ls. split; [exact HA|]. split.
    { intros i d Hi'. specialize (Ss i d Hi'). rewrite P1, D1 in Ss. exact Ss. }
    split; [lia|]. intros Hn0. apply Le. nia.
Qed.

Lemma read_header_says p s h s' : p_left_first p = true -> r_inv p s ->
  bytes (fdata (i_file s)) -> short_count (i_maps s) -> i_spt s = declared (i_bh s) ->
  read_header p s = Ok (h, s') ->
  item_at (ord (i_endian s)) (i_bh s) (i_maps s) (fdata (i_file s)) (i_cur s) (Head h) (i_cur s').
Proof.
  intros Hp I B Sc Sp H. pose proof I as (P & C & L & (r & R) & Bp & I32 & Bf & Fx).
  pose proof (bps_range _ _ _ _ _ R Bp) as Hw.
  unfold read_header in H. apply bind_ok in H as ([h1 f1] & E & H).
  pose proof (trc_header_inv _ _ _ _ I E) as (D1 & P1 & R1).
  change (is_fixed (i_bh s)) with (same_length (i_bh s)) in *. unfold header_bytes in *. fold (block_count (i_bh s)) in *.
  cbn [item_at]. exists (i_bps s). destruct (same_length (i_bh s)) eqn:FX.
  - rewrite sarith_ok in H by exact I32. cbn [bind] in H. apply bind_ok in H as (f2 & E2 & H). injection H as <- <-.
    apply fseek_cur_inv in E2 as (D2 & P2 & R2). cbn [i_set i_cur].
    exists (declared (i_bh s)). split; [exact (code_width_bps _ _ _ _ _ R Bp)|].
    split; [exact (head_fix _ _ _ _ Hp I B E FX)|]. rewrite <- Sp. lia.
  - destruct (hidx h1 "SAMP_NUM") as [v h'] eqn:Hi. apply bind_ok in H as (n & En & H).
    destruct v as [z|]; [|discriminate]. injection En as ->.
    destruct (head_var _ _ _ _ _ _ Hp I B Sc E FX Hi) as (HA & Hn).
    rewrite (wraps_prod n (i_bps s) Hn Hw) in H.
    apply bind_ok in H as (f2 & E2 & H). injection H as <- <-. apply fseek_cur_inv in E2 as (D2 & P2 & R2). cbn [i_set i_cur].
    exists n. split; [exact (code_width_bps _ _ _ _ _ R Bp)|]. split; [exact HA|]. lia.
Qed.

Lemma mixed_says p : p_left_first p = true -> p_max_alloc p < 2 ^ 63 -> forall ops s l s', r_inv p s ->
  bytes (fdata (i_file s)) -> short_count (i_maps s) -> i_spt s = declared (i_bh s) ->
  read_mixed p ops s = Ok (l, s') ->
  items_at (ord (i_endian s)) (i_bh s) (i_maps s) (fdata (i_file s)) (i_cur s) l (i_cur s').
Proof.
  intros Hp A. induction ops as [|op ops IH]; intros s l s' I B Sc Sp H; cbn [read_mixed] in H.
  { injection H as <- <-. constructor. }
  apply bind_ok in H as ([x s1] & E & H). apply bind_ok in H as ([l1 s2] & E2 & H). injection H as <- <-.
  assert (G : r_inv p s1 /\ same_reader s s1 /\
              item_at (ord (i_endian s)) (i_bh s) (i_maps s) (fdata (i_file s)) (i_cur s) x (i_cur s1)).
  { destruct op; apply bind_ok in E as ([z s1'] & E & X); injection X as <- ->.
    - destruct (read_trace_inv _ _ _ _ A I E) as (G1 & G2 & _). split; [exact G1|]. split; [exact G2|].
      exact (read_trace_says _ _ _ _ Hp A I B Sc Sp E).
    - destruct (read_header_inv _ _ _ _ I E) as (G1 & G2 & _). split; [exact G1|]. split; [exact G2|].
      exact (read_header_says _ _ _ _ Hp I B Sc Sp E). }
  destruct G as (I1 & S1 & X). econstructor; [exact X|].
  destruct S1 as (Q1 & Q2 & Q3 & Q4 & Q5 & Q6 & Q7 & Q8 & Q9 & Q10).
  specialize (IH s1 l1 s2 I1). rewrite Q1, Q2, Q5, Q7, Q10 in IH. exact (IH B Sc Sp E2).
Qed.

(** Reading goes through. *)
Lemma rd_headers_go p e : forall ls n f h, safe_layouts ls -> 0 <= fpos f -> fpos f + 240 * Z.max 0 n <= len (fdata f) ->
  len (fdata f) < 2 ^ 63 -> exists h' f', rd_headers p e ls n f h = Ok (h', f').
Proof.
  induction ls as [|[nm l] ls IH]; intros n f h S P L M; cbn [rd_headers];
    (destruct (Z.leb_spec n 0) as [N|N]; [eauto|]).
  - unfold fseek_cur, fseek. change TR_HEADER_SIZE with 240.
    replace ((0 <=? fpos f + n * 240) && (fpos f + n * 240 <? 2 ^ 63)) with true by lia. cbn [bind]. eauto.
  - destruct (fread TR_HEADER_SIZE f) as [[b f1]| |] eqn:E; change TR_HEADER_SIZE with 240 in E.
    + cbn [bind]. destruct (fread_ok 240 f b f1 ltac:(lia) E P) as (Lb & _ & D & Q).
      destruct (rd_fields_ok p e b l Lb (proj1 (S nm l (or_introl eq_refl))) h) as (h' & Eh & _). rewrite Eh. cbn [bind].
      apply IH; [intros a c K; apply (S a c); right; exact K|lia|rewrite D; lia|rewrite D; exact M].
    + exfalso. unfold fread in E. change (240 =? 0) with false in E. cbv iota in E.
      replace (fpos f + 240 <=? len (fdata f)) with true in E by lia. discriminate.
    + exfalso. exact (fread_not_ub _ _ E).
Qed.

Lemma smpls_go p s sz f : p_left_first p = true -> r_inv p s -> 0 <= sz -> 0 <= fpos f ->
  bytes (fdata f) -> fpos f + sz <= len (fdata f) -> exists smp f', read_smpls p s sz f = Ok (smp, f').
Proof.
  intros Hp (_ & _ & _ & (r & R) & W & _) Hs P B L. pose proof (bps_range _ _ _ _ _ R W) as Hw. unfold read_smpls.
  assert (E : exists b f1, fread sz f = Ok (b, f1)).
  { unfold fread. destruct (sz =? 0); [eauto|]. replace (fpos f + sz <=? len (fdata f)) with true by lia. eauto. }
  destruct E as (b & f1 & E). rewrite E, R. cbn [bind].
  destruct (fread_ok sz f b f1 Hs E P) as (Lb & Sb & _).
  pose proof (Z.mul_div_le sz (i_bps s) ltac:(lia)) as Q. pose proof (Z.div_pos sz (i_bps s) Hs ltac:(lia)) as Q0.
  destruct (prep_says p _ _ r (i_bps s) Hp R W (Z.to_nat (sz / i_bps s)) b) as (l & c' & K & _).
  { rewrite Sb. apply bytes_slice. exact B. } { lia. }
  rewrite K. cbn [bind]. eauto.
Qed.

Lemma trc_header_go p s : r_inv p s -> safe_layouts (i_maps s) -> add_ok (i_bh s) ->
  i_cur s + 240 * block_count (i_bh s) <= len (fdata (i_file s)) -> exists h f1, read_trc_header p s = Ok (h, f1).
Proof.
  intros I S Ad L. pose proof I as (P & C & Ln & _). unfold read_trc_header. rewrite sarith_ok.
  2:{ unfold add_ok in Ad. unfold in_i. change (32 - 1) with 31. lia. }
  cbn [bind]. apply rd_headers_go; [exact S|lia| |exact Ln]. unfold block_count in L. lia.
Qed.

Lemma int_shown o t l l' n v : shown o t l (VInt n) -> l = l' -> shown o t l' v -> v = VInt n.
Proof. intros A <- B. destruct t; cbn [shown] in *; try congruence; try (destruct A as (d & A & _); discriminate). Qed.

Lemma count_of p s h f1 n : p_left_first p = true -> r_inv p s -> bytes (fdata (i_file s)) ->
  read_trc_header p s = Ok (h, f1) ->
  (exists i en, field_named "SAMP_NUM" (fields_of (i_maps s) (Z.to_nat (block_count (i_bh s)))) = Some (i, en) /\
     shown (ord (i_endian s)) (e_type en) (slice (i_cur s + 240 * i + e_off en) (width (e_type en)) (fdata (i_file s))) (VInt n)) ->
  hidx h "SAMP_NUM" = (VInt n, h).
Proof.
  intros Hp I B E (i & en & FN & Sh). destruct (trc_header_says _ _ _ _ Hp I B E) as (HS & _).
  specialize (HS "SAMP_NUM"%string). unfold hdr_says in HS. rewrite FN in HS. destruct HS as (v & G & Sv).
  rewrite (int_shown _ _ _ _ _ _ Sh eq_refl Sv) in G. unfold hidx. rewrite G. reflexivity.
Qed.

Lemma read_go p s ns w : p_left_first p = true -> p_max_alloc p < 2 ^ 63 -> r_inv p s ->
  bytes (fdata (i_file s)) -> safe_layouts (i_maps s) -> add_ok (i_bh s) -> i_spt s = declared (i_bh s) ->
  complete_at (ord (i_endian s)) (i_bh s) (i_maps s) (fdata (i_file s)) (i_cur s) ns w -> ns * w <= p_max_alloc p ->
  (exists t s', read_trace p s = Ok (t, s') /\ len (t_smp t) = ns) /\ exists h s', read_header p s = Ok (h, s').
Proof.
  intros Hp A I B S Ad Sp (CW & N0 & L & K) Al. pose proof I as (P & C & Ln & (r & R) & Bp & I32 & Bf & Fx).
  pose proof (bps_range _ _ _ _ _ R Bp) as Hw. rewrite (code_width_bps _ _ _ _ _ R Bp) in CW. injection CW as <-.
  destruct (trc_header_go p s I S Ad) as (h & f1 & E); [nia|].
  pose proof (trc_header_inv _ _ _ _ I E) as (D1 & P1 & R1). unfold read_trace, read_header. rewrite E. cbn [bind].
  unfold header_bytes in P1. fold (block_count (i_bh s)) in P1.
  change (is_fixed (i_bh s)) with (same_length (i_bh s)) in *.
  assert (Bf1 : bytes (fdata f1)) by (rewrite D1; exact B).
  assert (Q : exists f2, fseek_cur (ns * i_bps s) f1 = Ok f2).
  { unfold fseek_cur, fseek. replace (_ && _) with true by nia. eauto. }
  destruct Q as (f2 & Q).
  assert (G : exists smp f3, read_smpls p s (ns * i_bps s) f1 = Ok (smp, f3)).
  { apply smpls_go; auto; [nia|lia|rewrite D1, P1; nia]. }
  destruct G as (smp & f3 & G).
  destruct (smpls_says p s (ns * i_bps s) f1 smp f3 Hp I Bf1 ltac:(nia) R1 ltac:(rewrite D1; exact Ln) G) as (Ls & _).
  rewrite Z.div_mul in Ls by lia.
  destruct (same_length (i_bh s)).
  - rewrite Fx, Sp, <- K, G by reflexivity. cbn [bind]. rewrite Sp, <- K in I32. rewrite sarith_ok by exact I32. cbn [bind].
    rewrite Q. cbn [bind]. split; [|eauto]. eexists; eexists. split; [reflexivity|exact Ls].
  - rewrite (count_of _ _ _ _ _ Hp I B E K). cbn [get_int bind]. cbv zeta.
    pose proof (wrapu_bound 64 (wrapu 64 ns * i_bps s) ltac:(lia)) as W.
    rewrite (buf_want p (i_bufsz s) _ A Bf W).
    assert (W1 : wrapu 64 ns = ns) by (apply wrapu_small; nia).
    assert (W2 : wrapu 64 (ns * i_bps s) = ns * i_bps s) by (apply wrapu_small; nia).
    assert (W3 : wraps 64 (ns * i_bps s) = ns * i_bps s) by (apply wraps_id; [lia|]; unfold in_i; change (64 - 1) with 63; nia).
    rewrite W1, W2, W3. replace (ns * i_bps s <=? p_max_alloc p) with true by lia. cbn [bind]. rewrite G, Q. cbn [bind].
    split; [|eauto]. eexists; eexists. split; [reflexivity|exact Ls].
Qed.
