(** What a sorted reader can throw (C65). *)
From Verif Require Import BaseFacts Platform Fp TraceHdr SegyTypes SegyCodec ISegy OpenFacts ReadSpec ReaderFacts ReadFacts ReadFacts3 Sorted1D StepX ISegyX RereadSpec RereadFacts RereadFacts2 RereadFacts3.

(** ** The end of the data lies in the file *)
Lemma until_end_pos fuel f acc r : read_until_end fuel f acc = Ok r -> fpos f <= len (fdata f).
Proof.
  destruct fuel as [|k]; cbn [read_until_end]; [discriminate|]. unfold fread. change (TEXT_HEADER_SIZE =? 0) with false.
  change TEXT_HEADER_SIZE with 3200. destruct (Z.leb_spec (fpos f + 3200) (len (fdata f))); [lia|discriminate].
Qed.

Lemma blocks_pos fuel n f acc r : read_blocks fuel n f acc = Ok r -> n = 0 \/ fpos f <= len (fdata f).
Proof.
  destruct fuel as [|k]; cbn [read_blocks]; (destruct (Z.eqb_spec n 0); [auto|]); [discriminate|].
  unfold fread. change (TEXT_HEADER_SIZE =? 0) with false.
  change TEXT_HEADER_SIZE with 3200. destruct (Z.leb_spec (fpos f + 3200) (len (fdata f))); [intros _; right; lia|discriminate].
Qed.

Lemma skip_var_data e a b fuel : forall n f f1, skip_var_traces fuel e a b n f = Ok f1 -> fdata f1 = fdata f.
Proof.
  induction fuel as [|k IH]; intros n f f1; cbn [skip_var_traces]; (destruct (n =? 0); [congruence|]); [discriminate|]. intros H.
  apply bind_ok in H as ([h g1] & E1 & H). apply bind_ok in H as (c & _ & H). apply bind_ok in H as ([s16 ?] & _ & H). cbv zeta in H.
  apply bind_ok in H as ([ns g2] & E2 & H). apply bind_ok in H as (g3 & E3 & H). apply IH in H. apply fseek_cur_inv in E3 as (D3 & _).
  assert (Q : forall m g d g', fread m g = Ok (d, g') -> fdata g' = fdata g).
  { intros m g d g'. unfold fread. destruct (m =? 0); [congruence|]. destruct (_ <=? _); [|discriminate]. intros K. injection K as _ <-. reflexivity. }
  assert (D2 : fdata g2 = fdata g1).
  { destruct (a =? 0); [congruence|]. apply bind_ok in E2 as ([h2 g] & G1 & E2). apply bind_ok in E2 as (c1 & _ & E2).
    apply bind_ok in E2 as ([? ?] & _ & E2). apply bind_ok in E2 as (c2 & _ & E2). apply bind_ok in E2 as ([? ?] & _ & E2).
    apply bind_ok in E2 as (g' & G2 & E2). injection E2 as _ <-. apply fseek_cur_inv in G2 as (D & _). rewrite D. exact (Q _ _ _ _ G1). }
  rewrite H, D3, D2. exact (Q _ _ _ _ E1).
Qed.

Lemma eod_range p content maps s : opened p content maps s -> i_eod s <= len content.
Proof.
  assert (G : forall ov b0, i_open p content maps ov b0 = Ok s -> i_eod s <= len content).
  { intros ov b0 H. pose proof (i_open_inv _ _ _ _ _ _ H) as (_ & _ & _ & _ & D & _). apply open_parts in H as (_ & _ & _ & f3 & f4 & f5 & E3 & E4 & E5).
    assert (D4 : fdata f4 = content).
    { assert (D3 : fdata f3 = content).
      { clear - E3. unfold read_ext_text_headers in E3. destruct (_ =? 0); [injection E3 as _ <-; reflexivity|]. destruct (_ =? -1).
        - assert (Q : forall fuel f acc l g, read_until_end fuel f acc = Ok (l, g) -> fdata g = fdata f).
          { induction fuel as [|k IH]; intros f acc l g; cbn [read_until_end]; [discriminate|]. unfold fread. change (TEXT_HEADER_SIZE =? 0) with false.
            destruct (_ <=? _); cbn [bind]; [|discriminate]. destruct (starts_with _ _); [intros K; injection K as _ <-; reflexivity|]. intros K. exact (IH _ _ _ _ K). }
          exact (Q _ _ _ _ _ E3).
        - assert (Q : forall fuel n f acc l g, read_blocks fuel n f acc = Ok (l, g) -> fdata g = fdata f).
          { induction fuel as [|k IH]; intros n f acc l g; cbn [read_blocks]; (destruct (n =? 0); [intros K; injection K as _ <-; reflexivity|]); [discriminate|].
            unfold fread. change (TEXT_HEADER_SIZE =? 0) with false.
            destruct (_ <=? _); cbn [bind]; [|discriminate]. destruct (sarith 32 _); cbn [bind]; [|discriminate..]. intros K. exact (IH _ _ _ _ _ K). }
          exact (Q _ _ _ _ _ _ E3). }
      destruct (_ =? 0); [injection E4 as _ <-; exact D3|]. apply bind_ok in E4 as (f & K & E4). injection E4 as _ <-. apply fseek_data in K as (K & _). congruence. }
    clear E3 E4. unfold read_trailer_stanzas in E5. destruct (bh_num_of_trailer_stanza (i_bh s) =? -1).
    - destruct (_ =? 0); [discriminate|]. destruct (negb _).
      + apply bind_ok in E5 as (prod & _ & E5). apply bind_ok in E5 as (f1 & K & E5). apply bind_ok in E5 as ([st f2] & K2 & E5).
        injection E5 as <- _ _. apply until_end_pos in K2. apply fseek_cur_inv in K as (K & _). rewrite K, D4 in K2. exact K2.
      + apply bind_ok in E5 as (f1 & K & E5). apply bind_ok in E5 as ([st f2] & K2 & E5).
        injection E5 as <- _ _. apply until_end_pos in K2. apply skip_var_data in K. rewrite K, D4 in K2. exact K2.
    - apply bind_ok in E5 as (off & Eo & E5). apply bind_ok in E5 as (f1 & K & E5). apply bind_ok in E5 as ([st f2] & K2 & E5).
      injection E5 as <- _ _. apply blocks_pos in K2. apply fseek_end_inv in K as (K & P & _). rewrite K, D4 in K2. destruct K2 as [Z0|K2]; [|exact K2].
      rewrite Z0 in Eo. injection Eo as <-. rewrite P, D4. lia. }
  intros [H|(bh & H)]; [unfold isegy_open in H|unfold isegy_open_bh in H]; exact (G _ _ H).
Qed.

(** ** Positions whose trace lies in the file *)
Definition at_pos (s : isegy) (pos : Z) : isegy := i_put s (mkFile (fdata (i_file s)) pos) pos (i_bufsz s).

Definition fits (p : platform) (s : isegy) (pos : Z) : Prop :=
  r_inv p (at_pos s pos) /\
  exists h s1, read_header p (at_pos s pos) = Ok (h, s1) /\ fpos (i_file s1) <= len (fdata (i_file s)).

Lemma r_inv_sound p s : r_inv p s -> sound p s.
Proof. intros (P & C & _ & R & _ & _ & B & _). split; [lia|]. split; [exact B|exact R]. Qed.

Lemma like_at p a b pos : sound p a -> like p a b -> 0 <= pos -> like p (at_pos a pos) (at_pos b pos).
Proof.
  intros Sa L Hp. pose proof L as (_ & _ & _ & _ & _ & _ & _ & _ & _ & D & _).
  apply like_trans with a; [apply like_sym; [exact Sa|apply like_put; [exact Sa|reflexivity|exact Hp]]|].
  apply like_trans with b; [exact L|]. apply like_put; [exact (like_sound _ _ _ L)|reflexivity|exact Hp].
Qed.

Lemma r_inv_like p a b pos : like p a b -> r_inv p (at_pos a pos) -> r_inv p (at_pos b pos).
Proof.
  intros (A1 & A2 & A3 & A4 & A5 & A6 & A7 & A8 & A9 & A10 & A11 & (_ & B & R)) (P & C & L & _ & Bp & I32 & Bf & Fx).
  unfold r_inv, at_pos in *. cbn [i_put i_file i_cur fpos fdata i_endian i_bh i_bps i_spt i_bufsz] in *. rewrite A10, A1, A6, A7.
  split; [reflexivity|]. split; [exact C|]. split; [exact L|]. split; [rewrite <- A1; exact R|]. split; [exact Bp|]. split; [exact I32|]. split; [exact B|].
  intros F. rewrite (A11 F). exact (Fx F).
Qed.

Lemma fits_like p a b pos : sound p a -> like p a b -> fits p a pos -> fits p b pos.
Proof.
  intros Sa L (I & h & s1 & E & F). split; [exact (r_inv_like _ _ _ _ L I)|].
  assert (Hp : 0 <= pos) by (destruct I as (_ & C & _); unfold at_pos in C; cbn [i_put i_cur] in C; lia).
  pose proof (like_at p a b pos Sa L Hp) as L1. pose proof L as (_ & _ & _ & _ & _ & _ & _ & _ & _ & D & _).
  pose proof (twin_header p (at_pos a pos) (at_pos b pos) (r_inv_sound _ _ I) L1) as T.
  rewrite E in T. destruct (read_header p (at_pos b pos)) as [[h' s2]|x|]; cbn [twin] in T.
  - destruct T as (<- & _ & _ & G); [unfold at_pos; cbn [i_put i_file]; congruence|]. exists h, s2. split; [reflexivity|]. rewrite <- G, D. exact F.
  - exfalso. apply T. unfold at_pos; cbn [i_put i_file]; congruence.
  - exfalso. apply T. unfold at_pos; cbn [i_put i_file]; congruence.
Qed.

Lemma fits_trace p s pos x : p_max_alloc p < 2 ^ 63 -> fits p s pos -> read_trace p (at_pos s pos) = Throw x -> x = EAlloc /\ is_fixed (i_bh s) = false.
Proof.
  intros HA (I & h & s1 & E & F). pose proof I as (P & C & L & (q & R) & Bp & I32 & Bf & Fx). unfold read_header in E. unfold read_trace.
  change (fdata (i_file s)) with (fdata (i_file (at_pos s pos))) in F. change (i_bh s) with (i_bh (at_pos s pos)).
  set (a := at_pos s pos) in *. clearbody a. destruct (read_trc_header p a) as [[h1 f1]|y|] eqn:E1; cbn [bind] in *; [|discriminate..].
  pose proof (trc_header_inv _ _ _ _ I E1) as (D1 & P1 & R1).
  assert (Q : forall sz y, 0 <= sz -> fpos f1 + sz <= len (fdata f1) -> read_smpls p a sz f1 <> Throw y).
  { intros sz y Hs Hl. unfold read_smpls, fread. destruct (sz =? 0); [|replace (fpos f1 + sz <=? len (fdata f1)) with true by lia]; cbn [bind]; rewrite R; cbn [bind].
    all: match goal with |- (let* (_, _) := ?z in _) <> _ => destruct z as [[smp c]|w|] eqn:Ep end; cbn [bind]; try discriminate.
    all: intros _; exact (quiet_prep q _ (quiet_sample _ _ _ _ R) _ _ Ep). }
  destruct (is_fixed (i_bh a)).
  - rewrite sarith_ok in E by exact I32. cbn [bind] in E. apply bind_ok in E as (f2 & E2 & E). injection E as _ <-.
    apply fseek_cur_inv in E2 as (D2 & P2 & _). cbn [i_set i_file] in F. specialize (Fx eq_refl). rewrite <- Fx in P2.
    destruct (read_smpls p a (i_bufsz a) f1) as [[smp f3]|y|] eqn:Es; cbn [bind]; try discriminate.
    exfalso. exact (Q (i_bufsz a) y (proj1 Bf) ltac:(rewrite D1; lia) Es).
  - destruct (hidx h1 "SAMP_NUM") as [v h']. apply bind_ok in E as (n & En & E). apply bind_ok in E as (f2 & E2 & E). injection E as _ <-.
    rewrite En. cbn [bind i_set i_file] in *. cbv zeta. pose proof (wrapu_bound 64 (wrapu 64 n * i_bps a) ltac:(lia)) as W.
    rewrite (buf_want p (i_bufsz a) _ HA Bf W). destruct (Z.leb_spec (wrapu 64 (wrapu 64 n * i_bps a)) (p_max_alloc p)) as [Al|Al]; cbn [bind].
    + rewrite <- wraps_wrapu in E2. rewrite wraps_id in E2 by (try lia; unfold in_i; change (64 - 1) with 63; lia).
      apply fseek_cur_inv in E2 as (D2 & P2 & _).
      destruct (read_smpls p a _ f1) as [[smp f3]|y|] eqn:Es; cbn [bind]; try discriminate.
      exfalso. exact (Q _ y (proj1 W) ltac:(rewrite D1; lia) Es).
    + intros K. injection K as <-. auto.
Qed.

Lemma fits_header p s pos x : fits p s pos -> read_header p (at_pos s pos) <> Throw x.
Proof. intros (_ & h & s1 & E & _). rewrite E. discriminate. Qed.

(** ** The scan *)
Definition kpos (m : kmap) : list Z := concat (map snd m).

Lemma kadd_pos m v x pos : In pos (kpos (kadd m v x)) -> pos = x \/ In pos (kpos m).
Proof.
  unfold kpos. induction m as [|[k ps] m IH]; cbn [kadd map concat snd].
  - cbn [In app]. intuition.
  - destruct (vlt k v); [|destruct (vlt v k)]; cbn [map concat snd]; rewrite !in_app_iff.
    + intuition.
    + cbn [In]. intuition.
    + cbn [In]. intuition.
Qed.

(** A header that was read from the file, or made up. *)
Lemma header_read p s h s1 name : r_inv p s -> read_header p s = Ok (h, s1) -> hget h name <> None ->
  fpos (i_file s) <= len (fdata (i_file s)) \/ fpos (i_file s) <= fpos (i_file s1).
Proof.
  intros I E Hn. pose proof I as (P & C & L & _). unfold read_header in E. apply bind_ok in E as ([h1 f1] & E1 & E).
  pose proof (trc_header_inv _ _ _ _ I E1) as (D1 & P1 & R1).
  assert (Q : fpos (i_file s) <= len (fdata (i_file s)) \/ h1 = []).
  { unfold read_trc_header in E1. apply bind_ok in E1 as (n & _ & E1). destruct (i_maps s) as [|[nm l] ls]; cbn [rd_headers] in E1;
      (destruct (n <=? 0); [injection E1 as <- _; auto|]).
    - apply bind_ok in E1 as (f & _ & E1). injection E1 as <- _. auto.
    - unfold fread in E1. change (TR_HEADER_SIZE =? 0) with false in E1. change TR_HEADER_SIZE with 240 in E1.
      destruct (Z.leb_spec (fpos (i_file s) + 240) (len (fdata (i_file s)))); [left; lia|discriminate]. }
  destruct Q as [Q| ->]; [left; exact Q|]. right. assert (HB : 0 <= header_bytes s) by (unfold header_bytes; lia).
  destruct (is_fixed (i_bh s)).
  - apply bind_ok in E as (off & _ & E). apply bind_ok in E as (f2 & _ & E). injection E as <- _. exfalso. apply Hn. reflexivity.
  - cbn [hidx hget] in E. cbn [get_int bind] in E. apply bind_ok in E as (f2 & E2 & E). injection E as _ <-. cbn [i_set i_file].
    change (wrapu 64 0 * i_bps s) with (0 * i_bps s) in E2. rewrite Z.mul_0_l in E2. change (wraps 64 0) with 0 in E2.
    apply fseek_cur_inv in E2 as (_ & P2 & _). lia.
Qed.

Lemma scan_pos p name : forall n s m m' s', r_inv p s -> i_eod s <= len (fdata (i_file s)) -> scan p n name s m = Ok (m', s') ->
  fpos (i_file s) <= len (fdata (i_file s)).
Proof.
  induction n as [|n IH]; intros s m m' s' I He H; cbn [scan] in H; unfold has_trace in H; pose proof I as (P & _);
    (destruct (Z.eqb_spec (i_cur s) (i_eod s)) as [K|K]; cbn [negb] in H; [lia|]); [discriminate|].
  apply bind_ok in H as ([h s1] & E & H). destruct (hget h name) as [v|] eqn:Ev; [|discriminate]. destruct (key_ok v); [|discriminate].
  pose proof (read_header_inv _ _ _ _ I E) as (I1 & (_ & _ & _ & _ & _ & _ & _ & _ & E9 & E10) & _).
  destruct (header_read p s h s1 name I E ltac:(congruence)) as [Q|Q]; [exact Q|].
  apply IH in H; [|exact I1|rewrite E9, E10; exact He]. rewrite E10 in H. lia.
Qed.

Lemma at_here s : fpos (i_file s) = i_cur s -> at_pos s (fpos (i_file s)) = s.
Proof. intros H. unfold at_pos, i_put. rewrite H at 2. destruct s as [[d q] ? ? ? ? ? ? ? ? ? ? ?]. reflexivity. Qed.

Lemma scan_fits p name : forall n s m m' s', r_inv p s -> i_eod s <= len (fdata (i_file s)) -> scan p n name s m = Ok (m', s') ->
  (forall pos, In pos (kpos m) -> fits p s pos) -> forall pos, In pos (kpos m') -> fits p s pos.
Proof.
  induction n as [|n IH]; intros s m m' s' I He H Hm; cbn [scan] in H; (destruct (has_trace s); [|injection H as <- <-; exact Hm]); [discriminate|].
  apply bind_ok in H as ([h s1] & E & H). destruct (hget h name) as [v|] eqn:Ev; [|discriminate]. destruct (key_ok v); [|discriminate].
  pose proof (r_inv_sound _ _ I) as S0. pose proof (header_agree p s S0) as A. rewrite E in A. cbn [agree] in A. destruct A as [_ L].
  pose proof (read_header_inv _ _ _ _ I E) as (I1 & (_ & _ & _ & _ & _ & _ & _ & _ & E9 & E10) & _).
  assert (He1 : i_eod s1 <= len (fdata (i_file s1))) by (rewrite E9, E10; exact He).
  pose proof (scan_pos _ _ _ _ _ _ _ I1 He1 H) as Hp.
  assert (F0 : fits p s (fpos (i_file s))).
  { unfold fits. rewrite at_here by (destruct I; assumption). split; [exact I|]. exists h, s1. split; [exact E|]. rewrite E10 in Hp. exact Hp. }
  intros pos Hin. apply fits_like with s1; [exact (like_sound _ _ _ L)|apply like_sym; assumption|].
  refine (IH s1 _ m' s' I1 He1 H _ pos Hin). intros q Hq. apply fits_like with s; [exact S0|exact L|].
  apply kadd_pos in Hq as [->|Hq]; [exact F0|exact (Hm q Hq)].
Qed.

(** ** Calls *)
Definition only (p : platform) {A} (rd : isegy -> outcome (A * isegy)) (Q : bin_hdr -> exn -> Prop) : Prop :=
  forall s pos x, fits p s pos -> rd (at_pos s pos) = Throw x -> Q (i_bh s) x.

Lemma fits_range p s pos : fits p s pos -> 0 <= pos < 2 ^ 63.
Proof. intros ((_ & C & _) & _). exact C. Qed.

Lemma visit_calm p {A} (rd : isegy -> outcome (A * isegy)) rdx Q pos a r : pair_ok p rd rdx -> only p rd Q -> (forall b, ~ Q b EIO) ->
  sound p a -> follows p a r -> x_fail r = false -> fits p a pos ->
  match visit rdx pos r with
  | (Ok _, r') => x_fail r' = false
  | (Throw x, r') => Q (i_bh a) x /\ x_fail r' = false
  | (UB, _) => True
  end.
Proof.
  intros (P1 & P2 & P3) Ho Hq Sa [D|(b & -> & L)] Hf Fi; [congruence|]. clear Hf.
  pose proof (like_sound _ _ _ L) as Sb. pose proof (fits_like _ _ _ _ Sa L Fi) as Fb. pose proof (fits_range _ _ _ Fb) as Rp.
  unfold visit, xbind. pose proof (seek_agree p pos b Sb) as K. destruct (seek_base b pos) as [b1|x|] eqn:Eb; [| |destruct K].
  - destruct K as [K Lb]. rewrite K. pose proof (seek_data _ _ _ Eb) as Fd. pose proof (P1 b1 (like_sound _ _ _ Lb)) as G.
    destruct Fb as [Ib Fb].
    assert (L1 : like p (at_pos b pos) b1).
    { apply like_trans with b; [|exact Lb]. apply like_sym; [exact Sb|]. apply like_put; [exact Sb|reflexivity|cbn [fpos]; lia]. }
    pose proof (P2 (at_pos b pos) b1 (r_inv_sound _ _ Ib) L1 ltac:(rewrite Fd; reflexivity)) as T.
    destruct (rd b1) as [[v b2]|x|] eqn:E; cbn [agree] in G.
    + destruct G as [G _]. rewrite G. reflexivity.
    + destruct G as (r' & G & _ & F). rewrite G. destruct (rd (at_pos b pos)) as [[? ?]|y|] eqn:E'; cbn [twin] in T; [destruct T| |destruct T]. subst y.
      pose proof (Ho b pos x (conj Ib Fb) E') as Qx. destruct L as (L & _). rewrite L in Qx. split; [exact Qx|].
      destruct (x_fail r'); [|reflexivity]. exfalso. rewrite (proj2 F eq_refl) in Qx. exact (Hq _ Qx).
    + destruct (rdx (fresh b1)) as [o r']. cbn [fst] in G. subst o. exact I.
  - exfalso. unfold seek_base, fseek in Eb. replace ((0 <=? pos) && (pos <? 2 ^ 63)) with true in Eb by lia. discriminate.
Qed.

Lemma read_at_calm p {A} (rd : isegy -> outcome (A * isegy)) rdx Q : pair_ok p rd rdx -> only p rd Q -> (forall b, ~ Q b EIO) -> forall ps n a xs,
  sound p a -> follows p a (xs_base xs) -> x_fail (xs_base xs) = false -> (forall pos, In pos ps -> fits p a pos) ->
  match xread_at rdx ps n xs with
  | (Ok _, xs') => x_fail (xs_base xs') = false
  | (Throw x, xs') => Q (i_bh a) x /\ x_fail (xs_base xs') = false
  | (UB, _) => True
  end.
Proof.
  intros P0 Ho Hq. induction ps as [|pos ps IH]; intros n a xs Sa Fo Hf Hp; [cbn [xread_at xret]; exact Hf|].
  rewrite xread_at_eq. destruct (n =? 0); [exact Hf|].
  pose proof (visit_ok p rd rdx pos a (xs_base xs) P0 Sa Fo) as V. pose proof (visit_calm p rd rdx Q pos a _ P0 Ho Hq Sa Fo Hf (Hp pos (or_introl eq_refl))) as W.
  destruct (visit rdx pos (xs_base xs)) as [[v|x|] b]; [|exact W|exact I].
  destruct V as (a1 & a2 & V1 & V2 & V3 & V4 & V5).
  assert (La : like p a a2).
  { pose proof (seek_agree p pos a Sa) as K. rewrite V1 in K. destruct K as [_ K]. destruct P0 as (P1 & _).
    pose proof (P1 a1 (like_sound _ _ _ K)) as G. rewrite V2 in G. cbn [agree] in G. destruct G as [_ G]. exact (like_trans _ _ _ _ K G). }
  specialize (IH (n - 1) a2 (mkXS b (xs_map xs) (xs_rest xs)) V3 V4 W).
  assert (H2 : forall q, In q ps -> fits p a2 q) by (intros q Hin; apply fits_like with a; [exact Sa|exact La|]; apply Hp; right; exact Hin).
  specialize (IH H2). destruct (xread_at rdx ps (n - 1) _) as [[l|x|] xs']; [exact IH| |exact I]. rewrite (like_bh _ _ _ La) in IH. exact IH.
Qed.

(** The reader that made only the calls that returned keeps what it is. *)
Lemma read_at_like p {A} (rd : isegy -> outcome (A * isegy)) rdx : pair_ok p rd rdx -> forall ps n a l a', sound p a -> read_at rd ps n a = Ok (l, a') -> like p a a'.
Proof.
  intros (P1 & _). induction ps as [|pos ps IH]; intros n a l a' Sa H; cbn [read_at] in H; [injection H as _ <-; apply like_refl; exact Sa|].
  destruct (n =? 0); [injection H as _ <-; apply like_refl; exact Sa|].
  apply bind_ok in H as (a1 & E1 & H). apply bind_ok in H as ([v a2] & E2 & H). apply bind_ok in H as ([l' a3] & E3 & H). injection H as _ <-.
  pose proof (seek_agree p pos a Sa) as K. rewrite E1 in K. destruct K as [_ K]. pose proof (P1 a1 (like_sound _ _ _ K)) as G. rewrite E2 in G. cbn [agree] in G.
  destruct G as [_ G]. apply like_trans with a1; [exact K|]. apply like_trans with a2; [exact G|]. exact (IH _ _ _ _ (like_sound _ _ _ G) E3).
Qed.

Lemma advance_pos r pos : In pos (kpos (advance r)) -> In pos (kpos r).
Proof.
  unfold kpos. destruct r as [|[k [|x [|y ps]]] m]; cbn [advance map concat snd app In]; auto; intuition.
Qed.

Definition within (so so' : sorted) : Prop :=
  s_map so' = s_map so /\ (forall pos, In pos (kpos (s_rest so')) -> In pos (kpos (s_rest so))).

Lemma s_read_like p {A} (rd : isegy -> outcome (A * isegy)) rdx so v so' : pair_ok p rd rdx -> sound p (s_base so) -> s_read rd so = Ok (v, so') ->
  like p (s_base so) (s_base so') /\ within so so'.
Proof.
  intros (P1 & _) Sa H. unfold s_read in H. destruct (s_rest so) as [|[k [|pos ps]] m] eqn:E; try discriminate.
  apply bind_ok in H as (a1 & E1 & H). apply bind_ok in H as ([w a2] & E2 & H). injection H as _ <-. cbn [s_base].
  pose proof (seek_agree p pos _ Sa) as K. rewrite E1 in K. destruct K as [_ K]. pose proof (P1 a1 (like_sound _ _ _ K)) as G. rewrite E2 in G. cbn [agree] in G.
  destruct G as [_ G]. split; [exact (like_trans _ _ _ _ K G)|]. split; [reflexivity|]. intros q. cbn [s_rest]. rewrite E. exact (advance_pos ((k, pos :: ps) :: m) q).
Qed.
Lemma get_by_like p {A} (rd : isegy -> outcome (A * isegy)) rdx so v n l so' : pair_ok p rd rdx -> sound p (s_base so) -> get_by rd so v n = Ok (l, so') ->
  like p (s_base so) (s_base so') /\ within so so'.
Proof.
  intros P0 Sa H. unfold get_by in H. destruct (kfind (s_map so) v) as [ps|].
  - apply bind_ok in H as ([l' b] & E & H). injection H as _ <-. split; [exact (read_at_like p rd rdx P0 _ _ _ _ _ Sa E)|]. split; [reflexivity|]. auto.
  - injection H as _ <-. split; [apply like_refl; exact Sa|]. split; [reflexivity|]. auto.
Qed.

Lemma scall_like p c so v so' : 0 <= p_max_alloc p -> sound p (s_base so) -> srd_call p c so = Ok (v, so') -> like p (s_base so) (s_base so') /\ within so so'.
Proof.
  intros HA Sa H. destruct c as [[|]|w n|w n]; cbn [srd_call] in H; apply bind_ok in H as ([a s1] & E & H); injection H as _ <-.
  - exact (s_read_like p _ _ _ _ _ (pair_trace p HA) Sa E).
  - exact (s_read_like p _ _ _ _ _ (pair_header p) Sa E).
  - exact (get_by_like p _ _ _ _ _ _ _ (pair_trace p HA) Sa E).
  - exact (get_by_like p _ _ _ _ _ _ _ (pair_header p) Sa E).
Qed.

Definition wants_traces (c : scall) : Prop := match c with SNext CTrace | STraces _ _ => True | _ => False end.

Lemma kfind_pos m v ps pos : kfind m v = Some ps -> In pos ps -> In pos (kpos m).
Proof.
  unfold kpos. induction m as [|[k qs] m IH]; cbn [kfind map concat snd]; [discriminate|]. intros H Hin. apply in_or_app.
  destruct (vlt k v); [right; exact (IH H Hin)|]. destruct (vlt v k); [discriminate|]. injection H as <-. left. exact Hin.
Qed.

Definition fits_all (p : platform) (so : sorted) : Prop :=
  (forall pos, In pos (kpos (s_map so)) -> fits p (s_base so) pos) /\ (forall pos, In pos (kpos (s_rest so)) -> fits p (s_base so) pos).

Lemma s_read_calm p {A} (rd : isegy -> outcome (A * isegy)) rdx Q so xs : pair_ok p rd rdx -> only p rd Q -> (forall b, ~ Q b EIO) ->
  tracks p so xs -> fits_all p so -> x_fail (xs_base xs) = false ->
  match xs_read rdx xs with
  | (Ok _, xs') => x_fail (xs_base xs') = false
  | (Throw x, xs') => Q (i_bh (s_base so)) x /\ x_fail (xs_base xs') = false
  | (UB, _) => True
  end.
Proof.
  intros P0 Ho Hq (T1 & T2 & T3 & T4) (_ & Fr) Hf. rewrite xs_read_eq. rewrite T2 in Fr. destruct (xs_rest xs) as [|[k [|pos ps]] m] eqn:E; try exact I.
  pose proof (visit_calm p rd rdx Q pos _ _ P0 Ho Hq T3 T4 Hf (Fr pos ltac:(left; reflexivity))) as W.
  destruct (visit rdx pos (xs_base xs)) as [[v|x|] b]; exact W.
Qed.
Lemma get_by_calm p {A} (rd : isegy -> outcome (A * isegy)) rdx Q so xs v n : pair_ok p rd rdx -> only p rd Q -> (forall b, ~ Q b EIO) ->
  tracks p so xs -> fits_all p so -> x_fail (xs_base xs) = false ->
  match xget_by rdx v n xs with
  | (Ok _, xs') => x_fail (xs_base xs') = false
  | (Throw x, xs') => Q (i_bh (s_base so)) x /\ x_fail (xs_base xs') = false
  | (UB, _) => True
  end.
Proof.
  intros P0 Ho Hq (T1 & T2 & T3 & T4) (Fm & _) Hf. unfold xget_by, xbind. cbn [xget]. rewrite T1 in Fm. destruct (kfind (xs_map xs) v) as [ps|] eqn:E; [|exact Hf].
  apply (read_at_calm p rd rdx Q P0 Ho Hq ps n (s_base so) xs T3 T4 Hf). intros pos Hin. exact (Fm pos (kfind_pos _ _ _ _ E Hin)).
Qed.

Definition memory (b : bin_hdr) (x : exn) : Prop := x = EAlloc /\ is_fixed b = false.

Lemma scall_calm p c so xs : 0 <= p_max_alloc p < 2 ^ 63 -> tracks p so xs -> fits_all p so -> x_fail (xs_base xs) = false ->
  match xsrd_call p c xs with
  | (Ok _, xs') => x_fail (xs_base xs') = false
  | (Throw x, xs') => (memory (i_bh (s_base so)) x /\ wants_traces c) /\ x_fail (xs_base xs') = false
  | (UB, _) => True
  end.
Proof.
  intros [HA HB] T Fa Hf.
  assert (O1 : only p (read_trace p) memory) by (intros s pos x F E; exact (fits_trace p s pos x HB F E)).
  assert (O2 : only p (read_header p) (fun _ _ => False)) by (intros s pos x F E; exact (fits_header p s pos x F E)).
  assert (N1 : forall b, ~ memory b EIO) by (intros b [K _]; discriminate).
  destruct c as [[|]|w n|w n]; cbn [xsrd_call wants_traces]; unfold xbind.
  - pose proof (s_read_calm p _ _ _ so xs (pair_trace p HA) O1 N1 T Fa Hf) as W. destruct (xs_read _ xs) as [[v|x|] xs']; [exact W|tauto|exact I].
  - pose proof (s_read_calm p _ _ _ so xs (pair_header p) O2 (fun _ K => K) T Fa Hf) as W. destruct (xs_read _ xs) as [[v|x|] xs']; [exact W|tauto|exact I].
  - pose proof (get_by_calm p _ _ _ so xs w n (pair_trace p HA) O1 N1 T Fa Hf) as W. destruct (xget_by _ w n xs) as [[v|x|] xs']; [exact W|tauto|exact I].
  - pose proof (get_by_calm p _ _ _ so xs w n (pair_header p) O2 (fun _ K => K) T Fa Hf) as W. destruct (xget_by _ w n xs) as [[v|x|] xs']; [exact W|tauto|exact I].
Qed.

Lemma fits_all_like p so so' : sound p (s_base so) -> like p (s_base so) (s_base so') -> within so so' -> fits_all p so -> fits_all p so'.
Proof.
  intros S0 L (W1 & W2) (F1 & F2). split; intros pos Hin; (apply fits_like with (s_base so); [exact S0|exact L|]).
  - rewrite W1 in Hin. exact (F1 _ Hin).
  - exact (F2 _ (W2 _ Hin)).
Qed.

Lemma go_on_calm p : 0 <= p_max_alloc p < 2 ^ 63 -> forall cs so xs rs xs', tracks p so xs -> fits_all p so -> x_fail (xs_base xs) = false ->
  go_on (xsrd_call p) xs cs = Ok (rs, xs') -> forall i c x, nth_error cs i = Some c -> nth_error rs i = Some (Throw x) ->
  memory (i_bh (s_base so)) x /\ wants_traces c.
Proof.
  intros HA. induction cs as [|c0 cs IH]; intros so xs rs xs' T Fa Hf K i c x Hc Hr; [destruct i; discriminate|]. cbn [go_on] in K.
  pose proof (scall_ok p c0 so xs (proj1 HA) T) as S0. pose proof (scall_calm p c0 so xs HA T Fa Hf) as W.
  destruct (xsrd_call p c0 xs) as [[v|y|] xs1]; cbn [step_ok] in S0; [| |discriminate].
  - destruct S0 as [(so1 & E & T1) _]. destruct (go_on (xsrd_call p) xs1 cs) as [[rs' xs2]|y|] eqn:E2; cbn [bind] in K; [|discriminate..].
    injection K as <- <-. destruct i as [|i]; [discriminate|]. cbn [nth_error] in Hc, Hr.
    pose proof T as (_ & _ & Sb & _). destruct (scall_like p c0 so v so1 (proj1 HA) Sb E) as [L Wi].
    rewrite <- (like_bh _ _ _ L). exact (IH so1 xs1 rs' xs2 T1 (fits_all_like _ _ _ Sb L Wi Fa) W E2 i c x Hc Hr).
  - destruct S0 as (T1 & _). destruct W as [W1 W2]. destruct (go_on (xsrd_call p) xs1 cs) as [[rs' xs2]|z|] eqn:E2; cbn [bind] in K; [|discriminate..].
    injection K as <- <-. destruct i as [|i].
    + cbn [nth_error] in Hc, Hr. injection Hc as <-. injection Hr as <-. exact W1.
    + exact (IH so xs1 rs' xs2 T1 Fa W2 E2 i c x Hc Hr).
Qed.

Lemma sorted_fits p content maps s n name so : p_max_alloc p < 2 ^ 63 -> len content < 2 ^ 63 -> opened p content maps s -> sorted_open p n name s = Ok so ->
  fits_all p so /\ i_bh (s_base so) = i_bh s.
Proof.
  intros HA HL O So. pose proof (eod_range _ _ _ _ O) as He. destruct (opened_inv _ _ _ _ O HA HL) as (I & _ & D).
  unfold sorted_open in So. destruct (scan p n name s []) as [[m s1]|x|] eqn:E; cbn [bind] in So; [|discriminate..].
  pose proof (scan_like _ _ _ _ _ _ _ (r_inv_sound _ _ I) E) as L.
  pose proof (scan_fits p name n s [] m s1 I ltac:(rewrite D; exact He) E ltac:(intros ? [])) as F.
  destruct m as [|e m]; [discriminate|]. injection So as <-. split; [|exact (like_bh _ _ _ L)].
  assert (F' : forall pos, In pos (kpos (e :: m)) -> fits p s1 pos) by (intros pos Hin; apply fits_like with s; [exact (r_inv_sound _ _ I)|exact L|exact (F pos Hin)]).
  split; exact F'.
Qed.
