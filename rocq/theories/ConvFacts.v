(** Proofs for C95. *)
From Coq Require Import Reals.
From Flocq Require Import Core.
From Verif Require Import BaseFacts Bcd BcdSpec BcdFacts Platform CodecSpec CodecFacts Fp FpSpec FpReal SampleReal
  TraceHdr HdrFacts SegyTypes SegyCodec LayoutSpec LayoutFacts ISegy OSegy RoundSpec ReadSpec SegyDecSpec SegyDecFacts2 FileSpec SegyEncSpec SegyEncFacts5
  SegdTypes SegdSpec SegdDecSpec SegdTrcSpec SegdReadSpec ISegd
  OpenFacts ReadFacts2 SegdOpenProps SegdRecFacts NibFacts FixFacts SegdHdrFacts SegdTrcFacts SegdSmpFacts SegdFileFacts SegdDecFacts SegdOpenFacts SegdTrcRead SegdReadProps ConvSpec PropertiesSegyEnc.
Local Open Scope string_scope.
Local Open Scope list_scope.
Local Open Scope Z_scope.

(** ** The header of a trace *)

Definition th_keys : list string :=
  ["FFID"; "SCAN_TYPE_NUM"; "CH_SET_NUM"; "CHAN"; "FIRST_TIMING_WORD"; "TR_HDR_EXT"; "SAMPLE_SKEW"; "TRACE_EDIT"; "TIME_BREAK_WIN"].

Lemma th_only p b h c : p_left_first p = true -> bytes b -> List.length b = 20%nat ->
  rd_trace_header p b = Ok (h, c) -> forall k, ~ In k th_keys -> hget h k = None.
Proof.
  intros Hp Hb L E.
  assert (X : exists h' c', rd_trace_header p b = Ok (h', c') /\ forall k, ~ In k th_keys -> hget h' k = None).
  { change b with (skipn 0 b) at 1. eexists _, _. split.
    - unfold rd_trace_header. repeat dstep. reflexivity.
    - intros k Hk. unfold th_keys in Hk. cbn [In] in Hk. destruct (big b 15 2 =? 0), (big b 17 3 =? 0); repeat rewrite hget_hset; cbn [hget];
      repeat match goal with |- context [String.eqb k ?x] => destruct (String.eqb_spec k x); [subst k; tauto|] end; reflexivity. }
  destruct X as (h' & c' & E' & H'). rewrite E in E'. injection E' as <- _. exact H'.
Qed.

Lemma te_only p major h b : p_left_first p = true -> bytes b -> List.length b = 32%nat -> major <= 1 ->
  forall h' c, rd_ext_std p major h b = Ok (Ok h', c) -> hget h' "SENSOR_TYPE" = hget h "SENSOR_TYPE".
Proof.
  intros Hp Hb L M h' c E.
  assert (X : exists h1 c1, rd_ext_std p major h b = Ok (Ok h1, c1) /\ hget h1 "SENSOR_TYPE" = hget h "SENSOR_TYPE").
  { unfold rd_ext_std. destruct (Z.ltb_spec major 3) as [_|?]; [|lia]. destruct (Z.ltb_spec 2 major) as [?|_]; [lia|].
    destruct (Z.ltb_spec 1 major) as [?|_]; [lia|]. eexists. eexists. split.
    { change b with (skipn 0 b) at 1. do 3 dstep. erewrite pbind_ok; [|dstep; reflexivity]. reflexivity. }
    rewrite !hget_hset. reflexivity. }
  destruct X as (h1 & c1 & E1 & H1). rewrite E in E1. injection E1 as <- _. exact H1.
Qed.

Lemma exts_only p major n f h h' f' : p_left_first p = true -> good_file f -> major < 3 ->
  rd_exts p major [] n 0 f h = Ok (h', f') -> major <= 1 -> hget h' "SENSOR_TYPE" = hget h "SENSOR_TYPE".
Proof.
  intros Hp G M E M1. destruct n as [|n]; cbn [rd_exts] in E; [injection E as <- _; reflexivity|].
  destruct (fread TRACE_HEADER_EXT_SIZE f) as [[b f1]|e|] eqn:Ef; cbn [bind] in E; try discriminate.
  destruct (reads_freadn f 32 ltac:(lia) G) as (_ & S1 & _). destruct (S1 _ _ Ef) as (D1 & P1 & _ & Bb & Lb).
  assert (Ln : List.length b = 32%nat) by (unfold len in Lb; lia).
  destruct (te_dec p major h b Hp Bb Ln M) as (h1 & c & E1 & _ & _). rewrite E1 in E. cbn [bind] in E.
  assert (G1 : good_file f1).
  { destruct G as (Gb & Gp & Gl). unfold good_file. rewrite D1, P1. split; [exact Gb|]. split; [lia|exact Gl]. }
  destruct (exts_more p major n f1 h1 0 G1) as (_ & S2 & _). destruct (S2 _ _ E) as (_ & _ & ->).
  exact (te_only p major h b Hp Bb Ln M1 _ _ E1).
Qed.

(** The values of the header of a trace, by name. *)
Lemma trace_only p s t s' : p_left_first p = true -> good_file (d_file s) -> d_layouts s = [] -> g2_major (d_g2 s) < 3 ->
  d_read_trace p s = Ok (t, s') ->
  forall k v, hget (t_hdr t) k = Some v -> In k th_keys \/
    (byt (th_at s) 9 <> 0 /\ In k ext_keys /\ (k = "SENSOR_TYPE" -> 1 < g2_major (d_g2 s))).
Proof.
  intros Hp G Hl M E. unfold d_read_trace in E.
  destruct (fread TRACE_HEADER_SIZE (d_file s)) as [[buf f1]|e|] eqn:Ef; cbn [bind] in E; try discriminate.
  destruct (reads_freadn (d_file s) 20 ltac:(lia) G) as (_ & S1 & _). destruct (S1 _ _ Ef) as (D1 & P1 & B1 & Bb & Lb).
  assert (Ln : List.length buf = 20%nat) by (unfold len in Lb; lia).
  assert (G1 : good_file f1).
  { destruct G as (Gb & Gp & Gl). unfold good_file. rewrite D1, P1. split; [exact Gb|]. split; [lia|exact Gl]. }
  destruct (th_dec' p buf Hp Bb Ln) as (h0 & c0 & E0 & T0 & X0). rewrite E0 in E. cbn [bind] in E.
  pose proof (th_only p buf h0 c0 Hp Bb Ln E0) as O0.
  unfold read_trace_header_ext, hidx in E. assert (K5 : hget h0 "TR_HDR_EXT" = Some (VInt (byt buf 9))) by (apply T0).
  rewrite K5 in E. cbn [get_int bind] in E. rewrite Hl in E.
  assert (Hn : 0 <= byt buf 9 < 256) by (apply byt_range, Bb).
  replace (wraps 32 (byt buf 9)) with (byt buf 9) in E by (symmetry; apply wraps_id; [lia|unfold in_i; lia]).
  destruct (rd_exts p (g2_major (d_g2 s)) [] (Z.to_nat (byt buf 9)) 0 f1 h0) as [[h f2]|e|] eqn:Ex; cbn [bind] in E; try discriminate.
  destruct (exts_reads p (g2_major (d_g2 s)) (Z.to_nat (byt buf 9)) f1 h0 Hp M G1) as (_ & S2 & _).
  destruct (S2 _ _ Ex) as (_ & _ & R1 & _ & R3). rewrite Z2Nat.id in R1 by lia.
  pose proof (exts_only p _ _ _ _ _ _ Hp G1 M Ex) as R4.
  assert (Et : t_hdr t = h).
  { destruct (read_trace_samples p s h f2) as [[smp f3]|e|]; cbn [bind] in E; try discriminate.
    destruct (d_chans s =? _); [|injection E as <- <-; reflexivity].
    match type of E with bind ?x _ = _ => destruct x end; cbn [bind] in E; try discriminate. injection E as <- <-. reflexivity. }
  rewrite Et. unfold th_at. rewrite <- B1. intros k v Hk.
  destruct (in_dec string_dec k th_keys) as [I|N]; [left; exact I|right].
  specialize (O0 k N). destruct (in_dec string_dec k ext_keys) as [I|N']; [|rewrite (R3 k N') in Hk; congruence].
  split; [|split; [exact I|]].
  - intros Z. rewrite (R1 Z) in Hk. congruence.
  - intros ->. destruct (Z.ltb_spec 1 (g2_major (d_g2 s))); [assumption|]. rewrite (R4 ltac:(lia)) in Hk. congruence.
Qed.

Definition in64 (z : Z) : Prop := - 2 ^ 63 <= z < 2 ^ 63.

Lemma dec_small b i n : bytes b -> (n <= 4)%nat -> 0 <= SegdDecSpec.dec b i n < 2 ^ 32.
Proof.
  intros Hb Hn. unfold SegdDecSpec.dec, pos_value.
  assert (N : Forall (fun x => 0 <= x < 16) (nibs b)).
  { induction Hb as [|x b Hx Hb IH]; cbn [nibs]; [constructor|]. unfold is_byte in Hx.
    constructor; [split; [apply Z.div_pos; lia|apply Z.div_lt_upper_bound; lia]|]. constructor; [apply Z.mod_pos_bound; lia|exact IH]. }
  assert (M : Forall (fun x => 0 <= x < 16) (firstn n (skipn i (nibs b)))).
  { rewrite Forall_forall in *. intros x Hx. apply N. rewrite <- (firstn_skipn i (nibs b)). apply in_app_iff. right.
    rewrite <- (firstn_skipn n (skipn i (nibs b))). apply in_app_iff. left. exact Hx. }
  pose proof (firstn_le_length n (skipn i (nibs b))) as L. revert M L. generalize (firstn n (skipn i (nibs b))). intros l M L.
  destruct l as [|x1 [|x2 [|x3 [|x4 [|x5 l]]]]]; cbn [fold_left List.length] in *; try lia;
    repeat match goal with H : Forall _ (_ :: _) |- _ => inversion H; subst; clear H end; lia.
Qed.

Lemma big_small b i n : bytes b -> (n <= 5)%nat -> 0 <= big b i n < 2 ^ 40.
Proof.
  intros Hb Hn. pose proof (big_lt b i n Hb) as H. assert (256 ^ Z.of_nat n <= 256 ^ 5) by (apply Z.pow_le_mono_r; lia).
  change (256 ^ 5) with (2 ^ 40) in *. lia.
Qed.

(** Integers and fixed point numbers of the header. *)
Lemma receiver_cases s k i j v : receiver_num (te_at s) (g2_major (d_g2 s)) i j v ->
  (forall z, v = Some (VInt z) <-> In (k, z) (receiver_int s k i j)) /\
  (forall d, v = Some (VDbl d) -> 1 < g2_major (d_g2 s) /\ big (te_at s) j 5 <> 0) /\ v <> None /\
  (1 < g2_major (d_g2 s) -> big (te_at s) j 5 <> 0 -> exists d, v = Some (VDbl d)).
Proof.
  unfold receiver_num, receiver_int. destruct (Z.ltb_spec 1 (g2_major (d_g2 s))) as [L|L]; cbn [andb];
    destruct (Z.eqb_spec (big (te_at s) j 5) 0) as [Z|N]; cbn [negb].
  1,3,4: intros ->; split; [intros z; cbn [In]; split; [intros [= <-]; auto|intros [[= <-]|[]]; reflexivity]|];
    split; [discriminate|]; split; [discriminate|lia].
  intros (d & -> & _). split; [intros z; cbn [In]; split; [discriminate|tauto]|]. split; [auto|]. split; [discriminate|eauto].
Qed.

Lemma hdr_values p s t s' : p_left_first p = true -> good_file (d_file s) -> d_layouts s = [] -> g2_major (d_g2 s) < 3 ->
  d_read_trace p s = Ok (t, s') ->
  th_of (th_at s) (t_hdr t) -> (byt (th_at s) 9 <> 0 -> te_of (te_at s) (g2_major (d_g2 s)) (t_hdr t)) ->
  (byt (th_at s) 9 = 0 -> forall k, In k ext_keys -> hget (t_hdr t) k = None) ->
  (forall k z, hget (t_hdr t) k = Some (VInt z) <-> In (k, z) (integers_of s)) /\
  (forall k d, hget (t_hdr t) k = Some (VDbl d) -> In k (fixed_points s)) /\
  (forall k, In k (fixed_points s) -> exists d, hget (t_hdr t) k = Some (VDbl d)).
Proof.
  intros Hp G Hl M E Th Te Tn. pose proof (trace_only p s t s' Hp G Hl M E) as On. clear E.
  destruct Th as (T1 & T2 & T3 & T4 & T5 & T6 & ftw & skew & tbw & T7 & _ & T8 & _ & T9 & _).
  fold (set_num (th_at s)) in T3. revert On Te Tn T1 T2 T3 T4 T5 T6 T7 T8 T9. generalize (t_hdr t). intros h On Te Tn T1 T2 T3 T4 T5 T6 T7 T8 T9.
  destruct (Z.eqb_spec (byt (th_at s) 9) 0) as [Z|N].
  - clear Te. specialize (Tn Z).
    assert (Kt : forall k v, hget h k = Some v -> In k th_keys).
    { intros k v Hk. destruct (On k v Hk) as [I|(N & _)]; [exact I|contradiction]. }
    unfold integers_of, fixed_points. rewrite Z, Z.eqb_refl. cbn [orb]. rewrite !app_nil_r.
    split; [|split].
    + intros k z. split.
      * intros Hk. pose proof (Kt k _ Hk) as I. unfold th_keys in I. cbn [In] in I |- *.
        repeat destruct I as [I|I]; subst; try congruence; try contradiction; intuition congruence.
      * cbn [In]. intros I. repeat destruct I as [I|I]; try contradiction; injection I as <- <-; congruence.
    + intros k d Hk. pose proof (Kt k _ Hk) as I. unfold th_keys in I. cbn [In] in I |- *.
      repeat destruct I as [I|I]; subst; try congruence; try contradiction; intuition congruence.
    + cbn [In]. intros k I. repeat destruct I as [I|I]; subst; try contradiction; eauto.
  - clear Tn. destruct (Te N) as (E1 & E2 & E3 & E4 & E5). clear Te.
    destruct (receiver_cases s "R_LINE" 0 10 _ E1) as (L1 & L2 & L3 & L4). destruct (receiver_cases s "R_POINT" 3 15 _ E2) as (P1 & P2 & P3 & P4).
    clear E1 E2. unfold integers_of, fixed_points. rewrite (proj2 (Z.eqb_neq _ _) N). cbn [orb].
    split; [|split].
    + intros k z. split.
      * intros Hk. rewrite !in_app_iff. destruct (On k _ Hk) as [I|(_ & I & Sn)].
        -- left. unfold th_keys in I. cbn [In] in I |- *.
           repeat destruct I as [I|I]; subst; try congruence; try contradiction; intuition congruence.
        -- unfold ext_keys in I. cbn [In] in I. destruct I as [<-|[<-|[<-|[<-|[<-|[]]]]]].
           ++ right. left. apply L1, Hk.
           ++ right. right. left. apply P1, Hk.
           ++ right. right. right. left. left. congruence.
           ++ right. right. right. left. right. left. congruence.
           ++ right. right. right. right. rewrite (proj2 (Z.ltb_lt _ _) (Sn eq_refl)). left. rewrite (E5 (Sn eq_refl)) in Hk. congruence.
      * rewrite !in_app_iff. cbn [In]. intros [I|[I|[I|[I|I]]]].
        -- repeat destruct I as [I|I]; try contradiction; injection I as <- <-; congruence.
        -- assert (K : k = "R_LINE") by (unfold receiver_int in I; destruct (_ && _) in I; cbn [In] in I; intuition congruence).
           subst k. apply L1, I.
        -- assert (K : k = "R_POINT") by (unfold receiver_int in I; destruct (_ && _) in I; cbn [In] in I; intuition congruence).
           subst k. apply P1, I.
        -- repeat destruct I as [I|I]; try contradiction; injection I as <- <-; congruence.
        -- destruct (Z.ltb_spec 1 (g2_major (d_g2 s))) as [L|L]; [|destruct I]. destruct I as [I|[]]. injection I as <- <-. apply E5, L.
    + intros k d Hk. rewrite in_app_iff. destruct (On k _ Hk) as [I|(_ & I & Sn)].
      * left. unfold th_keys in I. cbn [In] in I |- *.
        repeat destruct I as [I|I]; subst; try congruence; try contradiction; intuition congruence.
      * right. unfold ext_keys in I. cbn [In] in I. destruct I as [<-|[<-|[<-|[<-|[<-|[]]]]]]; try congruence.
        -- destruct (L2 d Hk) as (A & B). rewrite (proj2 (Z.ltb_lt _ _) A), (proj2 (Z.eqb_neq _ _) B). cbn [negb]. left. reflexivity.
        -- destruct (P2 d Hk) as (A & B). rewrite (proj2 (Z.ltb_lt _ _) A), (proj2 (Z.eqb_neq _ _) B). cbn [negb]. apply in_app_iff. right. left. reflexivity.
        -- rewrite (E5 (Sn eq_refl)) in Hk. discriminate.
    + intros k. rewrite in_app_iff. cbn [In]. intros [I|I].
      * repeat destruct I as [I|I]; subst; try contradiction; eauto.
      * destruct (Z.ltb_spec 1 (g2_major (d_g2 s))) as [L|L]; cbn [negb] in I; [|destruct I]. apply in_app_iff in I. destruct I as [I|I].
        -- destruct (Z.eqb_spec (big (te_at s) 10 5) 0) as [|N5]; [destruct I|]. destruct I as [<-|[]]. apply L4; assumption.
        -- destruct (Z.eqb_spec (big (te_at s) 15 5) 0) as [|N5]; [destruct I|]. destruct I as [<-|[]]. apply P4; assumption.
Qed.

(** ** Samples are doubles *)

Lemma d_mul_is_dbl a b : is_dbl a -> is_dbl b -> is_dbl (d_mul a b).
Proof.
  intros Ha Hb. unfold d_mul. apply d_enc_dbl. pose proof (d_dec_valid a Ha) as Va. pose proof (d_dec_valid b Hb) as Vb.
  destruct (d_dec a) as [sx|sx| |sx mx ex], (d_dec b) as [sy|sy| |sy my ey]; try reflexivity.
  cbn [SpecFloat.SFmul]. rewrite (bra_equiv 53 1024 _ _).
  pose proof (BinarySingleNaN.Bmult_correct_aux 53 1024 _ _ BinarySingleNaN.mode_NE sx mx ex Va sy my ey Vb) as [H1 _]. exact H1.
Qed.

Lemma rd_u_range e n c v c' : bytes c -> rd_u e n c = Ok (v, c') -> 0 <= v < 256 ^ Z.of_nat n /\ bytes c'.
Proof.
  intros Hc E. destruct (Nat.leb_spec n (List.length c)) as [L|L].
  - unfold rd_u, pbind in E. rewrite pread_ok in E by exact L. unfold pret in E. injection E as <- <-.
    assert (Bf : bytes (firstn n c)) by (apply bytes_firstn, Hc). assert (Lf : len (firstn n c) = Z.of_nat n) by (unfold len; rewrite firstn_length; lia).
    split; [|apply bytes_skipn, Hc]. pose proof (le_dec_bound _ Bf) as R. rewrite Lf in R. destruct e; [exact R|apply swapb_bound].
  - unfold rd_u, pread, pmap, ptake, pbind in E. rewrite (proj2 (Nat.leb_gt _ _) L) in E. discriminate.
Qed.

Lemma i2d_is_dbl z : Z.abs z <= 2 ^ 53 -> is_dbl (i2d z).
Proof. intros H. destruct (i2d_holds z H) as [(D & _) _]. exact D. Qed.

Lemma f2d_is_dbl w : is_flt w -> is_dbl (f2d w).
Proof.
  intros H. pose proof (f2d_widened w H) as W. unfold widened in W. destruct (flt_finite w).
  - unfold signed in W. destruct W as [(D & _) _]. exact D.
  - destruct (flt_nan w); [apply W|]. rewrite W. unfold is_dbl. destruct (ieee_neg 23 8 w); lia.
Qed.

Lemma sample_is_dbl p fmt bits r : p_left_first p = true -> In fmt good_formats -> d_sample_reader p fmt = Ok (bits, r) ->
  forall c y c', bytes c -> r c = Ok (y, c') -> is_dbl y /\ bytes c'.
Proof.
  intros Hp Hf Er c y c' Hc E.
  assert (Ri : forall e n (f : Z -> Z), (1 <= n <= 4)%nat -> pmap i2d (rd_i e n) c = Ok (y, c') -> is_dbl y /\ bytes c').
  { intros e n f Hn E1. unfold rd_i, pmap, pbind, pret in E1. destruct (rd_u e n c) as [[u c1]|x|] eqn:Eu; try discriminate.
    injection E1 as <- <-. destruct (rd_u_range _ _ _ _ _ Hc Eu) as [_ B]. split; [|exact B].
    apply i2d_is_dbl. change (Z.abs (wraps (8 * Z.of_nat n) u) <= 2 ^ 53). pose proof (wraps_range (8 * Z.of_nat n) u ltac:(lia)) as W. unfold in_i in W.
    assert (2 ^ (8 * Z.of_nat n - 1) <= 2 ^ 32) by (apply Z.pow_le_mono_r; lia). lia. }
  assert (Rf : forall e, rd_f32 e c = Ok (y, c') -> is_dbl y /\ bytes c').
  { intros e E1. unfold rd_f32, pmap, pbind, pret in E1. destruct (rd_u e 4 c) as [[u c1]|x|] eqn:Eu; try discriminate.
    injection E1 as <- <-. destruct (rd_u_range _ _ _ _ _ Hc Eu) as [U B]. split; [|exact B]. apply f2d_is_dbl. exact U. }
  assert (Rd : forall e, rd_f64 e c = Ok (y, c') -> is_dbl y /\ bytes c').
  { intros e E1. unfold rd_f64 in E1. destruct (rd_u_range _ _ _ _ _ Hc E1) as [U B]. split; [exact U|exact B]. }
  unfold good_formats in Hf. cbn [In] in Hf.
  destruct Hf as [<-|[<-|[<-|[<-|[<-|[<-|[<-|[]]]]]]]]; cbn [d_sample_reader] in Er; injection Er as <- <-.
  - unfold pmap, pbind, pret in E. destruct (rd_i24 p Swapped c) as [[v c1]|x|] eqn:Eu; try discriminate. injection E as <- <-.
    unfold rd_i24, pbind, pret in Eu. destruct (rd_u24 p Swapped c) as [[u c2]|x|] eqn:E2; try discriminate. injection Eu as <- <-.
    split.
    + apply i2d_is_dbl. match goal with |- Z.abs (wraps 32 ?x) <= _ => pose proof (wraps_range 32 x ltac:(lia)) as W; unfold in_i in W end. lia.
    + destruct (Nat.leb_spec 3 (List.length c)) as [L|L].
      * destruct (rd_u24_ok p Swapped c L) as (v & Ev). rewrite Ev in E2. assert (X : c2 = skipn 3 c) by congruence. rewrite X. apply bytes_skipn, Hc.
      * exfalso. unfold rd_u24, rd_16_8 in E2. rewrite Hp in E2. 
        destruct c as [|x1 [|x2 [|x3 c]]]; [discriminate E2..|cbn [List.length] in L; lia].
  - apply (Ri Swapped 4%nat (fun x => x)); [lia|exact E].
  - apply (Rf Swapped), E.
  - apply (Rd Swapped), E.
  - apply (Ri Native 4%nat (fun x => x)); [lia|exact E].
  - apply (Rf Native), E.
  - apply (Rd Native), E.
Qed.

Lemma prep_is_dbl (r : P Z) e : is_dbl e -> (forall c y c', bytes c -> r c = Ok (y, c') -> is_dbl y /\ bytes c') ->
  forall n c ys c', bytes c -> prep (pmap (fun x => d_mul x e) r) n c = Ok (ys, c') -> Forall is_dbl ys.
Proof.
  intros He Hr. induction n as [|n IH]; intros c ys c' Hc E; cbn [prep] in E.
  - unfold pret in E. injection E as <- <-. constructor.
  - unfold pbind in E. destruct (pmap (fun x => d_mul x e) r c) as [[y c1]|x|] eqn:E1; try discriminate.
    destruct (prep (pmap (fun x => d_mul x e) r) n c1) as [[ys' c2]|x|] eqn:E2; try discriminate. unfold pret in E. injection E as <- <-.
    unfold pmap, pbind, pret in E1. destruct (r c) as [[y0 c0]|x|] eqn:E0; try discriminate. injection E1 as <- <-.
    destruct (Hr _ _ _ Hc E0) as (D & B). constructor; [apply d_mul_is_dbl; assumption|]. apply (IH _ _ _ B E2).
Qed.

Lemma exp2_is_dbl p x : pow_typed p -> is_dbl (d_exp2 p x).
Proof.
  intros H. unfold d_exp2. destruct (d_trunc x) as [k|]; [|apply H].
  destruct (_ && _) eqn:B; [|apply H]. rewrite !andb_true_iff in B. destruct (d_pow2_holds k ltac:(lia)) as [(D & _) _]. exact D.
Qed.

Lemma trace_typed p s t s' : p_left_first p = true -> pow_typed p -> good_file (d_file s) -> d_layouts s = [] ->
  In (g1_format_code (d_g1 s)) good_formats -> d_read_trace p s = Ok (t, s') -> Forall is_dbl (t_smp t).
Proof.
  intros Hp Pw G Hl Hf E. unfold d_read_trace in E.
  destruct (fread TRACE_HEADER_SIZE (d_file s)) as [[buf f1]|e|] eqn:Ef; cbn [bind] in E; try discriminate.
  destruct (rd_trace_header p buf) as [[h0 c0]|e|]; cbn [bind] in E; try discriminate.
  destruct (read_trace_header_ext p s h0 f1) as [[h f2]|e|] eqn:Ex; cbn [bind] in E; try discriminate.
  assert (B2 : bytes (fdata f2)).
  { assert (D1 : fdata f1 = fdata (d_file s)).
    { clear - Ef. unfold fread in Ef. destruct (_ =? _); [injection Ef as <- <-; reflexivity|]. destruct (_ <=? _); [injection Ef as <- <-; reflexivity|discriminate]. }
    assert (Q : forall mj ls n i f h r f', rd_exts p mj ls n i f h = Ok (r, f') -> fdata f' = fdata f).
    { clear. intros mj ls n. induction n as [|n IH]; intros i f h r f' E; cbn [rd_exts] in E; [injection E as _ <-; reflexivity|].
      destruct (fread TRACE_HEADER_EXT_SIZE f) as [[b f1]|e|] eqn:Ef; cbn [bind] in E; try discriminate.
      match type of E with bind ?x _ = _ => destruct x end; cbn [bind] in E; try discriminate.
      rewrite (IH _ _ _ _ _ E). unfold fread in Ef. destruct (_ =? _); [injection Ef as <- <-; reflexivity|]. destruct (_ <=? _); [injection Ef as <- <-; reflexivity|discriminate]. }
    unfold read_trace_header_ext in Ex. destruct (hidx h0 "TR_HDR_EXT") as [v h1]. destruct (get_int v); cbn [bind] in Ex; try discriminate.
    rewrite (Q _ _ _ _ _ _ _ _ Ex), D1. apply G. }
  destruct (read_trace_samples p s h f2) as [[smp f3]|e|] eqn:Es; cbn [bind] in E; try discriminate.
  assert (Et : t_smp t = smp).
  { destruct (d_chans s =? _); [|injection E as <- <-; reflexivity].
    match type of E with bind ?x _ = _ => destruct x end; cbn [bind] in E; try discriminate. injection E as <- <-. reflexivity. }
  rewrite Et. clear Et E. unfold read_trace_samples in Es.
  destruct (curr_ch_set s h) as [c|e|]; cbn [bind] in Es; try discriminate.
  destruct (samp_num_of h c) as [n|e|]; cbn [bind] in Es; try discriminate.
  destruct (d_sample_reader p (g1_format_code (d_g1 s))) as [[bits rs]|e|] eqn:Er; cbn [bind] in Es; try discriminate.
  destruct (resize_to p (wrapu 32 (n * bits) / 8)); cbn [bind] in Es; try discriminate.
  destruct (fread (wrapu 32 (n * bits) / 8) f2) as [[sb f4]|e|] eqn:Eb; cbn [bind] in Es; try discriminate.
  destruct (resize_to p (8 * n)); cbn [bind] in Es; try discriminate.
  destruct (prep _ _ sb) as [[ys cr]|e|] eqn:Ey; cbn [bind] in Es; try discriminate. injection Es as <- <-.
  refine (prep_is_dbl rs _ (exp2_is_dbl p _ Pw) _ _ _ _ _ (fread_bytes _ _ _ _ B2 Eb) Ey).
  exact (sample_is_dbl p _ _ _ Hp Hf Er).
Qed.
