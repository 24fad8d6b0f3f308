(** Proofs about the states of a reader and the traces it returns. *)
From Coq Require Import Reals Floats.SpecFloat Lra.
From Flocq Require Import Core BinarySingleNaN.
From Verif Require Import BaseFacts Bcd BcdSpec BcdFacts BcdFacts2 Platform CodecSpec CodecFacts Fp FpSpec FpReal SampleReal
  TraceHdr HdrFacts SegyTypes SegyCodec ISegy SegdTypes SegdSpec SegdDecSpec SegdTrcSpec SegdReadSpec ISegd OSegd OpenFacts ReadFacts2
  NibFacts FixFacts SegdHdrFacts SegdTrcFacts SegdFileFacts SegdSmpFacts SegdDecFacts SegdOpenFacts SegdOpenProps SegdRecFacts
  SegdTrcRead.
Local Open Scope Z_scope.

(** ** What holds of every state *)

Record reader_inv_with (ls : ext_layouts) (b : list Z) (s : isegd) : Prop := {
  ri_data : fdata (d_file s) = b;
  ri_pos : 0 <= fpos (d_file s);
  ri_layouts : d_layouts s = ls;
  ri_g2 : g2_small (d_g2 s);
  ri_blocks : exists bl, blk_inv bl (d_blocks s);
  ri_counts : no_counts s;
  ri_fmt : In (g1_format_code (d_g1 s)) known_formats;
  ri_eod : d_eod s = len b }.
Notation reader_inv := (reader_inv_with []).
Arguments ri_data {ls}. Arguments ri_pos {ls}. Arguments ri_layouts {ls}. Arguments ri_g2 {ls}. Arguments ri_blocks {ls}.
Arguments ri_counts {ls}. Arguments ri_fmt {ls}. Arguments ri_eod {ls}.

Lemma inv_good {ls} b s : bytes b -> len b < 2 ^ 63 -> reader_inv_with ls b s -> good_file (d_file s).
Proof. intros Hb Hl I. destruct I. split; [congruence|]. split; congruence. Qed.

Lemma known_split fmt : In fmt known_formats -> In fmt safe_formats \/ In fmt bad_formats.
Proof. cbn. intuition. Qed.

Lemma headers_inv {ls} p s b bl : p_left_first p = true -> good_file (d_file s) -> old_rev (rest (d_file s)) ->
  blk_inv bl (d_blocks s) -> g2_small (d_g2 s) -> fdata (d_file s) = b -> d_layouts s = ls -> d_eod s = len b ->
  forall s', read_headers_before_traces p s = Ok s' -> reader_inv_with ls b s'.
Proof.
  intros Hp G Ho Hbl Hg Hd Hl He s' E. destruct (headers_rec p s bl Hp G Ho Hbl Hg) as (_ & S & _).
  destruct (S s' E) as (Sh & L & De & Df & Pf). clear S.
  destruct Sh as (S1 & S2 & S3 & S4 & S5 & S6 & S7 & S8).
  destruct (counts_r _ _ _ _ _ _ _ (rest_bytes _ G) Hg S1) as (C1 & C2 & C3 & C4 & C5 & C6 & C7).
  constructor.
  - congruence.
  - rewrite Pf. assert (0 <= fpos (d_file s)) by apply G. assert (0 <= traces_at_r (rest (d_file s)) (d_g2 s)); [|lia].
    pose proof (rest_bytes _ G) as Hb.
    assert (Sr := dec2_range _ 54 Hb). assert (Nr := dec2_range _ 56 Hb). assert (Ar := nib_range _ 22 Hb).
    assert (Kr : 0 <= skews_r (rest (d_file s))).
    { unfold skews_r, esc_old. destruct (_ =? _); [destruct (two_of _); lia|]. apply dec2_range, Hb. }
    assert (Dr := esc_old_range _ 30 37 (g2_extended_blocks (d_g2 s)) Hb ltac:(apply Hg)).
    assert (Lr := esc_old_range _ 31 39 (g2_external_blocks (d_g2 s)) Hb ltac:(apply Hg)).
    unfold traces_at_r, extds_at_r, sets_at, extds_r, extls_r.
    fold (scans_of (rest (d_file s))) in Sr. fold (sets_of (rest (d_file s))) in Nr. fold (add_of (rest (d_file s))) in Ar. nia.
  - congruence.
  - apply (C6 Ho).
  - destruct S1 as (_ & S1 & _). destruct (add_of _ =? 0); eexists; apply S1.
  - exact S3.
  - unfold read_headers_before_traces in E. 
    destruct (read_general_headers p s) as [[[[[g1 g2] g3] m] f1]|e|]; cbn [bind] in E; try discriminate.
    destruct (d_sample_reader p (g1_format_code g1)) as [r|e|] eqn:Er; cbn [bind] in E; try discriminate.
    destruct (read_scan_types _ _ _ _ _ _) as [[sets f2]|e|]; cbn [bind] in E; try discriminate.
    destruct (resize_to p _) as [?|e|]; cbn [bind] in E; try discriminate.
    destruct (read_blks _ _) as [[? f3]|e|]; cbn [bind] in E; try discriminate.
    destruct (resize_to p _) as [?|e|]; cbn [bind] in E; try discriminate.
    destruct (read_blks _ _) as [[? f4]|e|]; cbn [bind] in E; try discriminate.
    injection E as <-. cbn [d_g1]. exact (reader_known _ _ _ Er).
  - congruence.
Qed.

Lemma blk_nil : blk_inv [] [].
Proof. split; [constructor|]. split; [intros kb []|intros x []]. Qed.

Lemma open_inv {ls} p b s : p_left_first p = true -> bytes b -> len b < 2 ^ 63 -> old_rev b ->
  isegd_open p b ls = Ok s -> reader_inv_with ls b s.
Proof.
  intros Hp Hb Hl Ho E. unfold isegd_open in E. eapply headers_inv; [exact Hp| | | | | | | |exact E].
  - split; [exact Hb|]. split; [cbn; lia|exact Hl].
  - unfold rest. cbn [d_file open_in fpos fdata]. exact Ho.
  - apply (blk_nil : blk_inv [] []).
  - cbn. unfold g2_small. cbn. lia.
  - reflexivity.
  - reflexivity.
  - reflexivity.
Qed.

(** ** The trace read from a state *)

(** One of the three things happens. *)
Lemma step {ls} p b s H : p_left_first p = true -> bytes b -> len b < 2 ^ 63 -> reader_inv_with ls b s -> hdr_read p s H ->
  (forall r, d_read_trace p s <> Ok r) \/
  exists c k Q, in_table s c /\ trace_done p s H c k Q.
Proof.
  intros Hp Hb Hl I Hd. pose proof (inv_good b s Hb Hl I) as G. destruct I as [Id Ip Il Ig _ Ic If _].
  destruct (table_inv s) as [[c T]|Ub].
  - destruct (known_split _ If) as [Hs|Hb'].
    + right. exists c, (sample_bytes (g1_format_code (d_g1 s))), (fun b n ys => List.length ys = n).
      split; [exact T|]. apply trace_safe; assumption.
    + destruct (trace_bad p s H c G Hd Ic Hb' T) as [B1 B2].
      destruct (Z.eq_dec (smp_num s) 0) as [Z0|Nz]; [right|left; apply B2, Nz].
      exists c, 0%nat, (fun b n ys => ys = []). split; [exact T|exact (B1 Z0)].
  - left. apply (trace_outside p s H); auto. intros c T. rewrite (table_ok s c T) in Ub. discriminate.
Qed.

Lemma finish_inv {ls} p b s h smp f3 t s' : p_left_first p = true -> bytes b -> len b < 2 ^ 63 -> reader_inv_with ls b s ->
  fdata f3 = b -> fpos f3 = trace_end s ->
  (last_trace s -> old_rev (skipn (Z.to_nat (trace_end s)) b)) ->
  finish p s h smp f3 = Ok (t, s') -> reader_inv_with ls b s' /\ t = mkTrace h smp.
Proof.
  intros Hp Hb Hl I D3 P3 Ho E.
  assert (P0 : 0 <= trace_end s).
  { unfold trace_end, smp_at, th_at. pose proof (ri_pos _ _ I). rewrite (ri_data _ _ I).
    assert (0 <= byt (slice (fpos (d_file s)) 20 b) 9) by (apply byt_range, bytes_slice, Hb).
    assert (0 <= smp_num s); [|nia].
    unfold smp_num. destruct (_ =? _); [lia|]. unfold te_at. apply big_pos, bytes_slice. rewrite (ri_data _ _ I). exact Hb. }
  unfold finish in E. unfold last_trace in Ho. change ((d_read s + 1) mod 2 ^ 64) with (wrapu 64 (d_read s + 1)) in Ho.
  destruct (Z.eqb_spec (d_chans s) (wrapu 64 (d_read s + 1))) as [L|L].
  - specialize (Ho L). destruct (has_record (d_set s f3 [] 0 0)).
    + destruct (read_headers_before_traces p (d_set s f3 [] 0 0)) as [s2|e|] eqn:E2; cbn [bind] in E; try discriminate.
      injection E as <- <-. split; [|reflexivity]. destruct (ri_blocks _ _ I) as [bl Hbl].
      apply (headers_inv p (d_set s f3 [] 0 0) b bl); cbn [d_set d_file d_blocks d_g2 d_layouts d_eod]; auto.
      * split; [congruence|]. split; [lia|congruence].
      * unfold rest. rewrite D3, P3. exact Ho.
      * apply I.
      * apply I.
      * apply I.
    + cbn [bind] in E. injection E as <- <-. split; [|reflexivity]. destruct I. constructor; cbn; auto; try lia. constructor.
  - injection E as <- <-. split; [|reflexivity]. destruct I. constructor; cbn; auto. lia.
Qed.

Lemma inv_hdr p b s : p_left_first p = true -> bytes b -> len b < 2 ^ 63 -> reader_inv b s -> hdr_read p s (std_hdr s).
Proof. intros Hp Hb Hl I. apply trace_hdr; [exact Hp|exact (inv_good b s Hb Hl I)|apply I|apply I]. Qed.

Lemma reader_invariant p b s : p_left_first p = true -> bytes b -> len b < 2 ^ 63 -> reader p b s -> reader_inv b s.
Proof.
  intros Hp Hb Hl R. induction R as [s Ho E|s t s' R IH E Ho].
  - apply (open_inv p); assumption.
  - destruct (step p b s _ Hp Hb Hl IH (inv_hdr p b s Hp Hb Hl IH)) as [No|(c & k & Q & T & [[[e X] _]|(h & ys & f3 & X & D3 & P3 & _)])].
    + destruct (No _ E).
    + congruence.
    + rewrite X in E. apply (finish_inv p b s _ _ _ _ _ Hp Hb Hl IH ltac:(rewrite D3; apply IH) P3 Ho E).
Qed.

(** Whether the next record can be read does not depend on the trace. *)
Lemma finish_safe {ls} p b s h smp f3 : p_left_first p = true -> bytes b -> len b < 2 ^ 63 -> reader_inv_with ls b s ->
  fdata f3 = b -> fpos f3 = trace_end s -> 0 <= trace_end s ->
  (last_trace s -> old_rev (skipn (Z.to_nat (trace_end s)) b)) -> finish p s h smp f3 <> UB.
Proof.
  intros Hp Hb Hl I D3 P3 P0 Ho. unfold finish. unfold last_trace in Ho.
  change ((d_read s + 1) mod 2 ^ 64) with (wrapu 64 (d_read s + 1)) in Ho.
  destruct (Z.eqb_spec (d_chans s) (wrapu 64 (d_read s + 1))) as [L|L]; [|discriminate].
  specialize (Ho L). destruct (has_record _); [|discriminate]. destruct (ri_blocks _ _ I) as [bl Hbl].
  destruct (headers_rec p (d_set s f3 [] 0 0) bl Hp) as (U & _); cbn [d_set d_file d_blocks d_g2]; auto.
  - split; [congruence|]. split; [lia|congruence].
  - unfold rest. rewrite D3, P3. exact Ho.
  - apply I.
  - destruct (read_headers_before_traces p (d_set s f3 [] 0 0)); cbn [bind]; congruence.
Qed.

Lemma end_pos {ls} b s : bytes b -> reader_inv_with ls b s -> 0 <= trace_end s.
Proof.
  intros Hb I. unfold trace_end, smp_at, th_at. pose proof (ri_pos _ _ I). rewrite (ri_data _ _ I).
  assert (0 <= byt (slice (fpos (d_file s)) 20 b) 9) by (apply byt_range, bytes_slice, Hb).
  assert (0 <= smp_num s); [|nia].
  unfold smp_num. destruct (_ =? _); [lia|]. unfold te_at. apply big_pos, bytes_slice. rewrite (ri_data _ _ I). exact Hb.
Qed.

(** ** Safety *)

Lemma trace_not_ub_w {ls} p b s c H : p_left_first p = true -> bytes b -> len b < 2 ^ 63 -> reader_inv_with ls b s -> hdr_read p s H ->
  In (g1_format_code (d_g1 s)) safe_formats -> in_table s c ->
  (last_trace s -> old_rev (skipn (Z.to_nat (trace_end s)) b)) -> d_read_trace p s <> UB.
Proof.
  intros Hp Hb Hl I Hd Hf T Ho.
  pose proof (inv_good b s Hb Hl I) as G. 
  destruct (trace_safe p s H c Hp G Hd Hf (ri_counts _ _ I) T) as
    [[[e X] _]|(h & ys & f3 & X & D3 & P3 & _)]; [congruence|].
  rewrite X. apply (finish_safe (ls:=ls) p b); auto; [rewrite D3; apply I|apply (end_pos (ls:=ls) b); assumption].
Qed.

Lemma trace_not_ub p b s c : p_left_first p = true -> bytes b -> len b < 2 ^ 63 -> reader p b s ->
  In (g1_format_code (d_g1 s)) safe_formats -> in_table s c ->
  (last_trace s -> old_rev (skipn (Z.to_nat (trace_end s)) b)) -> d_read_trace p s <> UB.
Proof.
  intros Hp Hb Hl R. pose proof (reader_invariant p b s Hp Hb Hl R) as I.
  exact (trace_not_ub_w p b s c _ Hp Hb Hl I (inv_hdr p b s Hp Hb Hl I)).
Qed.

Lemma outside_ub_w {ls} p b s H : p_left_first p = true -> bytes b -> len b < 2 ^ 63 -> reader_inv_with ls b s -> hdr_read p s H ->
  (forall c, ~ in_table s c) -> smp_at s <= len b -> d_read_trace p s = UB.
Proof.
  intros Hp Hb Hl I Hd No L.
  pose proof (inv_good b s Hb Hl I) as G.
  apply (trace_outside p s H Hd No). rewrite (ri_data _ _ I). exact L.
Qed.

Lemma outside_ub p b s : p_left_first p = true -> bytes b -> len b < 2 ^ 63 -> reader p b s ->
  (forall c, ~ in_table s c) -> smp_at s <= len b -> d_read_trace p s = UB.
Proof.
  intros Hp Hb Hl R. pose proof (reader_invariant p b s Hp Hb Hl R) as I.
  exact (outside_ub_w p b s _ Hp Hb Hl I (inv_hdr p b s Hp Hb Hl I)).
Qed.

Lemma bad_ub_w {ls} p b s c H : p_left_first p = true -> bytes b -> len b < 2 ^ 63 -> reader_inv_with ls b s -> hdr_read p s H ->
  In (g1_format_code (d_g1 s)) bad_formats -> in_table s c -> smp_num s <> 0 ->
  (forall r, d_read_trace p s <> Ok r) /\
  (2 ^ 27 <= p_max_alloc p -> smp_at s + smp_num s * bad_bits (g1_format_code (d_g1 s)) / 8 <= len b -> d_read_trace p s = UB).
Proof.
  intros Hp Hb Hl I Hd Hf T Nz.
  pose proof (inv_good b s Hb Hl I) as G.
  destruct (trace_bad p s H c G Hd (ri_counts _ _ I) Hf T) as [_ B].
  destruct (B Nz) as [B1 B2]. split; [exact B1|]. intros A L. apply (B2 A). rewrite (ri_data _ _ I). exact L.
Qed.

Lemma bad_ub p b s c : p_left_first p = true -> bytes b -> len b < 2 ^ 63 -> reader p b s ->
  In (g1_format_code (d_g1 s)) bad_formats -> in_table s c -> smp_num s <> 0 ->
  (forall r, d_read_trace p s <> Ok r) /\
  (2 ^ 27 <= p_max_alloc p -> smp_at s + smp_num s * bad_bits (g1_format_code (d_g1 s)) / 8 <= len b -> d_read_trace p s = UB).
Proof.
  intros Hp Hb Hl R. pose proof (reader_invariant p b s Hp Hb Hl R) as I.
  exact (bad_ub_w p b s c _ Hp Hb Hl I (inv_hdr p b s Hp Hb Hl I)).
Qed.

(** ** Samples *)

Lemma d_lt_eq a b r : holds a r -> holds b r -> d_lt a b = false.
Proof.
  intros Ha Hb. destruct (holds_dec _ _ Ha) as (Va & Fa & Ea). destruct (holds_dec _ _ Hb) as (Vb & Fb & Eb).
  destruct (Req_dec r 0) as [Z|Nz].
  - assert (K : forall f, is_finite_SF f = true -> SF2R radix2 f = 0%R -> exists s, f = S754_zero s).
    { intros f Ff Ef. destruct f as [s|s| |s m e]; try discriminate Ff; [exists s; reflexivity|].
      exfalso. cbn in Ef. apply eq_0_F2R in Ef. destruct s; discriminate Ef. }
    destruct (K _ Fa ltac:(congruence)) as [sa Ka]. destruct (K _ Fb ltac:(congruence)) as [sb Kb].
    unfold d_lt. rewrite Ka, Kb. reflexivity.
  - assert (E : d_dec a = d_dec b).
    { apply (sf_inj 53 1024); auto; [congruence|].
      rewrite <- Ea in Eb. clear - Fa Fb Ea Eb Nz.
      assert (K : forall f, is_finite_SF f = true -> SF2R radix2 f <> 0%R -> sign_SF f = Rlt_bool (SF2R radix2 f) 0).
      { intros f Ff Nf. destruct f as [s|s| |s m e]; try discriminate Ff; [exfalso; apply Nf; reflexivity|].
        cbn [sign_SF SF2R]. destruct s; symmetry.
        - apply Rlt_bool_true. apply F2R_lt_0. reflexivity.
        - apply Rlt_bool_false. apply F2R_ge_0. discriminate. }
      rewrite (K _ Fa), (K _ Fb), Eb by congruence. reflexivity. }
    unfold d_lt. rewrite E. pose proof (d_lt_refl b r Hb) as X. unfold d_lt in X. exact X.
Qed.

Lemma d_exp2_holds p d m : holds d (IZR m) -> -1022 <= m <= 1023 -> d_exp2 p d = d_pow2 m.
Proof.
  intros H Hm. destruct (i2d_holds m ltac:(lia)) as [Hi _].
  unfold d_exp2. rewrite (d_trunc_int _ _ H), (d_lt_eq _ _ _ H Hi), (d_lt_eq _ _ _ Hi H). cbn [negb andb].
  destruct (Z.leb_spec (-1022) m); [|lia]. destruct (Z.leb_spec m 1023); [|lia]. reflexivity.
Qed.

Lemma flt_form x : flt_finite x = true -> is_flt x -> exists k e, flt_val x = (IZR k * pw e)%R /\ Z.abs k <= 2 ^ 24 /\ -149 <= e <= 104.
Proof.
  intros F Hx. unfold flt_val, ieee_val. set (E := ieee_exp 23 8 x). set (M := ieee_man 23 x).
  assert (HE : 0 <= E < 255).
  { unfold flt_finite, ieee_finite in F. fold E in F. change (2 ^ 8 - 1) with 255 in F.
    assert (0 <= E < 256) by (apply Z.mod_pos_bound; lia). destruct (Z.eqb_spec E 255); [discriminate|lia]. }
  assert (HM : 0 <= M < 2 ^ 23) by (apply Z.mod_pos_bound; lia).
  rewrite !pw_powerRZ. change (2 ^ (8 - 1) - 1) with 127.
  destruct (Z.eqb_spec E 0) as [Z0|Nz]; destruct (ieee_neg 23 8 x).
  - exists (- M), (1 - 127 - 23). rewrite opp_IZR. split; [ring|lia].
  - exists M, (1 - 127 - 23). split; [ring|lia].
  - exists (- (2 ^ 23 + M)), (E - 127 - 23). rewrite opp_IZR. split; [ring|lia].
  - exists (2 ^ 23 + M), (E - 127 - 23). split; [ring|lia].
Qed.

Lemma mul_pow2 y r m k e : holds y r -> -31 <= m <= 31 -> r = (IZR k * pw e)%R -> Z.abs k <= 2 ^ 53 -> -1000 <= e <= 900 ->
  holds (d_mul y (d_pow2 m)) (r * powerRZ 2 m).
Proof.
  intros Hy Hm Er Hk He. destruct (d_pow2_holds m ltac:(lia)) as [Hp _]. rewrite pw_powerRZ.
  apply (d_mul_holds _ _ _ _ k (e + m) Hy Hp); try lia. rewrite Er, pw_add. ring.
Qed.

Lemma big_lt b i n : bytes b -> 0 <= big b i n < 256 ^ Z.of_nat n.
Proof.
  intros Hb. split; [apply big_pos, Hb|]. unfold big.
  assert (Q : forall l a, bytes l -> 0 <= a -> fold_left (fun a x => 256 * a + x) l a < (a + 1) * 256 ^ Z.of_nat (List.length l)).
  { induction l as [|x l IH]; intros a Hl Ha; [cbn; lia|]. inversion Hl as [|? ? Hx Hl']; subst.
    unfold is_byte in Hx. cbn [fold_left List.length]. rewrite Nat2Z.inj_succ, Z.pow_succ_r by lia.
    eapply Z.lt_le_trans; [apply IH; [exact Hl'|lia]|]. assert (0 < 256 ^ Z.of_nat (List.length l)) by (apply Z.pow_pos_nonneg; lia). nia. }
  pose proof (bytes_firstn n _ (bytes_skipn i b Hb)) as B. specialize (Q _ 0 B ltac:(lia)).
  eapply Z.lt_le_trans; [exact Q|]. rewrite Z.mul_1_l. apply Z.pow_le_mono_r; [lia|]. pose proof (firstn_le_length n (skipn i b)). lia.
Qed.

Lemma sample_shown p fmt m w y d : bytes w -> In fmt good_formats -> sample_value fmt w y -> holds d (IZR m) -> -31 <= m <= 31 ->
  sample_of fmt m w (d_mul y (d_exp2 p d)).
Proof.
  intros Hw Hf Hv Hd Hm r Hr Hz. rewrite (d_exp2_holds p d m Hd) by lia.
  assert (Si : forall n b, (0 < n <= 4)%nat -> bytes b -> Z.abs (as_signed n (big b 0 n)) <= 2 ^ 53).
  { intros n b Hn Hb. pose proof (big_lt b 0 n Hb) as B. unfold as_signed.
    assert (256 ^ Z.of_nat n <= 2 ^ 32).
    { change (2 ^ 32) with (256 ^ 4). apply Z.pow_le_mono_r; lia. }
    destruct (_ <? _); lia. }
  assert (Hi : forall n b, (0 < n <= 4)%nat -> bytes b -> holds y (IZR (as_signed n (big b 0 n))) ->
    holds (d_mul y (d_pow2 m)) (IZR (as_signed n (big b 0 n)) * powerRZ 2 m)).
  { intros n b Hn Hb Hy. apply (mul_pow2 _ _ m (as_signed n (big b 0 n)) 0 Hy Hm); [rewrite pw_0; ring|apply Si; assumption|lia]. }
  assert (Hff : forall b, bytes b -> flt_finite (big b 0 4) = true -> holds y (flt_val (big b 0 4)) ->
    holds (d_mul y (d_pow2 m)) (flt_val (big b 0 4) * powerRZ 2 m)).
  { intros b Hb F Hy. destruct (flt_form _ F (big_lt b 0 4 Hb)) as (k & e & E & Hk & He).
    apply (mul_pow2 _ _ m k e Hy Hm E); lia. }
  assert (Hdd : forall b, bytes b -> dbl_finite (big b 0 8) = true -> y = big b 0 8 ->
    (exists z, holds z (dbl_val (big b 0 8) * powerRZ 2 m)) ->
    holds (d_mul y (d_pow2 m)) (dbl_val (big b 0 8) * powerRZ 2 m)).
  { intros b Hb F -> [z Z]. destruct (d_pow2_holds m ltac:(lia)) as [Hp _]. rewrite pw_powerRZ in *.
    apply (d_mul_dbl _ _ z _ _); auto. split; [exact (big_lt b 0 8 Hb)|]. auto. }
  assert (Hw' : bytes (rev w)) by (apply Forall_rev, Hw).
  unfold good_formats in Hf. cbn [In] in Hf.
  destruct Hf as [<-|[<-|[<-|[<-|[<-|[<-|[<-|[]]]]]]]]; cbn [sample_value word_real] in *.
  - subst r. apply Hi; [lia|exact Hw|exact Hv].
  - subst r. apply Hi; [lia|exact Hw|exact Hv].
  - destruct Hr as [F ->]. apply Hff; auto.
  - destruct Hr as [F ->]. apply Hdd; auto.
  - subst r. apply Hi; [lia|exact Hw'|exact Hv].
  - destruct Hr as [F ->]. apply Hff; auto.
  - destruct Hr as [F ->]. apply Hdd; auto.
Qed.

Lemma trace_decoded_w {ls} p b s c t s' H : p_left_first p = true -> bytes b -> len b < 2 ^ 63 -> reader_inv_with ls b s -> hdr_read p s H ->
  In (g1_format_code (d_g1 s)) good_formats -> d_read_trace p s = Ok (t, s') ->
  in_table s c ->
  H (t_hdr t) /\
  (forall m, holds (c_descale c) (IZR m) -> -31 <= m <= 31 ->
   Forall2 (sample_of (g1_format_code (d_g1 s)) m)
     (words (skipn (Z.to_nat (smp_at s)) b) (sample_bytes (g1_format_code (d_g1 s))) (Z.to_nat (smp_num s))) (t_smp t)) /\
  len (t_smp t) = smp_num s /\
  (~ last_trace s -> fdata (d_file s') = b /\ fpos (d_file s') = trace_end s /\ d_read s' = (d_read s + 1) mod 2 ^ 64) /\
  trace_end s <= len b.
Proof.
  intros Hp Hb Hl I Hd Hf E T.
  pose proof (inv_good b s Hb Hl I) as G.
  destruct (trace_dec p s H c Hp G Hd Hf (ri_counts _ _ I) T) as
    [[[e X] _]|(h & ys & f3 & X & D3 & P3 & L3 & H1 & H4)]; [congruence|].
  rewrite X in E. rewrite (ri_data _ _ I) in *.
  assert (Et : t = mkTrace h (map (fun y => d_mul y (d_exp2 p (c_descale c))) ys)).
  { unfold finish in E. destruct (_ =? _); [|injection E as <- <-; reflexivity].
    match type of E with bind ?x _ = _ => destruct x end; cbn [bind] in E; try discriminate. injection E as <- <-. reflexivity. }
  subst t. cbn [t_hdr t_smp]. split; [exact H1|].
  split; [|split; [|split; [|exact L3]]].
  - intros m Hds Hm. pose proof (words_slice b (smp_at s) (sample_bytes (g1_format_code (d_g1 s))) (Z.to_nat (smp_num s))) as W.
    assert (N0 : 0 <= smp_num s).
    { unfold smp_num. destruct (_ =? _); [lia|]. unfold te_at. apply big_pos, bytes_slice. rewrite (ri_data _ _ I). exact Hb. }
    assert (S0 : 0 <= smp_at s).
    { unfold smp_at, th_at. pose proof (ri_pos _ _ I). rewrite (ri_data _ _ I).
      assert (0 <= byt (slice (fpos (d_file s)) 20 b) 9) by (apply byt_range, bytes_slice, Hb). lia. }
    rewrite Z2Nat.id in W by exact N0. rewrite W in H4 by lia. clear W.
    assert (Bw : Forall bytes (words (skipn (Z.to_nat (smp_at s)) b) (sample_bytes (g1_format_code (d_g1 s))) (Z.to_nat (smp_num s)))).
    { apply Forall_forall. intros w Hw. apply in_map_iff in Hw. destruct Hw as (i & <- & _).
      apply bytes_firstn, bytes_skipn, bytes_skipn, Hb. }
    revert H4 Bw. clear - Hf Hds Hm. generalize (words (skipn (Z.to_nat (smp_at s)) b) (sample_bytes (g1_format_code (d_g1 s))) (Z.to_nat (smp_num s))).
    intros ws F. induction F as [|w y ws ys Hw F IH]; intros Bw; cbn [map]; constructor; inversion Bw; subst.
    + apply sample_shown; assumption.
    + apply IH. assumption.
  - apply F2_length in H4. unfold len. rewrite map_length, <- H4. unfold words. rewrite map_length, seq_length.
    assert (N0 : 0 <= smp_num s); [|lia].
    unfold smp_num. destruct (_ =? _); [lia|]. unfold te_at. apply big_pos, bytes_slice. rewrite (ri_data _ _ I). exact Hb.
  - intros Nl. unfold finish in E. unfold last_trace in Nl. change ((d_read s + 1) mod 2 ^ 64) with (wrapu 64 (d_read s + 1)) in *.
    destruct (Z.eqb_spec (d_chans s) (wrapu 64 (d_read s + 1))) as [Q|Q]; [contradiction|].
    injection E as <- . cbn. auto.
Qed.

Lemma trace_decoded p b s c t s' : p_left_first p = true -> bytes b -> len b < 2 ^ 63 -> reader p b s ->
  In (g1_format_code (d_g1 s)) good_formats -> d_read_trace p s = Ok (t, s') ->
  in_table s c ->
  th_of (th_at s) (t_hdr t) /\
  (byt (th_at s) 9 <> 0 -> te_of (te_at s) (g2_major (d_g2 s)) (t_hdr t)) /\
  (byt (th_at s) 9 = 0 -> forall k, In k ext_keys -> hget (t_hdr t) k = None) /\
  (forall m, holds (c_descale c) (IZR m) -> -31 <= m <= 31 ->
   Forall2 (sample_of (g1_format_code (d_g1 s)) m)
     (words (skipn (Z.to_nat (smp_at s)) b) (sample_bytes (g1_format_code (d_g1 s))) (Z.to_nat (smp_num s))) (t_smp t)) /\
  len (t_smp t) = smp_num s /\
  (~ last_trace s -> fdata (d_file s') = b /\ fpos (d_file s') = trace_end s /\ d_read s' = (d_read s + 1) mod 2 ^ 64) /\
  trace_end s <= len b.
Proof.
  intros Hp Hb Hl R. pose proof (reader_invariant p b s Hp Hb Hl R) as I.
  intros Hf E T. destruct (trace_decoded_w p b s c t s' _ Hp Hb Hl I (inv_hdr p b s Hp Hb Hl I) Hf E T) as ((H1 & H2 & H3) & X). auto.
Qed.

Lemma trace_complete_w {ls} p b s c H : p_left_first p = true -> bytes b -> len b < 2 ^ 63 -> reader_inv_with ls b s -> hdr_read p s H ->
  In (g1_format_code (d_g1 s)) safe_formats -> in_table s c -> ~ last_trace s \/ trace_end s = len b ->
  trace_end s <= len b -> 2 ^ 27 <= p_max_alloc p -> exists t s', d_read_trace p s = Ok (t, s').
Proof.
  intros Hp Hb Hl I Hd Hf T Nl L A.
  pose proof (inv_good b s Hb Hl I) as G.
  destruct (trace_safe p s H c Hp G Hd Hf (ri_counts _ _ I) T) as
    [[_ X]|(h & ys & f3 & X & D3 & P3 & L3 & _)].
  - rewrite (ri_data _ _ I) in X. specialize (X A). lia.
  - rewrite X. unfold finish. unfold last_trace in Nl. change ((d_read s + 1) mod 2 ^ 64) with (wrapu 64 (d_read s + 1)) in *.
    destruct (Z.eqb_spec (d_chans s) (wrapu 64 (d_read s + 1))) as [Q|Q]; [|eexists _, _; reflexivity].
    destruct Nl as [Nl|Nl]; [contradiction|]. unfold has_record. cbn [d_set d_file d_eod]. rewrite P3, (ri_eod _ _ I), Nl, Z.eqb_refl.
    eexists _, _. reflexivity.
Qed.

Lemma trace_complete p b s c : p_left_first p = true -> bytes b -> len b < 2 ^ 63 -> reader p b s ->
  In (g1_format_code (d_g1 s)) safe_formats -> in_table s c -> ~ last_trace s \/ trace_end s = len b ->
  trace_end s <= len b -> 2 ^ 27 <= p_max_alloc p -> exists t s', d_read_trace p s = Ok (t, s').
Proof.
  intros Hp Hb Hl R. pose proof (reader_invariant p b s Hp Hb Hl R) as I.
  exact (trace_complete_w p b s c _ Hp Hb Hl I (inv_hdr p b s Hp Hb Hl I)).
Qed.

Lemma stuck_samples_w {ls} p b s c t s' H : p_left_first p = true -> bytes b -> len b < 2 ^ 63 -> reader_inv_with ls b s -> hdr_read p s H ->
  In (g1_format_code (d_g1 s)) [8022; 8042] -> in_table s c -> d_read_trace p s = Ok (t, s') ->
  len (t_smp t) = smp_num s /\ exists x, Forall (eq x) (t_smp t).
Proof.
  intros Hp Hb Hl I Hd Hf T E.
  pose proof (inv_good b s Hb Hl I) as G.
  destruct (trace_stuck p s H c G Hd Hf (ri_counts _ _ I) T) as
    [[[e X] _]|(h & ys & f3 & X & D3 & P3 & L3 & H1 & H4 & y & H5)]; [congruence|].
  rewrite X in E. 
  assert (Et : t = mkTrace h (map (fun y => d_mul y (d_exp2 p (c_descale c))) ys)).
  { unfold finish in E. destruct (_ =? _); [|injection E as <- <-; reflexivity].
    match type of E with bind ?x _ = _ => destruct x end; cbn [bind] in E; try discriminate. injection E as <- <-. reflexivity. }
  subst t. cbn [t_smp]. unfold len. rewrite map_length, H4. split.
  - assert (N0 : 0 <= smp_num s); [|lia].
    unfold smp_num. destruct (_ =? _); [lia|]. unfold te_at. apply big_pos, bytes_slice. rewrite (ri_data _ _ I). exact Hb.
  - eexists. apply Forall_map. eapply Forall_impl; [|exact H5]. intros a <-. reflexivity.
Qed.

Lemma stuck_samples p b s c t s' : p_left_first p = true -> bytes b -> len b < 2 ^ 63 -> reader p b s ->
  In (g1_format_code (d_g1 s)) [8022; 8042] -> in_table s c -> d_read_trace p s = Ok (t, s') ->
  len (t_smp t) = smp_num s /\ exists x, Forall (eq x) (t_smp t).
Proof.
  intros Hp Hb Hl R. pose proof (reader_invariant p b s Hp Hb Hl R) as I.
  exact (stuck_samples_w p b s c t s' _ Hp Hb Hl I (inv_hdr p b s Hp Hb Hl I)).
Qed.

(** ** The headers of the next record *)

Lemma last_app bl ml k x : last_with (bl ++ ml) k x -> (exists y, In y ml /\ byt y 18 = k) -> last_with ml k x.
Proof.
  intros (i & Ei & Ek & Hj) (y & Hy & Ey). apply In_nth_error in Hy. destruct Hy as [j Hy].
  assert (Li : (List.length bl <= i)%nat).
  { destruct (Nat.le_gt_cases (List.length bl) i) as [?|L]; [assumption|]. exfalso.
    apply (Hj (List.length bl + j)%nat y); [lia| |exact Ey]. rewrite nth_error_app2 by lia.
    replace (List.length bl + j - List.length bl)%nat with j by lia. exact Hy. }
  exists (i - List.length bl)%nat. rewrite nth_error_app2 in Ei by exact Li. split; [exact Ei|]. split; [exact Ek|].
  intros j' y' Hj' Ey'. apply (Hj (List.length bl + j')%nat); [lia|]. rewrite nth_error_app2 by lia.
  replace (List.length bl + j' - List.length bl)%nat with j' by lia. exact Ey'.
Qed.

Lemma get_gN_blk (s : isegd) bl : blk_inv bl (d_blocks s) -> g1_add_blocks (d_g1 s) <> 0 -> g2_major (d_g2 s) < 3 ->
  exists hs, get_gN s = Ok hs /\
    (forall h, In h hs -> exists x, last_with bl (gN_block_num h) x /\ ghN_of x h) /\
    (forall x, In x bl -> exists h, In h hs /\ gN_block_num h = byt x 18).
Proof.
  intros (S & I & K) Na Mj. unfold get_gN.
  destruct (Z.eqb_spec (g1_add_blocks (d_g1 s)) 0) as [Z0|Nz]; [contradiction|].
  destruct (Z.ltb_spec 2 (g2_major (d_g2 s))) as [Q|Q]; [lia|]. cbn [orb].
  clear S. revert I K. generalize (d_blocks s). intros m I K.
  assert (X : exists hs, mapM (fun kb : Z * addblk => match snd kb with AN h => Ok h | A3 _ _ _ => UB end) m = Ok hs /\
    (forall h, In h hs -> In (gN_block_num h, AN h) m) /\ (forall k, In k (map fst m) -> exists h, In h hs /\ gN_block_num h = k)).
  { clear K. induction m as [|kb m IH]; cbn [mapM]; [exists []; split; [reflexivity|]; split; [intros h []|intros k []]|].
    destruct IH as (hs & E & X1 & X2); [intros kb' Hkb; apply I; right; exact Hkb|].
    destruct (I kb (or_introl eq_refl)) as (h & x & E1 & E2 & _). rewrite E1. cbn [bind]. rewrite E. cbn [bind].
    exists (h :: hs). split; [reflexivity|]. split.
    - intros h' [<-|H]; [left; destruct kb; cbn in *; congruence|right; auto].
    - intros k [<-|H]; [exists h; split; [left; reflexivity|auto]|].
      destruct (X2 k H) as (h' & X3 & X4). exists h'. split; [right; exact X3|exact X4]. }
  destruct X as (hs & E & X1 & X2). exists hs. split; [exact E|]. split.
  - intros h Hh. destruct (I _ (X1 h Hh)) as (h' & x & E1 & E2 & E3 & E4). cbn [fst snd] in *.
    injection E1 as <-. exists x. split; [exact E3|exact E4].
  - intros x Hx. apply X2, K, Hx.
Qed.

Lemma esc_same b i two old : (add_of b = 0 -> byt b i <> 255) -> esc_old b i two old = esc_of b i two.
Proof.
  intros N. unfold esc_old, esc_of, two_of. destruct (Z.eqb_spec (byt b i) 255) as [E|E]; [|reflexivity].
  destruct (Z.eqb_spec (add_of b) 0) as [Z|Z]; cbn [negb]; [destruct (N Z E)|reflexivity].
Qed.

Lemma next_record_w {ls} p b s c t s' H : p_left_first p = true -> bytes b -> len b < 2 ^ 63 -> reader_inv_with ls b s -> hdr_read p s H ->
  In (g1_format_code (d_g1 s)) safe_formats -> in_table s c -> last_trace s ->
  let b' := skipn (Z.to_nat (trace_end s)) b in
  old_rev b' -> no_escape b' -> trace_end s <> len b -> d_read_trace p s = Ok (t, s') ->
  gh1_of (slice 0 32 b') (d_g1 s') /\
  (add_of b' = 0 -> get_g2 s' = None) /\
  (add_of b' <> 0 -> exists g, get_g2 s' = Some g /\ gh2_of (slice 32 32 b') g) /\
  (exists hs, get_gN s' = Ok hs /\ (add_of b' = 0 -> hs = []) /\
    (forall h x, In h hs -> In x (more_blocks b') -> byt x 18 = gN_block_num h ->
       exists y, last_with (more_blocks b') (gN_block_num h) y /\ ghN_of y h) /\
    (forall x, In x (more_blocks b') -> exists h, In h hs /\ gN_block_num h = byt x 18)) /\
  Forall2 (Forall2 chset_of) (map (scan_blocks b') (seq 0 (Z.to_nat (scans_of b')))) (d_sets s') /\
  d_extd s' = blocks32 b' (extds_at b') (Z.to_nat (extds_of b')) /\
  d_extl s' = blocks32 b' (extds_at b' + 32 * extds_of b') (Z.to_nat (extls_of b')) /\
  fdata (d_file s') = b /\ fpos (d_file s') = trace_end s + traces_at b' /\
  d_chans s' = fold_right Z.add 0 (map c_channels (concat (d_sets s'))) /\ d_read s' = 0.
Proof.
  intros Hp Hb Hl I Hd Hf T La b' Ho Ne Nend E.
  pose proof (inv_good b s Hb Hl I) as G. pose proof (end_pos b s Hb I) as P0.
  destruct (trace_safe p s H c Hp G Hd Hf (ri_counts _ _ I) T) as
    [[[e X] _]|(h & ys & f3 & X & D3 & P3 & _)]; [congruence|].
  rewrite X in E. unfold finish in E. unfold last_trace in La. change ((d_read s + 1) mod 2 ^ 64) with (wrapu 64 (d_read s + 1)) in La.
  rewrite La, Z.eqb_refl in E. unfold has_record in E. cbn [d_set d_file d_eod] in E. rewrite P3, (ri_eod _ _ I) in E.
  destruct (Z.eqb_spec (trace_end s) (len b)) as [?|_]; [contradiction|]. cbn [negb] in E.
  destruct (read_headers_before_traces p (d_set s f3 [] 0 0)) as [s2|e|] eqn:E2; cbn [bind] in E; try discriminate.
  injection E as _ <-. destruct (ri_blocks _ _ I) as [bl Hbl]. rewrite (ri_data _ _ I) in D3.
  assert (G3 : good_file f3) by (split; [congruence|split; [lia|congruence]]).
  assert (Er : rest f3 = b') by (unfold rest; rewrite D3, P3; reflexivity).
  destruct (headers_rec p (d_set s f3 [] 0 0) bl Hp) as (_ & S & _); cbn [d_set d_file d_blocks d_g2]; auto.
  { rewrite Er. exact Ho. }
  { apply I. }
  destruct (S _ E2) as (Sh & _ & _ & Df & Pf). clear S. cbn [d_set d_file d_g2] in Sh, Df, Pf. rewrite Er in Sh, Pf.
  destruct Sh as (S1 & S2 & S3 & S4 & S5 & S6 & S7 & S8).
  assert (Hb' : bytes b') by (apply bytes_skipn, Hb).
  destruct (counts_r _ _ _ _ _ _ _ Hb' (ri_g2 _ _ I) S1) as (C1 & C2 & C3 & C4 & C5 & C6 & C7).
  assert (Xd : extds_r b' (d_g2 s) = extds_of b') by (apply esc_same; apply Ne).
  assert (Xl : extls_r b' (d_g2 s) = extls_of b') by (apply esc_same; apply Ne).
  assert (Xs : skews_r b' = skews_of b').
  { unfold skews_r, skews_of, esc_old, esc_of. destruct (_ =? _); [destruct (two_of b')|]; reflexivity. }
  assert (Xa : extds_at_r b' = extds_at b') by (unfold extds_at_r, extds_at; rewrite Xs; reflexivity).
  assert (Ha : g1_add_blocks (d_g1 s2) = add_of b').
  { destruct S1 as ((_ & _ & _ & _ & H1 & _) & _). rewrite H1. apply nib_slice. lia. }
  assert (Xb : scan_blocks_r b' = scan_blocks b') by (unfold scan_blocks_r, scan_blocks; rewrite Xs; reflexivity).
  rewrite Xa, Xd in S4, S5. rewrite Xl in S5. rewrite Xb in S2.
  assert (Mj := proj1 (proj2 (C6 Ho))).
  destruct S1 as (H1 & H2 & _). split; [exact H1|]. split; [|split; [|split]].
  - intros Z0. unfold get_g2. rewrite Ha, Z0. reflexivity.
  - intros Nz. unfold get_g2. rewrite Ha. destruct (Z.eqb_spec (add_of b') 0); [contradiction|].
    eexists. split; [reflexivity|apply H2].
  - destruct (Z.eqb_spec (add_of b') 0) as [Z0|Nz].
    + exists []. unfold get_gN. rewrite Ha, Z0. cbn [Z.eqb orb]. split; [reflexivity|]. split; [reflexivity|].
      split; [intros h0 x []|]. intros x Hx. unfold more_blocks in Hx. rewrite Z0 in Hx. destruct Hx.
    + destruct H2 as (_ & _ & H2). rewrite <- Ha in Nz.
      destruct (get_gN_blk s2 _ H2 Nz Mj) as (hs & Eh & K1 & K2). exists hs. split; [exact Eh|]. split; [intros Q; congruence|]. split.
      * intros h0 x Hh Hx Ek. destruct (K1 h0 Hh) as (y & L & Hy). exists y. split; [|exact Hy].
        apply (last_app bl); [exact L|]. exists x. auto.
      * intros x Hx. apply K2. apply in_or_app. right. exact Hx.
  - split; [exact S2|]. split; [exact S4|]. split; [exact S5|]. split; [congruence|]. split.
    + rewrite Pf, P3. unfold traces_at_r, traces_at. rewrite Xa, Xd, Xl. reflexivity.
    + split; [exact S6|exact S7].
Qed.

Lemma next_record p b s c t s' : p_left_first p = true -> bytes b -> len b < 2 ^ 63 -> reader p b s ->
  In (g1_format_code (d_g1 s)) safe_formats -> in_table s c -> last_trace s ->
  let b' := skipn (Z.to_nat (trace_end s)) b in
  old_rev b' -> no_escape b' -> trace_end s <> len b -> d_read_trace p s = Ok (t, s') ->
  gh1_of (slice 0 32 b') (d_g1 s') /\
  (add_of b' = 0 -> get_g2 s' = None) /\
  (add_of b' <> 0 -> exists g, get_g2 s' = Some g /\ gh2_of (slice 32 32 b') g) /\
  (exists hs, get_gN s' = Ok hs /\ (add_of b' = 0 -> hs = []) /\
    (forall h x, In h hs -> In x (more_blocks b') -> byt x 18 = gN_block_num h ->
       exists y, last_with (more_blocks b') (gN_block_num h) y /\ ghN_of y h) /\
    (forall x, In x (more_blocks b') -> exists h, In h hs /\ gN_block_num h = byt x 18)) /\
  Forall2 (Forall2 chset_of) (map (scan_blocks b') (seq 0 (Z.to_nat (scans_of b')))) (d_sets s') /\
  d_extd s' = blocks32 b' (extds_at b') (Z.to_nat (extds_of b')) /\
  d_extl s' = blocks32 b' (extds_at b' + 32 * extds_of b') (Z.to_nat (extls_of b')) /\
  fdata (d_file s') = b /\ fpos (d_file s') = trace_end s + traces_at b' /\
  d_chans s' = fold_right Z.add 0 (map c_channels (concat (d_sets s'))) /\ d_read s' = 0.
Proof.
  intros Hp Hb Hl R. pose proof (reader_invariant p b s Hp Hb Hl R) as I.
  exact (next_record_w p b s c t s' _ Hp Hb Hl I (inv_hdr p b s Hp Hb Hl I)).
Qed.

(** ** Other format codes *)

Lemma reader_other p fmt : ~ In fmt known_formats -> d_sample_reader p fmt = Throw ESedaman.
Proof.
  intros N. assert (K : forall k, In k known_formats -> fmt <> k) by (intros k Hk ->; exact (N Hk)).
  unfold d_sample_reader.
  repeat match goal with |- match ?x with _ => _ end = _ =>
    destruct x; try reflexivity; try (exfalso; eapply K; [|reflexivity]; cbn [In known_formats]; tauto) end.
Qed.
Lemma writer_other p fmt : ~ In fmt known_formats -> d_sample_writer p fmt = Throw ESedaman.
Proof.
  intros N. assert (K : forall k, In k known_formats -> fmt <> k) by (intros k Hk ->; exact (N Hk)).
  unfold d_sample_writer.
  repeat match goal with |- match ?x with _ => _ end = _ =>
    destruct x; try reflexivity; try (exfalso; eapply K; [|reflexivity]; cbn [In known_formats]; tauto) end.
Qed.

Lemma open_refused p b ls : p_left_first p = true -> bytes b -> len b < 2 ^ 63 -> old_rev b ->
  sets_at b <= len b -> ~ In (dec b 4 4) known_formats -> isegd_open p b ls = Throw ESedaman.
Proof.
  intros Hp Hb Hl Ho L N. unfold isegd_open, read_headers_before_traces.
  set (s := mkD _ _ _ _ _ _ _ _ _ _ _ _).
  assert (G : good_file (d_file s)) by (split; [exact Hb|split; [cbn; lia|exact Hl]]).
  assert (Er : rest (d_file s) = b) by reflexivity.
  destruct (general_rec p s [] Hp G ltac:(rewrite Er; exact Ho) blk_nil) as (_ & S & C). rewrite Er in S, C.
  destruct C as [[[[[g1 g2] g3] m] f1] E]; [exact L|]. specialize (S _ _ E). rewrite E. cbn [bind].
  destruct S as (_ & _ & (H1 & _ & L2 & _)).
  replace (g1_format_code g1) with (dec b 4 4); [rewrite (reader_other p _ N); reflexivity|].
  destruct H1 as (_ & H1 & _). rewrite H1, dec_slice by (unfold len in L2; lia). reflexivity.
Qed.

Lemma open_known p b ls s : isegd_open p b ls = Ok s -> In (g1_format_code (d_g1 s)) known_formats.
Proof.
  unfold isegd_open, read_headers_before_traces. set (s0 := mkD _ _ _ _ _ _ _ _ _ _ _ _). clearbody s0. intros E.
  destruct (read_general_headers p s0) as [[[[[g1 g2] g3] m] f1]|e|]; cbn [bind] in E; try discriminate.
  destruct (d_sample_reader p (g1_format_code g1)) as [r|e|] eqn:Er; cbn [bind] in E; try discriminate.
  destruct (read_scan_types _ _ _ _ _ _) as [[sets f2]|e|]; cbn [bind] in E; try discriminate.
  destruct (resize_to p _) as [?|e|]; cbn [bind] in E; try discriminate.
  destruct (read_blks _ _) as [[? f3]|e|]; cbn [bind] in E; try discriminate.
  destruct (resize_to p _) as [?|e|]; cbn [bind] in E; try discriminate.
  destruct (read_blks _ _) as [[? f4]|e|]; cbn [bind] in E; try discriminate.
  injection E as <-. cbn [d_g1]. exact (reader_known _ _ _ Er).
Qed.

Lemma write_refused p g1 g2 sets adds extd extl ls : ~ In (g1_format_code g1) known_formats ->
  (forall o, osegd_open p g1 g2 sets adds extd extl ls <> Ok o) /\
  osegd_open p g1 g2 sets [] extd extl ls = Throw ESedaman.
Proof.
  intros N. unfold osegd_open. rewrite (writer_other p _ N). split.
  - intros o. destruct (SegdTypes.add_blocks [] adds) as [m|e|]; cbn [bind]; try discriminate. destruct (negb _); discriminate.
  - cbn [SegdTypes.add_blocks bind]. destruct (negb _); reflexivity.
Qed.
