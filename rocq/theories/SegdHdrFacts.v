(** SEG-D header blocks: what the writer stores and what the reader makes of
    it. *)
From Coq Require Import Reals Lra.
From Verif Require Import BaseFacts Bcd BcdSpec BcdFacts BcdFacts2 Platform CodecSpec Fp FpSpec
  FpReal SampleReal SegyTypes SegyCodec CodecFacts SegdTypes SegdSpec ISegd OSegd NibFacts FixFacts.
Local Open Scope Z_scope.

(** ** Pieces *)

Lemma below_nat n v : below n v -> 0 <= v < 10 ^ Z.of_nat n.
Proof. exact (fun H => H). Qed.

Lemma RN_dig x skip n v : List.length x = lead skip -> (0 < n)%nat -> below n v ->
  RN x (from_bcd skip n) (digits n v) v.
Proof.
  intros Hx Hn Hv. pose proof (RN_bcd x skip n (digits n v) Hx (digits_length n v) Hn) as H.
  rewrite pos_value_digits, Z.mod_small in H by exact Hv. exact H.
Qed.

Lemma esc_length n v : List.length (esc n v) = n.
Proof. unfold esc. destruct (10 ^ Z.of_nat n <=? v); [apply repeat_length|apply digits_length]. Qed.

Lemma RN_esc n v : (0 < n)%nat -> 0 <= v -> RN [] (from_bcd false n) (esc n v) (unesc n v).
Proof.
  intros Hn Hv. pose proof (RN_bcd [] false n (esc n v) eq_refl (esc_length n v) Hn) as H.
  unfold esc, unesc in *. destruct (Z.leb_spec (10 ^ Z.of_nat n) v) as [L|L]; [exact H|].
  rewrite pos_value_digits, Z.mod_small in H by lia. exact H.
Qed.

Lemma WN_dig x vs skip n v m : List.length x = lead skip -> 0 < vs <= 8 -> (0 < n <= 12)%nat ->
  0 <= v < m -> m <= 2 ^ (8 * vs) -> WN x (to_bcd vs v skip n) (digits n v).
Proof. intros Hx Hvs Hn Hv Hm. apply WN_bcd; auto. lia. Qed.

Lemma WN_esc2 vs v : 0 < vs <= 8 -> 0 <= v < 2 ^ (8 * vs) -> WN [] (w_esc2 vs v) (esc 2 v).
Proof.
  intros Hvs Hv. unfold w_esc2, esc. change (10 ^ Z.of_nat 2) with 100.
  destruct (Z.ltb_spec 99 v); destruct (Z.leb_spec 100 v); try lia.
  - apply (WN_put [255]). repeat constructor; lia.
  - apply WN_bcd; auto. lia.
Qed.

Lemma WN_esc4 vs v : 0 < vs <= 8 -> 0 <= v < 2 ^ (8 * vs) -> WN [] (w_esc4 vs v) (esc 4 v).
Proof.
  intros Hvs Hv. unfold w_esc4, esc. change (10 ^ Z.of_nat 4) with 10000.
  destruct (Z.ltb_spec 9999 v); destruct (Z.leb_spec 10000 v); try lia.
  - apply (WN_put (wr Swapped 2 65535)). apply wr_bytes.
  - apply WN_bcd; auto. lia.
Qed.

Lemma WN_byte v : WN [] (wbyte v) (nibs [v mod 256]).
Proof. apply (WN_put [wrapu 8 v]). repeat constructor; apply (wrapu_bound 8 v); lia. Qed.

Lemma WN_byte_id v : 0 <= v < 256 -> WN [] (wbyte v) (nibs [v]).
Proof. intros H. pose proof (WN_byte v) as K. rewrite Z.mod_small in K by exact H. exact K. Qed.

Lemma be1 v : be_bytes 1 v = [v mod 256].
Proof.
  unfold be_bytes, le_bytes. cbn [seq map rev app]. change (Z.of_nat 0) with 0.
  rewrite Z.pow_0_r, Z.div_1_r. reflexivity.
Qed.

Lemma RN_r8 v : 0 <= v < 256 -> RN [] r8 (nibs [v]) v.
Proof.
  intros H. pose proof (RN_u 1 v) as K. rewrite be1, Z.mod_small in K by exact H.
  rewrite wrapu_small in K by exact H. exact K.
Qed.

Lemma WN_16 v : WN [] (w16 v) (nibs (be_bytes 2 v)).
Proof. unfold w16. rewrite wr_swapped. apply WN_put, be_bytes_bytes. Qed.
Lemma WN_24 v : WN [] (w24 v) (nibs (be_bytes 3 v)).
Proof. unfold w24. rewrite wr24_swapped. apply WN_put, be_bytes_bytes. Qed.

Lemma RN_16 v : 0 <= v < 2 ^ 16 -> RN [] r16 (nibs (be_bytes 2 v)) v.
Proof. intros H. pose proof (RN_u 2 v) as K. rewrite wrapu_small in K by exact H. exact K. Qed.
Lemma RN_32 v : 0 <= v < 2 ^ 32 -> RN [] r32 (nibs (be_bytes 4 v)) v.
Proof. intros H. pose proof (RN_u 4 v) as K. rewrite wrapu_small in K by exact H. exact K. Qed.
Lemma RN_24 p v : p_left_first p = true -> 0 <= v < 2 ^ 24 ->
  RN [] (r24 p) (nibs (be_bytes 3 v)) v.
Proof. intros Hp H. pose proof (RN_u24 p v Hp) as K. rewrite wrapu_small in K by exact H. exact K. Qed.

Lemma RN_last {A B} x (r : P A) ns v (f : A -> P B) v2 :
  Nat.even (List.length x + List.length ns) = true ->
  RN x r ns v -> RN [] (f v) [] v2 -> RN x (pbind r f) ns v2.
Proof.
  intros Ev H1 H2. rewrite <- (app_nil_r ns). apply (RN_even x r ns v f [] v2 Ev H1 H2).
Qed.

Lemma RN_val {A} x (r : P A) ns v v' : v = v' -> RN x r ns v -> RN x r ns v'.
Proof. intros <-. exact (fun H => H). Qed.

Lemma nibs_even l : Nat.even (List.length (@nil Z) + List.length (nibs l)) = true.
Proof. rewrite nibs_length. cbn [List.length Nat.add]. apply Nat.even_spec. exists (List.length l). lia. Qed.
Lemma dig_even (x : list Z) n v : Nat.even (List.length x + n) = true ->
  Nat.even (List.length x + List.length (digits n v)) = true.
Proof. rewrite digits_length. exact (fun H => H). Qed.
Lemma esc_even n v : Nat.even n = true ->
  Nat.even (List.length (@nil Z) + List.length (esc n v)) = true.
Proof. rewrite esc_length. exact (fun H => H). Qed.

Lemma log2_pow p w e : 0 <= e -> log2_u p w (2 ^ e) = Ok e.
Proof.
  intros He. unfold log2_u. pose proof (pow2_pos e He).
  destruct (Z.ltb_spec 0 (2 ^ e)); [|lia]. rewrite Z.log2_pow2 by lia.
  rewrite Z.eqb_refl. reflexivity.
Qed.

Lemma mantissa_one p e : 0 <= e < 16 -> d2s p 8 (d_div (i2d (2 ^ e)) (d_pow2 e)) = Ok 1.
Proof.
  intros He.
  assert (B : 0 < 2 ^ e <= 2 ^ 16).
  { split; [apply pow2_pos; lia|]. apply Z.pow_le_mono_r; lia. }
  destruct (i2d_holds (2 ^ e) ltac:(lia)) as [Hi _].
  destruct (d_pow2_holds e ltac:(lia)) as [Hp _].
  assert (E : (IZR (2 ^ e) / pw e = IZR 1 * pw 0)%R).
  { rewrite <- pw_IZR by lia. rewrite pw_0. unfold Rdiv. rewrite Rinv_r by apply pow2_nz. ring. }
  destruct (d_div_holds _ _ _ _ 1 0 Hi Hp (pow2_nz e) E ltac:(lia) ltac:(lia) ltac:(lia)) as [H _].
  rewrite E, pw_0, Rmult_1_r in H.
  unfold d2s. rewrite (d_trunc_int _ _ H). reflexivity.
Qed.

(** ** General header 1 *)

Definition ext_len (g : gh1) (g2 : gh2) : bool :=
  negb (g1_add_blocks g =? 0) && negb (g2_record_len g2 =? 0).

Ltac wdig := apply WN_bcd; [reflexivity|lia| |lia].
Ltac ev := first [apply nibs_even | apply dig_even; reflexivity | apply esc_even; reflexivity | reflexivity].

Lemma gh1_WN p g g2 k e : gh1_range g k e ->
  WN [] (gh1_writer p g g2) (gh1_layout g (ext_len g g2) k e).
Proof.
  unfold gh1_range, below. intros R. decompose [and] R. clear R.
  unfold gh1_writer, gh1_layout.
  apply WN_even; [ev|apply WN_esc4; lia|].
  apply WN_even; [ev|wdig; lia|].
  apply WN_even; [ev|wdig; lia|].
  apply WN_even; [ev|wdig; lia|].
  apply WN_half.
  { apply WN_mod; [|lia]. rewrite Z.shiftl_mul_pow2 by lia. change (2 ^ 4) with 16.
    rewrite wrapu_small by lia. lia. }
  apply WN_even; [ev|wdig; lia|].
  apply WN_even; [ev|wdig; lia|].
  apply WN_even; [ev|wdig; lia|].
  apply WN_even; [ev|wdig; lia|].
  apply WN_even; [ev|wdig; lia|].
  apply WN_even; [ev|wdig; lia|].
  apply WN_even; [ev|wdig; lia|].
  apply WN_even; [ev| |].
  { unfold wbyte_d. eapply WN_let; [apply (d2s_fixp p 8 _ k 4); try eassumption; lia|].
    apply WN_byte_id. lia. }
  apply (WN_half ((g1_polarity g / 10 ^ Z.of_nat 0) mod 10)); [wdig; lia|].
  match goal with H : g1_scans_per_block g = _ |- _ => rename H into Hs end.
  rewrite Hs.
  rewrite (app_assoc [e] (nibs [1])).
  apply WN_even; [reflexivity| |].
  { eapply WN_let; [apply log2_pow; lia|]. cbv beta zeta.
    replace (Z.land e 15) with e.
    2:{ change 15 with (Z.ones 4). rewrite Z.land_ones by lia. rewrite Z.mod_small by lia. reflexivity. }
    apply WN_assoc. apply WN_even; [reflexivity| |].
    - apply WN_set; [|lia]. intros b B1 B2. rewrite <- B1.
      assert (b = Z.shiftl (b / 16) 4) as ->.
      { rewrite Z.shiftl_mul_pow2 by lia. change (2 ^ 4) with 16. dlia. }
      replace (Z.shiftl (b / 16) 4 / 16) with (b / 16).
      2:{ rewrite Z.shiftl_mul_pow2 by lia. change (2 ^ 4) with 16. rewrite Z.div_mul by lia. reflexivity. }
      apply nib_byte; [|lia]. rewrite B1.
      pose proof (Z.mod_pos_bound (g1_polarity g / 10 ^ Z.of_nat 0) 10 ltac:(lia)) as Q. clear - Q. lia.
    - unfold wbyte_d. eapply WN_let; [apply mantissa_one; lia|]. apply WN_byte_id. lia. }
  fold (ext_len g g2).
  match goal with |- WN [] ((if _ then ?a else ?b) ;; ?w) (digits 1 ?r ++ ?m ++ ?n) =>
    rewrite (app_assoc (digits 1 r) m n); apply WN_even end.
  { destruct (ext_len g g2); reflexivity. }
  { destruct (ext_len g g2).
    - unfold w16. rewrite wr_swapped.
      replace (digits 1 (g1_record_type g) ++ [15; 15; 15]) with
        (nibs (be_bytes 2 (Z.lor 4095 (Z.shiftl (wrapu 32 (g1_record_type g)) 12)))).
      + apply WN_put, be_bytes_bytes.
      + assert (G : 0 <= g1_record_type g < 10) by lia.
        assert (D : forall r, In r [0;1;2;3;4;5;6;7;8;9] ->
          nibs (be_bytes 2 (Z.lor 4095 (Z.shiftl (wrapu 32 r) 12))) = digits 1 r ++ [15; 15; 15]).
        { intros r Hr. cbn [In] in Hr. decompose [or] Hr; subst; try contradiction; reflexivity. }
        apply D. cbn [In]. lia.
    - apply WN_half; [wdig; lia|wdig; lia]. }
  apply WN_even; [ev|apply WN_esc2; lia|].
  apply WN_even; [ev|wdig; lia|].
  apply WN_even; [ev|wdig; lia|].
  apply WN_even; [ev|apply WN_esc2; lia|].
  apply WN_esc2; lia.
Qed.

Lemma gh1_RN g ext k e : gh1_range g k e ->
  RN [] rd_gh1 (gh1_layout g ext k e) (gh1_seen g ext).
Proof.
  unfold gh1_range. intros R. decompose [and] R. clear R.
  unfold rd_gh1, gh1_layout.
  apply (RN_even _ _ _ (unesc 4 (g1_file_number g))); [ev|apply RN_esc; lia|].
  apply (RN_even _ _ _ (g1_format_code g)); [ev|apply RN_dig; [reflexivity|lia|assumption]|].
  apply (RN_even _ _ _ (g1_gen_const g)); [ev|apply RN_dig; [reflexivity|lia|assumption]|].
  apply (RN_even _ _ _ (g1_year g)); [ev|apply RN_dig; [reflexivity|lia|assumption]|].
  apply (RN_half _ (g1_add_blocks g) (g1_add_blocks g)).
  { apply (RN_bcd [] false 1 [g1_add_blocks g]); [reflexivity|reflexivity|lia]. }
  apply (RN_even _ _ _ (g1_day g)); [ev|apply RN_dig; [reflexivity|lia|assumption]|].
  apply (RN_even _ _ _ (g1_hour g)); [ev|apply RN_dig; [reflexivity|lia|assumption]|].
  apply (RN_even _ _ _ (g1_minute g)); [ev|apply RN_dig; [reflexivity|lia|assumption]|].
  apply (RN_even _ _ _ (g1_second g)); [ev|apply RN_dig; [reflexivity|lia|assumption]|].
  apply (RN_even _ _ _ (g1_manufac_code g)); [ev|apply RN_dig; [reflexivity|lia|assumption]|].
  apply (RN_even _ _ _ (g1_manufac_num g)); [ev|apply RN_dig; [reflexivity|lia|assumption]|].
  apply (RN_even _ _ _ (g1_bytes_per_scan g)); [ev|apply RN_dig; [reflexivity|lia|assumption]|].
  apply (RN_even _ _ _ k); [ev|apply RN_r8; lia|].
  apply (RN_half _ ((g1_polarity g / 10 ^ Z.of_nat 0) mod 10) (g1_polarity g)).
  { apply (RN_dig [] false 1 (g1_polarity g)); [reflexivity|lia|assumption]. }
  set (pol := (g1_polarity g / 10 ^ Z.of_nat 0) mod 10).
  apply (RN_even _ _ [e] (16 * pol + e)); [reflexivity|apply RN_r8_low|].
  apply (RN_even _ _ _ 1); [ev|apply RN_r8; lia|].
  apply (RN_half _ ((g1_record_type g / 10 ^ Z.of_nat 0) mod 10) (g1_record_type g)).
  { apply (RN_dig [] false 1 (g1_record_type g)); [reflexivity|lia|assumption]. }
  apply (RN_even _ _ _ (if ext then 1665 else g1_record_length g)).
  { destruct ext; reflexivity. }
  { destruct ext.
    - apply (RN_bcd [_] true 3 [15; 15; 15]); [reflexivity|reflexivity|lia].
    - apply RN_dig; [reflexivity|lia|assumption]. }
  apply (RN_even _ _ _ (unesc 2 (g1_scan_types g))); [ev|apply RN_esc; lia|].
  apply (RN_even _ _ _ (g1_channel_sets g)); [ev|apply RN_dig; [reflexivity|lia|assumption]|].
  apply (RN_even _ _ _ (g1_skew_blocks g)); [ev|apply RN_dig; [reflexivity|lia|assumption]|].
  apply (RN_even _ _ _ (unesc 2 (g1_extended_blocks g))); [ev|apply RN_esc; lia|].
  apply (RN_last _ _ _ (unesc 2 (g1_external_blocks g))); [ev|apply RN_esc; lia|].
  match goal with |- RN [] (pret ?v) [] ?v' => apply (RN_val [] _ _ v v'); [|apply RN_ret] end.
  unfold gh1_seen. f_equal.
  - apply (fixp_uniq _ _ k 4); [apply fixp_div; lia|assumption].
  - assert (P : 0 <= pol < 16).
    { unfold pol. pose proof (Z.mod_pos_bound (g1_polarity g / 10 ^ Z.of_nat 0) 10 ltac:(lia)). lia. }
    rewrite <- (nib_byte pol e) by lia. rewrite Z.land_lor_distr_l.
    change 15 with (Z.ones 4). rewrite !Z.land_ones by lia.
    rewrite Z.shiftl_mul_pow2 by lia. rewrite Z.mod_mul by lia. cbn [Z.lor].
    rewrite Z.mod_small by lia. rewrite Z.mul_1_l. symmetry. assumption.
Qed.

(** ** General header 2 *)

Lemma gh2_WN g : gh2_range g -> WN [] (gh2_writer g) (gh2_layout g).
Proof.
  unfold gh2_range. intros R. decompose [and] R. clear R.
  unfold gh2_writer, gh2_layout.
  apply WN_even; [ev|apply WN_24|].
  apply WN_even; [ev|apply WN_16|].
  apply WN_even; [ev|apply WN_16|].
  apply WN_even; [ev|apply WN_16|].
  apply WN_even; [reflexivity|apply (WN_skip 1)|].
  apply WN_even; [ev|apply WN_byte_id; lia|].
  apply WN_even; [ev|apply WN_byte_id; lia|].
  apply WN_even; [ev|apply WN_16|].
  apply WN_even; [ev|apply WN_24|].
  apply WN_even; [reflexivity|apply (WN_skip 1)|].
  apply WN_even; [ev|apply WN_byte_id; lia|].
  apply WN_even; [reflexivity|apply (WN_skip 1)|].
  apply WN_16.
Qed.

Lemma nib_div v : 16 * (v / 16) + v mod 16 = v.
Proof. rewrite <- Z.div_mod by lia. reflexivity. Qed.

Lemma gh2_RN p g o : p_left_first p = true -> gh2_range g ->
  RN [] (rd_gh2_rev2 p (g2_major g) (g2_minor g) o) (gh2_layout g) (gh2_seen g o).
Proof.
  unfold gh2_range. intros Hp R. decompose [and] R. clear R.
  unfold rd_gh2_rev2, gh2_layout.
  apply (RN_even _ _ _ (g2_file_num g)); [ev|apply RN_24; [exact Hp|lia]|].
  apply (RN_even _ _ _ (g2_channel_sets g)); [ev|apply RN_16; lia|].
  apply (RN_even _ _ _ (g2_extended_blocks g)); [ev|apply RN_16; lia|].
  apply (RN_even _ _ _ (g2_external_blocks g)); [ev|apply RN_16; lia|].
  rewrite (app_assoc [0; 0]). rewrite (app_assoc ([0; 0] ++ _)).
  apply (RN_even _ _ _ tt); [reflexivity|apply RN_skip; reflexivity|].
  apply (RN_even _ _ _ (g2_trailer_blocks g)); [ev|apply RN_16; lia|].
  apply (RN_even _ _ _ (g2_record_len g)); [ev|apply RN_24; [exact Hp|lia]|].
  apply (RN_even _ _ [0; 0] tt); [reflexivity|apply (RN_skip 1); reflexivity|].
  cbn [nibs app]. apply RN_peek. rewrite nib_div.
  match goal with |- RN [] _ (?a :: ?b :: ?c :: ?d :: ?r) _ =>
    change (a :: b :: c :: d :: r) with ([a; b; c; d] ++ r) end.
  apply (RN_even _ _ _ tt); [reflexivity|apply (RN_skip 2); reflexivity|].
  apply (RN_last _ _ _ (g2_sequence g)); [ev|apply RN_16; lia|].
  apply RN_ret.
Qed.

Lemma gh2_rev_RN g : gh2_range g -> exists r,
  gh2_layout g = (r ++ nibs [g2_major g] ++ nibs [g2_minor g]) ++ skipn 24 (gh2_layout g) /\
  RN [] rd_rev (r ++ nibs [g2_major g] ++ nibs [g2_minor g]) (g2_major g, g2_minor g).
Proof.
  unfold gh2_range. intros R. decompose [and] R. clear R.
  exists (nibs (be_bytes 3 (g2_file_num g)) ++ nibs (be_bytes 2 (g2_channel_sets g)) ++
    nibs (be_bytes 2 (g2_extended_blocks g)) ++ nibs (be_bytes 2 (g2_external_blocks g)) ++ [0; 0]).
  split.
  - unfold gh2_layout. rewrite <- !app_assoc. do 7 f_equal.
  - unfold rd_rev.
    apply (RN_even _ _ _ tt).
    + rewrite !app_length, !nibs_length, !be_bytes_length. reflexivity.
    + apply RN_skip. rewrite !app_length, !nibs_length, !be_bytes_length. reflexivity.
    + apply (RN_even _ _ _ (g2_major g)); [ev|apply RN_r8; lia|].
      apply (RN_last _ _ _ (g2_minor g)); [ev|apply RN_r8; lia|].
      apply RN_ret.
Qed.

(** ** General header N *)

Lemma source_WN p d k : fixp d k 16 -> 0 <= k < 2 ^ 39 ->
  WN [] (w_source p d) (nibs (be_bytes 3 (k / 2 ^ 16)) ++ nibs (be_bytes 2 (k mod 2 ^ 16))).
Proof.
  intros H Hk. unfold w_source.
  assert (B : 0 <= k / 2 ^ 16 < 2 ^ 23).
  { split; [apply Z.div_pos; lia|]. apply Z.div_lt_upper_bound; lia. }
  eapply WN_let.
  { unfold d2u. rewrite (fixp_trunc d k 16 H) by lia. unfold in_u.
    destruct (Z.leb_spec 0 (k / 2 ^ 16)); [|lia].
    destruct (Z.ltb_spec (k / 2 ^ 16) (2 ^ 32)); [|lia]. reflexivity. }
  cbv beta. apply WN_even; [ev|apply WN_24|].
  unfold w16_d. pose proof (Z.mod_pos_bound k (2 ^ 16) ltac:(lia)) as M.
  assert (E : k - k / 2 ^ 16 * 2 ^ 16 = k mod 2 ^ 16).
  { rewrite Z.mod_eq by lia. lia. }
  assert (B2 : 0 <= k / 2 ^ 16 * 2 ^ 16 < 2 ^ 39) by (clear - B; lia).
  pose proof (fixp_frac d k 16 (k / 2 ^ 16) H ltac:(lia) ltac:(lia) ltac:(clear - B2; lia)) as F.
  rewrite E in F.
  eapply WN_let; [|apply WN_16].
  unfold d2u. rewrite (d_trunc_int _ _ F). unfold in_u.
  destruct (Z.leb_spec 0 (k mod 2 ^ 16)); [|lia].
  destruct (Z.ltb_spec (k mod 2 ^ 16) (2 ^ 16)); [|lia]. reflexivity.
Qed.

Lemma ghN_WN p h kl kp : ghN_range h kl kp -> WN [] (ghN_writer p h) (ghN_layout h kl kp).
Proof.
  unfold ghN_range. intros R. decompose [and] R. clear R.
  unfold ghN_writer, ghN_layout.
  apply WN_even; [ev|apply WN_24|].
  match goal with |- WN _ _ (?a ++ ?b ++ ?c) => rewrite (app_assoc a b c) end.
  apply WN_even; [rewrite <- nibs_app; ev|apply source_WN; [assumption|lia]|].
  match goal with |- WN _ _ (?a ++ ?b ++ ?c) => rewrite (app_assoc a b c) end.
  apply WN_even; [rewrite <- nibs_app; ev|apply source_WN; [assumption|lia]|].
  apply WN_even; [ev|apply WN_byte_id; lia|].
  apply WN_even; [ev|apply WN_byte_id; lia|].
  apply WN_even; [ev|apply WN_byte_id; lia|].
  apply WN_even; [ev|apply WN_16|].
  apply WN_even; [ev|apply WN_byte_id; lia|].
  apply WN_byte_id; lia.
Qed.

Lemma RN_i24p p v : p_left_first p = true -> 0 <= v < 2 ^ 23 ->
  RN [] (rd_i24 p Swapped) (nibs (be_bytes 3 v)) v.
Proof.
  intros Hp H. pose proof (RN_i24 p v Hp) as K. rewrite wraps_id in K; [exact K|lia|].
  unfold in_i. lia.
Qed.

Lemma fix16_split d k : fixp d k 16 -> 0 <= k < 2 ^ 40 -> fix16 (k / 2 ^ 16) (k mod 2 ^ 16) = d.
Proof.
  intros H Hk.
  assert (B : 0 <= k / 2 ^ 16 < 2 ^ 24).
  { split; [apply Z.div_pos; lia|]. apply Z.div_lt_upper_bound; lia. }
  apply (fixp_uniq _ _ k 16); [|exact H].
  replace k with (k / 2 ^ 16 * 2 ^ 16 + k mod 2 ^ 16) at 3.
  - apply fix16_fixp; [lia|]. apply Z.mod_pos_bound. lia.
  - rewrite Z.mod_eq by lia. lia.
Qed.

Lemma ghN_RN p h kl kp : p_left_first p = true -> ghN_range h kl kp ->
  RN [] (rd_ghN p) (ghN_layout h kl kp) h.
Proof.
  unfold ghN_range. intros Hp R. decompose [and] R. clear R.
  assert (B : forall k, 0 <= k < 2 ^ 39 -> 0 <= k / 2 ^ 16 < 2 ^ 23).
  { intros k Hk. split; [apply Z.div_pos; lia|]. apply Z.div_lt_upper_bound; lia. }
  unfold rd_ghN, ghN_layout.
  apply (RN_even _ _ _ (gN_file_number h)); [ev|apply RN_24; [exact Hp|lia]|].
  apply (RN_even _ _ _ (kl / 2 ^ 16)); [ev|apply RN_i24p; [exact Hp|apply B; lia]|].
  apply (RN_even _ _ _ (kl mod 2 ^ 16)); [ev|apply RN_16; apply Z.mod_pos_bound; lia|].
  apply (RN_even _ _ _ (kp / 2 ^ 16)); [ev|apply RN_i24p; [exact Hp|apply B; lia]|].
  apply (RN_even _ _ _ (kp mod 2 ^ 16)); [ev|apply RN_16; apply Z.mod_pos_bound; lia|].
  apply (RN_even _ _ _ (gN_point_index h)); [ev|apply RN_r8; lia|].
  apply (RN_even _ _ _ (gN_phase_control h)); [ev|apply RN_r8; lia|].
  apply (RN_even _ _ _ (gN_type_vibrator h)); [ev|apply RN_r8; lia|].
  apply (RN_even _ _ _ (gN_phase_angle h)); [ev| |].
  { pose proof (RN_i 2 (gN_phase_angle h)) as K. rewrite wraps_id in K; [exact K|lia|].
    unfold in_i. lia. }
  apply (RN_even _ _ _ (gN_block_num h)); [ev|apply RN_r8; lia|].
  apply (RN_last _ _ _ (gN_set_num h)); [ev|apply RN_r8; lia|].
  match goal with |- RN [] (pret ?v) [] ?v' => apply (RN_val [] _ _ v v'); [|apply RN_ret] end.
  rewrite (fix16_split (gN_line h) kl), (fix16_split (gN_point h) kp) by (try assumption; lia).
  destruct h; reflexivity.
Qed.

(** ** Channel set header *)

Lemma WN_nib2 w a b : WN [] w (nibs [16 * a + b]) -> 0 <= b < 16 -> WN [] w [a; b].
Proof.
  intros H Hb. cbn [nibs] in H. replace ((16 * a + b) / 16) with a in H by dlia.
  replace ((16 * a + b) mod 16) with b in H by dlia. exact H.
Qed.

Lemma chset_WN p c k e : chset_range c k e -> WN [] (chset_writer p c) (chset_layout c k e).
Proof.
  unfold chset_range, below. intros R. decompose [and] R. clear R.
  unfold chset_writer, chset_layout.
  apply WN_even; [ev|wdig; lia|].
  apply WN_even; [ev|wdig; lia|].
  apply WN_even; [ev|apply WN_16|].
  apply WN_even; [ev|apply WN_16|].
  apply WN_even; [ev| |].
  { eapply WN_let; [apply (d2u_fixp p 16 _ k 10); try eassumption; lia|]. cbv beta.
    replace (Z.lor (Z.land k 32767) (if d_lt (c_descale c) 0 then 32768 else 0)) with k;
      [apply WN_16|].
    change 32767 with (Z.ones 15). rewrite Z.land_ones, Z.mod_small by lia.
    match goal with H : fixp (c_descale c) k 10 |- _ => destruct (proj1 (fixp_pw _ _ _) H) as [Hh _] end.
    destruct (d_lt (c_descale c) 0) eqn:L.
    - exfalso. apply (proj1 (d_lt_0 _ _ Hh)) in L.
      apply (Rlt_irrefl 0). eapply Rle_lt_trans; [|exact L].
      apply Rmult_le_pos; [apply IZR_le; lia|apply Rlt_le, pw_pos].
    - rewrite Z.lor_0_r. reflexivity. }
  apply WN_even; [ev|wdig; lia|].
  apply (WN_half ((c_type c / 10 ^ Z.of_nat 0) mod 10)); [wdig; lia|].
  apply WN_even; [reflexivity|apply WN_skip1|].
  apply (WN_half ((e / 10 ^ Z.of_nat 0) mod 10)).
  { match goal with H : c_subscans c = _ |- _ => rewrite H end.
    eapply WN_let; [apply log2_pow; lia|]. apply (WN_bcd [] 8 e false 1); [reflexivity|lia|lia|lia]. }
  apply WN_even; [ev|wdig; lia|].
  apply WN_even; [ev|wdig; lia|].
  apply WN_even; [ev|wdig; lia|].
  apply WN_even; [ev|wdig; lia|].
  apply WN_even; [ev|wdig; lia|].
  apply WN_even; [ev|wdig; lia|].
  apply WN_even; [ev|wdig; lia|].
  apply WN_even; [ev|wdig; lia|].
  apply WN_even; [ev|apply WN_16|].
  apply WN_even; [reflexivity| |].
  { replace (Z.lor (Z.shiftl (c_ext_flag c) 4) (Z.land (c_hdr_ext c) 15))
      with (16 * c_ext_flag c + c_hdr_ext c).
    - apply WN_nib2; [apply WN_byte_id; lia|lia].
    - change 15 with (Z.ones 4). rewrite Z.land_ones, Z.mod_small by lia.
      symmetry. apply nib_byte; lia. }
  apply WN_even; [ev|apply WN_byte_id; lia|].
  apply WN_even; [ev|apply WN_byte_id; lia|].
  apply WN_byte_id; lia.
Qed.

Lemma descale_read d k : fixp d k 10 -> 0 <= k < 2 ^ 15 ->
  d_div (d_mul (if Z.testbit k 15 then i2d (-1) else i2d 1) (i2d (Z.land k 32767))) (d_pow2 10) = d.
Proof.
  intros H Hk0.
  replace (Z.testbit k 15) with false.
  2:{ symmetry. apply Z.bits_above_log2; [lia|]. destruct (Z.eq_dec k 0) as [->|N]; [reflexivity|].
      apply Z.log2_lt_pow2; lia. }
  change 32767 with (Z.ones 15). rewrite Z.land_ones, Z.mod_small by lia.
  apply (fixp_uniq _ _ k 10); [|assumption].
  replace (d_mul (i2d 1) (i2d k)) with (i2d k); [apply fixp_div; lia|].
  destruct (i2d_holds 1 ltac:(lia)) as [H1 S1]. destruct (i2d_holds k ltac:(lia)) as [Hk Sk].
  destruct (d_mul_holds _ _ _ _ k 0 H1 Hk) as [Hm Sm]; try lia.
  { rewrite pw_0. ring. }
  rewrite Rmult_1_l in Hm. apply (holds_inj _ _ (IZR k)); [exact Hk|exact Hm|].
  rewrite Sm, S1, Sk. destruct (k <? 0); reflexivity.
Qed.

Lemma flag_split a b : 0 <= a < 8 -> 0 <= b < 16 ->
  flag_of (16 * a + b) = a /\ Z.land (16 * a + b) 15 = b.
Proof.
  intros Ha Hb. split.
  - unfold flag_of. rewrite wraps_id by (unfold in_i; lia). rewrite Z.shiftr_div_pow2 by lia.
    change (2 ^ 4) with 16. replace ((16 * a + b) / 16) with a by dlia. apply wrapu_small. lia.
  - change 15 with (Z.ones 4). rewrite Z.land_ones by lia. change (2 ^ 4) with 16. dlia.
Qed.

Lemma chset_RN p c k e : chset_range c k e ->
  RN [] (rd_chset p) (chset_layout c k e) (chset_seen c).
Proof.
  unfold chset_range. intros R. decompose [and] R. clear R.
  unfold rd_chset, chset_layout.
  apply (RN_even _ _ _ (c_scan_type c)); [ev|apply RN_dig; [reflexivity|lia|assumption]|].
  apply (RN_even _ _ _ (c_number c)); [ev|apply RN_dig; [reflexivity|lia|assumption]|].
  apply (RN_even _ _ _ (c_start c / 2)); [ev|apply RN_16; dlia|].
  apply (RN_even _ _ _ (c_end c / 2)); [ev|apply RN_16; dlia|].
  apply (RN_even _ _ _ k); [ev|apply RN_16; lia|].
  apply (RN_even _ _ _ (c_channels c)); [ev|apply RN_dig; [reflexivity|lia|assumption]|].
  apply (RN_half _ ((c_type c / 10 ^ Z.of_nat 0) mod 10) (c_type c)).
  { apply (RN_dig [] false 1 (c_type c)); [reflexivity|lia|assumption]. }
  apply (RN_even _ _ [0] tt); [reflexivity|apply RN_skip_low|].
  apply (RN_half _ ((e / 10 ^ Z.of_nat 0) mod 10) e).
  { apply (RN_dig [] false 1 e); [reflexivity|lia|]. unfold below. change (10 ^ Z.of_nat 1) with 10. lia. }
  apply (RN_even _ _ _ (c_gain c)); [ev|apply RN_dig; [reflexivity|lia|assumption]|].
  apply (RN_even _ _ _ (c_alias_freq c)); [ev|apply RN_dig; [reflexivity|lia|assumption]|].
  apply (RN_even _ _ _ (c_alias_slope c)); [ev|apply RN_dig; [reflexivity|lia|assumption]|].
  apply (RN_even _ _ _ (c_low_freq c)); [ev|apply RN_dig; [reflexivity|lia|assumption]|].
  apply (RN_even _ _ _ (c_low_slope c)); [ev|apply RN_dig; [reflexivity|lia|assumption]|].
  apply (RN_even _ _ _ (c_notch1 c)); [ev|apply RN_dig; [reflexivity|lia|assumption]|].
  apply (RN_even _ _ _ (c_notch2 c)); [ev|apply RN_dig; [reflexivity|lia|assumption]|].
  apply (RN_even _ _ _ (c_notch3 c)); [ev|apply RN_dig; [reflexivity|lia|assumption]|].
  apply (RN_even _ _ _ (c_ext_num c)); [ev|apply RN_16; lia|].
  cbn [app]. apply RN_peek.
  match goal with |- RN [] _ (?a :: ?b :: ?r) _ => change (a :: b :: r) with ([a; b] ++ r) end.
  apply (RN_even _ _ _ tt); [reflexivity|apply (RN_skip 1); reflexivity|].
  apply (RN_even _ _ _ (c_vert_stack c)); [ev|apply RN_r8; lia|].
  apply (RN_even _ _ _ (c_streamer c)); [ev|apply RN_r8; lia|].
  apply (RN_last _ _ _ (c_array c)); [ev|apply RN_r8; lia|].
  match goal with |- RN [] (pret ?v) [] ?v' => apply (RN_val [] _ _ v v'); [|apply RN_ret] end.
  unfold chset_seen. rewrite (descale_read (c_descale c) k) by (try assumption; lia).
  destruct (flag_split (c_ext_flag c) (c_hdr_ext c)) as [E1 E2]; [lia|lia|]. rewrite E1, E2.
  replace (c_start c / 2 * 2) with (c_start c) by dlia.
  replace (c_end c / 2 * 2) with (c_end c) by dlia.
  replace (2 ^ e) with (c_subscans c) by assumption. reflexivity.
Qed.
