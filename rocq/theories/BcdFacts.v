(** Proofs about the BCD codecs. *)
From Verif Require Import BaseFacts Bcd.

(** ** Bits of a split number *)

Lemma tb_split a b k i :
  0 <= k -> 0 <= b < 2 ^ k -> 0 <= i ->
  Z.testbit (a * 2 ^ k + b) i = if i <? k then Z.testbit b i else Z.testbit a (i - k).
Proof.
  intros Hk Hb Hi.
  destruct (Z.ltb_spec i k) as [H|H].
  - rewrite <- (Z.mod_pow2_bits_low _ k) by lia.
    rewrite Z.add_comm, Z.mod_add by lia. rewrite Z.mod_small by lia. reflexivity.
  - replace i with ((i - k) + k) at 1 by lia.
    rewrite <- Z.div_pow2_bits by lia.
    rewrite Z.add_comm, Z.div_add by lia. rewrite Z.div_small by lia. reflexivity.
Qed.

Lemma land15 x : Z.land x 15 = x mod 16.
Proof. change 15 with (Z.ones 4). rewrite Z.land_ones by lia. reflexivity. Qed.

Lemma land_mask x s : 0 <= s -> Z.land x (Z.shiftl 15 s) = ((x / 2 ^ s) mod 16) * 2 ^ s.
Proof.
  intros Hs.
  rewrite <- Z.shiftr_div_pow2 by lia. rewrite <- land15.
  rewrite <- Z.shiftl_mul_pow2 by lia.
  apply Z.bits_inj'. intros i Hi.
  rewrite Z.land_spec, !Z.shiftl_spec by lia. rewrite Z.land_spec.
  destruct (Z_lt_le_dec i s) as [H|H].
  - rewrite (Z.testbit_neg_r 15 (i - s)) by lia. rewrite !andb_false_r. reflexivity.
  - rewrite Z.shiftr_spec by lia. f_equal. f_equal. lia.
Qed.

Lemma hi_spec b : is_byte b -> hi b = b / 16.
Proof.
  intros Hb. unfold hi, is_byte in *.
  change 240 with (Z.shiftl 15 4). rewrite land_mask by lia.
  rewrite Z.shiftr_div_pow2 by lia. change (2 ^ 4) with 16. lia.
Qed.
Lemma lo_spec b : lo b = b mod 16.
Proof. apply land15. Qed.

(** ** Small division lemmas (stated apart to keep contexts small) *)

Lemma div_pow2_half x s : 0 < s -> x / 2 ^ s = x / 2 ^ (s - 1) / 2.
Proof.
  intros H. replace s with ((s - 1) + 1) at 1 by lia. rewrite Z.pow_add_r by lia.
  pose proof (pow2_pos (s - 1) ltac:(lia)). rewrite Z.div_div by lia. reflexivity.
Qed.

Lemma dbl_div_pow2 x s : 0 < s -> x * 2 / 2 ^ s = x / 2 ^ (s - 1).
Proof.
  intros H. replace s with (1 + (s - 1)) at 1 by lia. rewrite Z.pow_add_r by lia.
  change (2 ^ 1) with 2. rewrite (Z.mul_comm x 2).
  pose proof (pow2_pos (s - 1) ltac:(lia)).
  apply Z.div_mul_cancel_l; lia.
Qed.

Lemma div_mod_pow2 x t w : 0 <= t -> 0 <= w ->
  (x / 2 ^ t) mod 2 ^ w = (x mod 2 ^ (t + w)) / 2 ^ t.
Proof.
  intros Ht Hw. rewrite Z.pow_add_r by lia.
  pose proof (pow2_pos t Ht). pose proof (pow2_pos w Hw).
  rewrite Z.rem_mul_r by lia.
  rewrite (Z.mul_comm (2 ^ t)), Z.div_add by lia.
  rewrite (Z.div_small (x mod 2 ^ t)) by (apply Z.mod_pos_bound; lia).
  rewrite Z.add_0_l. reflexivity.
Qed.

Lemma mod_mod_pow2 x a b : 0 <= a <= b -> (x mod 2 ^ b) mod 2 ^ a = x mod 2 ^ a.
Proof.
  intros H. replace b with (a + (b - a)) by lia. rewrite Z.pow_add_r by lia.
  pose proof (pow2_pos a ltac:(lia)). pose proof (pow2_pos (b - a) ltac:(lia)).
  rewrite Z.rem_mul_r by lia. rewrite (Z.mul_comm (2 ^ a)), Z.mod_add by lia.
  apply Z.mod_mod. lia.
Qed.

Lemma dbl_digit q c : c = q mod 2 -> (2 * ((q / 2) mod 16) + c) mod 16 = q mod 16.
Proof. intros ->. dlia. Qed.

Lemma bit3 x : (x / 8) mod 2 = if 8 <=? x mod 16 then 1 else 0.
Proof. destruct (Z.leb_spec 8 (x mod 16)); dlia. Qed.

(** ** Decimal digits of [2 x + b] *)

Definition dec (x : Z) (j : nat) : Z := (x / 10 ^ Z.of_nat j) mod 10.

Definition dcarry (x b : Z) (j : nat) : Z := (2 * (x mod 10 ^ Z.of_nat j) + b) / 10 ^ Z.of_nat j.

Lemma pow10_pos j : 0 < 10 ^ Z.of_nat j.
Proof. apply Z.pow_pos_nonneg; lia. Qed.

Lemma dec_range x j : 0 <= dec x j <= 9.
Proof. unfold dec. lia. Qed.

Lemma dec_step x b j : 0 <= x -> 0 <= b <= 1 ->
  dec (2 * x + b) j = (2 * dec x j + dcarry x b j) mod 10.
Proof.
  intros Hx Hb. unfold dec, dcarry. pose proof (pow10_pos j) as Hp.
  set (p := 10 ^ Z.of_nat j) in *.
  pose proof (Z.div_mod x p ltac:(lia)) as E.
  set (q := x / p) in *. set (r := x mod p) in *.
  replace (2 * x + b) with ((2 * r + b) + (2 * q) * p) by lia.
  rewrite Z.div_add by lia. lia.
Qed.

Lemma dcarry_S x b j : 0 <= x -> 0 <= b <= 1 ->
  dcarry x b (S j) = if 5 <=? dec x j then 1 else 0.
Proof.
  intros Hx Hb. unfold dcarry, dec.
  rewrite Nat2Z.inj_succ, Z.pow_succ_r by lia.
  pose proof (pow10_pos j) as Hp. set (p := 10 ^ Z.of_nat j) in *.
  rewrite (Z.mul_comm 10 p). rewrite Z.rem_mul_r by lia.
  pose proof (Z.mod_pos_bound x p ltac:(lia)).
  rewrite <- Z.div_div by lia.
  set (r := x mod p) in *. set (d := (x / p) mod 10).
  assert (0 <= d < 10) by (unfold d; lia).
  replace (2 * (r + p * d) + b) with ((2 * r + b) + (2 * d) * p) by lia.
  rewrite Z.div_add by lia.
  assert (Hc : 0 <= (2 * r + b) / p < 2).
  { split; [apply Z.div_pos; lia|]. apply Z.div_lt_upper_bound; lia. }
  destruct (5 <=? d) eqn:E; lia.
Qed.

Lemma dcarry_0 x b : 0 <= b <= 1 -> dcarry x b 0 = b.
Proof. intros. unfold dcarry. change (10 ^ Z.of_nat 0) with 1. rewrite Z.mod_1_r, Z.div_1_r. lia. Qed.

(** ** The bitset *)

Section Dabble.
Variable vs : Z.
Hypothesis Hvs : 0 < vs <= 8.

Let B := vs * 8.
Let nd : nat := Z.to_nat ((vs * 8 + 2) / 3).
Let bs := bitset_size vs.

Lemma bs_eq : bs = B + 4 * Z.of_nat nd.
Proof. unfold bs, bitset_size, B, nd. lia. Qed.

Lemma sh_eq j : bcd_shift vs j = B + 4 * Z.of_nat j.
Proof. unfold bcd_shift, B. lia. Qed.

Lemma B_pos : 0 < B. Proof. unfold B; lia. Qed.

(** Digit [j] of the bitset, arithmetically. *)
Definition dg (st : Z) (j : nat) : Z :=
  if Nat.ltb j nd then (st / 2 ^ (B + 4 * Z.of_nat j)) mod 16 else 0.

Lemma mask_out j : (nd <= j)%nat -> Z.shiftl 15 (bcd_shift vs j) mod 2 ^ bs = 0.
Proof.
  intros Hj. rewrite bs_eq, sh_eq. pose proof B_pos.
  rewrite Z.shiftl_mul_pow2 by lia.
  replace (B + 4 * Z.of_nat j)
    with ((4 * Z.of_nat j - 4 * Z.of_nat nd) + (B + 4 * Z.of_nat nd)) by lia.
  rewrite Z.pow_add_r by lia. rewrite Z.mul_assoc. apply Z.mod_mul.
  pose proof (pow2_pos (B + 4 * Z.of_nat nd)). lia.
Qed.

Lemma sh_in d j : (j < nd)%nat -> 0 <= d < 16 ->
  Z.shiftl d (bcd_shift vs j) mod 2 ^ bs = Z.shiftl d (bcd_shift vs j).
Proof.
  intros Hj Hd. pose proof B_pos. rewrite bs_eq, sh_eq.
  apply Z.mod_small. rewrite Z.shiftl_mul_pow2 by lia.
  pose proof (pow2_pos (B + 4 * Z.of_nat j) ltac:(lia)).
  assert (Hle : 2 ^ ((B + 4 * Z.of_nat j) + 4) <= 2 ^ (B + 4 * Z.of_nat nd)).
  { apply Z.pow_le_mono_r; lia. }
  rewrite (Z.pow_add_r 2 (B + 4 * Z.of_nat j) 4) in Hle by lia.
  change (2 ^ 4) with 16 in Hle.
  set (a := 2 ^ (B + 4 * Z.of_nat j)) in *. set (b := 2 ^ (B + 4 * Z.of_nat nd)) in *.
  clearbody a b. nia.
Qed.

Lemma bcd_digit_dg st j : 0 <= st -> bcd_digit vs st j = dg st j.
Proof.
  intros Hst. pose proof B_pos. unfold bcd_digit, dg. fold bs.
  destruct (Nat.ltb_spec j nd) as [H'|H'].
  - rewrite sh_in by lia. rewrite sh_eq.
    rewrite land_mask by lia.
    rewrite Z.shiftr_div_pow2 by lia.
    apply Z.div_mul. pose proof (pow2_pos (B + 4 * Z.of_nat j)). lia.
  - rewrite mask_out by lia. rewrite Z.land_0_r. apply Z.shiftr_0_l.
Qed.

Lemma dg_range st j : 0 <= dg st j < 16.
Proof. unfold dg. destruct (Nat.ltb j nd); lia. Qed.

(** Splitting the state around digit [j]. *)
Lemma st_split st s : 0 <= s ->
  st = (st / 2 ^ (s + 4)) * 2 ^ (s + 4) + (((st / 2 ^ s) mod 16) * 2 ^ s + st mod 2 ^ s).
Proof.
  intros Hs. pose proof (pow2_pos s ltac:(lia)).
  rewrite Z.pow_add_r by lia. change (2 ^ 4) with 16.
  rewrite (Z.mul_comm (2 ^ s) 16). rewrite (Z.mul_comm 16 (2 ^ s)).
  rewrite <- Z.div_div by lia.
  pose proof (Z.div_mod st (2 ^ s) ltac:(lia)).
  pose proof (Z.div_mod (st / 2 ^ s) 16 ltac:(lia)). nia.
Qed.

Definition adj (d : Z) : Z := if 4 <? d then d + 3 else d.

Lemma dabble1_eq st j : 0 <= st -> dg st j <= 12 ->
  dabble1 vs st j = st + (adj (dg st j) - dg st j) * 2 ^ (B + 4 * Z.of_nat j).
Proof.
  intros Hst Hd. pose proof B_pos as HB. unfold dabble1, adj.
  rewrite bcd_digit_dg by lia. fold bs.
  destruct (4 <? dg st j) eqn:E; [|lia].
  assert (Hj : (j < nd)%nat).
  { unfold dg in E. destruct (Nat.ltb_spec j nd); lia. }
  rewrite !sh_in by (pose proof (dg_range st j); lia).
  rewrite sh_eq. set (s := B + 4 * Z.of_nat j) in *.
  assert (Hs : 0 <= s) by lia.
  assert (Hdg : dg st j = (st / 2 ^ s) mod 16).
  { unfold dg. destruct (Nat.ltb_spec j nd); [reflexivity|lia]. }
  pose proof (pow2_pos s Hs) as Hps.
  set (d := dg st j) in *.
  set (Q := st / 2 ^ (s + 4)). set (L := st mod 2 ^ s).
  assert (HL : 0 <= L < 2 ^ s) by (apply Z.mod_pos_bound; lia).
  assert (Est : st = Q * 2 ^ (s + 4) + (d * 2 ^ s + L)).
  { rewrite Hdg. apply st_split; lia. }
  assert (E4 : 2 ^ (s + 4) = 16 * 2 ^ s) by (rewrite Z.pow_add_r by lia; lia).
  assert (Hd0 : 0 <= d < 16) by apply dg_range.
  replace (st + (d + 3 - d) * 2 ^ s) with (Q * 2 ^ (s + 4) + ((d + 3) * 2 ^ s + L)) by lia.
  assert (Hin : 0 <= d * 2 ^ s + L < 2 ^ (s + 4)).
  { rewrite E4. clear - Hd0 HL Hps. set (a := 2 ^ s) in *. clearbody a. nia. }
  assert (Hin3 : 0 <= (d + 3) * 2 ^ s + L < 2 ^ (s + 4)).
  { rewrite E4. clear - Hd0 Hd HL Hps. set (a := 2 ^ s) in *. clearbody a. nia. }
  clear E4 Hdg E. clearbody Q L d s. subst st.
  apply Z.bits_inj'. intros i Hi.
  rewrite Z.lor_spec, Z.ldiff_spec.
  rewrite !Z.shiftl_spec by lia.
  rewrite (tb_split Q _ (s + 4)) by lia. rewrite (tb_split Q _ (s + 4)) by lia.
  rewrite (tb_split d L s) by lia. rewrite (tb_split (d + 3) L s) by lia.
  destruct (Z.ltb_spec i (s + 4)) as [Hi4|Hi4];
    destruct (Z.ltb_spec i s) as [His|His]; try lia.
  - rewrite !(Z.testbit_neg_r _ (i - s)) by lia. cbn. rewrite orb_false_r, andb_true_r. reflexivity.
  - replace (Z.testbit 15 (i - s)) with true.
    2:{ change 15 with (Z.ones 4). rewrite Z.ones_spec_low; [reflexivity|lia]. }
    cbn. rewrite andb_false_r. reflexivity.
  - replace (Z.testbit 15 (i - s)) with false.
    2:{ change 15 with (Z.ones 4). rewrite Z.ones_spec_high; [reflexivity|lia]. }
    assert (Z.testbit (d + 3) (i - s) = false) as ->.
    { apply Z.bits_above_log2; [lia|]. apply Z.log2_lt_pow2; [lia|].
      assert (2 ^ 4 <= 2 ^ (i - s)) by (apply Z.pow_le_mono_r; lia).
      change (2 ^ 4) with 16 in *. lia. }
    cbn. rewrite orb_false_r, andb_true_r. reflexivity.
Qed.

(** Effect of adding at digit [j] without overflow of the digit. *)
Lemma add_at_low st a s t : 0 <= t <= s -> (st + a * 2 ^ s) mod 2 ^ t = st mod 2 ^ t.
Proof.
  intros H. replace s with ((s - t) + t) by lia. rewrite Z.pow_add_r by lia.
  rewrite Z.mul_assoc, Z.mod_add. reflexivity. pose proof (pow2_pos t); lia.
Qed.

Lemma dg_add st a j i : 0 <= a -> (j < nd)%nat -> dg st j + a < 16 ->
  dg (st + a * 2 ^ (B + 4 * Z.of_nat j)) i =
  if Nat.eqb i j then dg st j + a else dg st i.
Proof.
  intros Ha Hj Hd. pose proof B_pos.
  unfold dg in *.
  destruct (Nat.ltb_spec j nd); [|lia].
  set (s := B + 4 * Z.of_nat j) in *.
  assert (Es : (st + a * 2 ^ s) / 2 ^ s = st / 2 ^ s + a).
  { apply Z.div_add. pose proof (pow2_pos s); lia. }
  destruct (Nat.eqb_spec i j) as [->|Hij].
  - destruct (Nat.ltb_spec j nd); [|lia]. fold s. rewrite Es. lia.
  - destruct (Nat.ltb_spec i nd); [|reflexivity].
    destruct (lt_dec i j) as [Hlt|Hge].
    + set (t := B + 4 * Z.of_nat i).
      assert (Ht : t + 4 <= s) by (unfold t, s; lia).
      change 16 with (2 ^ 4). rewrite !div_mod_pow2 by (unfold t; lia).
      rewrite add_at_low by (unfold t, s in *; lia). reflexivity.
    + set (t := B + 4 * Z.of_nat i).
      replace t with (s + 4 + (t - s - 4)) by lia.
      assert (0 <= t - s - 4) by (unfold t, s; lia).
      rewrite !Z.pow_add_r by lia. change (2 ^ 4) with 16.
      pose proof (pow2_pos s ltac:(lia)). pose proof (pow2_pos (t - s - 4) ltac:(lia)).
      rewrite <- !Z.div_div by lia. rewrite Es.
      replace ((st / 2 ^ s + a) / 16) with (st / 2 ^ s / 16); [reflexivity|]. lia.
Qed.

Lemma adj_bound d : 0 <= d <= 9 -> d <= adj d <= 12.
Proof. unfold adj. destruct (4 <? d) eqn:E; lia. Qed.

Lemma adj_double d c : 0 <= d <= 9 -> 0 <= c <= 1 ->
  (2 * adj d + c) mod 16 = (2 * d + c) mod 10.
Proof. intros. unfold adj. destruct (Z.ltb_spec 4 d); dlia. Qed.

Lemma fold_dabble st num :
  0 <= st -> (forall j, (j < num)%nat -> dg st j <= 9) ->
  let st' := fold_left (dabble1 vs) (seq 0 num) st in
  0 <= st' /\ st' mod 2 ^ B = st mod 2 ^ B /\
  forall i, dg st' i = if Nat.ltb i num then adj (dg st i) else dg st i.
Proof.
  intros Hst. induction num as [|k IH]; intros Hd.
  - cbn. auto.
  - rewrite seq_S, fold_left_app. cbn [fold_left Nat.add].
    destruct IH as (H0 & Hm & Hi). { intros; apply Hd; lia. }
    cbv zeta. set (st' := fold_left (dabble1 vs) (seq 0 k) st) in *.
    assert (Hk : dg st' k = dg st k).
    { rewrite Hi. destruct (Nat.ltb_spec k k); [lia|reflexivity]. }
    pose proof (Hd k ltac:(lia)). pose proof (dg_range st k). pose proof B_pos.
    rewrite dabble1_eq by lia. rewrite Hk.
    pose proof (adj_bound (dg st k) ltac:(lia)).
    pose proof (pow2_pos (B + 4 * Z.of_nat k) ltac:(lia)).
    destruct (le_lt_dec nd k) as [Hnd|Hnd].
    { assert (dg st k = 0) as E0.
      { unfold dg. destruct (Nat.ltb_spec k nd); [lia|reflexivity]. }
      rewrite E0. change (adj 0 - 0) with 0. rewrite Z.mul_0_l, Z.add_0_r.
      split; [lia|]. split; [exact Hm|]. intros i. rewrite Hi.
      destruct (Nat.ltb_spec i k); destruct (Nat.ltb_spec i (S k)); try lia; try reflexivity.
      assert (i = k) by lia. subst i. rewrite E0. reflexivity. }
    split; [nia|]. split.
    { rewrite add_at_low by lia. exact Hm. }
    intros i. rewrite dg_add by lia.
    destruct (Nat.eqb_spec i k) as [->|Hik].
    + destruct (Nat.ltb_spec k (S k)); [lia|lia].
    + rewrite Hi. destruct (Nat.ltb_spec i k), (Nat.ltb_spec i (S k)); lia.
Qed.

(** The shift. *)
Lemma dg_shift st j : 0 <= st -> (j < nd)%nat ->
  dg (Z.shiftl st 1 mod 2 ^ bs) j =
  (2 * dg st j + (st / 2 ^ (B + 4 * Z.of_nat j - 1)) mod 2) mod 16.
Proof.
  intros Hst Hj. pose proof B_pos. unfold dg. destruct (Nat.ltb_spec j nd); [|lia].
  set (s := B + 4 * Z.of_nat j).
  rewrite Z.shiftl_mul_pow2 by lia. change (2 ^ 1) with 2.
  assert (Hs : s + 4 <= bs) by (rewrite bs_eq; unfold s; lia).
  assert (Hs0 : 0 < s) by (unfold s; lia). clearbody s.
  change 16 with (2 ^ 4). rewrite (div_mod_pow2 (st * 2 mod 2 ^ bs)) by lia.
  rewrite mod_mod_pow2 by lia. rewrite <- div_mod_pow2 by lia.
  rewrite dbl_div_pow2, (div_pow2_half st s) by lia. change (2 ^ 4) with 16.
  symmetry. apply dbl_digit. reflexivity.
Qed.

Lemma bit_below st j : 0 <= st -> (S j < nd)%nat ->
  (st / 2 ^ (B + 4 * Z.of_nat (S j) - 1)) mod 2 = if 8 <=? dg st j then 1 else 0.
Proof.
  intros Hst Hj. pose proof B_pos. unfold dg. destruct (Nat.ltb_spec j nd); [|lia].
  replace (B + 4 * Z.of_nat (S j) - 1) with ((B + 4 * Z.of_nat j) + 3) by lia.
  rewrite Z.pow_add_r by lia. change (2 ^ 3) with 8.
  pose proof (pow2_pos (B + 4 * Z.of_nat j) ltac:(lia)).
  rewrite <- Z.div_div by lia.
  destruct (8 <=? _) eqn:E; lia.
Qed.

(** ** The invariant *)

Record dinv (v : Z) (num : nat) (i : Z) (st : Z) : Prop := {
  di_pos : 0 <= st;
  di_low : st mod 2 ^ B = (v * 2 ^ i) mod 2 ^ B;
  di_dig : forall j, (j < num)%nat -> (j < nd)%nat -> dg st j = dec (v / 2 ^ (B - i)) j
}.

Lemma dinv_step v num i st : 0 <= v -> 0 <= i < B ->
  dinv v num i st -> dinv v num (i + 1) (dabble vs num st).
Proof.
  intros Hv Hi [H0 Hl Hd]. pose proof B_pos as HB.
  unfold dabble. fold bs.
  assert (H9 : forall j, (j < num)%nat -> dg st j <= 9).
  { intros j Hj. destruct (le_lt_dec nd j) as [H|H].
    - unfold dg. destruct (Nat.ltb_spec j nd); lia.
    - rewrite Hd by lia. apply dec_range. }
  destruct (fold_dabble st num H0 H9) as (F0 & Fm & Fd).
  set (st' := fold_left (dabble1 vs) (seq 0 num) st) in *. cbv zeta in *.
  pose proof (pow2_pos bs ltac:(rewrite bs_eq; lia)) as Hbs.
  constructor.
  - apply Z.mod_pos_bound; lia.
  - rewrite Z.shiftl_mul_pow2 by lia. change (2 ^ 1) with 2.
    rewrite bs_eq, Z.pow_add_r by lia.
    pose proof (pow2_pos B ltac:(lia)).
    pose proof (pow2_pos (4 * Z.of_nat nd) ltac:(lia)).
    rewrite Z.rem_mul_r by lia. rewrite Z.mul_comm.
    rewrite (Z.mul_comm (2 ^ B)). rewrite Z.mod_add by lia. rewrite Z.mod_mod by lia.
    rewrite Z.mul_mod by lia. rewrite Fm, Hl. rewrite <- Z.mul_mod by lia.
    rewrite Z.pow_add_r by lia. change (2 ^ 1) with 2. f_equal. lia.
  - intros j Hj Hjn. rewrite dg_shift by lia. rewrite Fd.
    destruct (Nat.ltb_spec j num); [|lia].
    set (X := v / 2 ^ (B - i)) in *.
    set (b := (v / 2 ^ (B - i - 1)) mod 2).
    assert (Hb : 0 <= b <= 1) by (unfold b; lia).
    assert (HX : 0 <= X) by (apply Z.div_pos; [lia|apply pow2_pos; lia]).
    assert (EX : v / 2 ^ (B - (i + 1)) = 2 * X + b).
    { unfold X, b. replace (B - (i + 1)) with (B - i - 1) by lia.
      replace (B - i) with ((B - i - 1) + 1) at 2 by lia.
      rewrite Z.pow_add_r by lia. change (2 ^ 1) with 2.
      pose proof (pow2_pos (B - i - 1) ltac:(lia)).
      rewrite <- Z.div_div by lia. lia. }
    rewrite EX, dec_step by lia. rewrite Hd by lia.
    assert (Hc : (st' / 2 ^ (B + 4 * Z.of_nat j - 1)) mod 2 = dcarry X b j).
    { destruct j as [|j'].
      - rewrite dcarry_0 by lia. unfold b.
        replace (B + 4 * Z.of_nat 0 - 1) with (B - 1) by lia.
        change 2 with (2 ^ 1) at 2 4.
        rewrite (div_mod_pow2 st') by lia. replace (B - 1 + 1) with B by lia.
        rewrite Fm, Hl. replace B with (B - 1 + 1) at 1 by lia.
        rewrite <- div_mod_pow2 by lia.
        replace (B - 1) with (i + (B - i - 1)) by lia. rewrite Z.pow_add_r by lia.
        rewrite (Z.mul_comm v). rewrite Z.div_mul_cancel_l; [reflexivity| |].
        + pose proof (pow2_pos (B - i - 1)); lia.
        + pose proof (pow2_pos i); lia.
      - rewrite bit_below by lia. rewrite dcarry_S by lia. rewrite Fd.
        destruct (Nat.ltb_spec j' num); [|lia]. rewrite Hd by lia. fold X.
        pose proof (dec_range X j'). unfold adj.
        destruct (4 <? dec X j') eqn:E1; destruct (5 <=? dec X j') eqn:E2;
          destruct (8 <=? _) eqn:E3; lia. }
    rewrite Hc. pose proof (dec_range X j).
    assert (0 <= dcarry X b j <= 1).
    { destruct j; [rewrite dcarry_0; lia|]. rewrite dcarry_S by lia.
      destruct (5 <=? _); lia. }
    apply adj_double; lia.
Qed.

Lemma dinv_init v num : 0 <= v < 2 ^ B -> dinv v num 0 (bcd_init vs v).
Proof.
  intros Hv. pose proof B_pos as HB.
  assert (2 ^ B <= 2 ^ 64) by (apply Z.pow_le_mono_r; unfold B; lia).
  assert (2 ^ B <= 2 ^ bs) by (apply Z.pow_le_mono_r; rewrite ?bs_eq; lia).
  assert (E : bcd_init vs v = v).
  { unfold bcd_init. fold bs. rewrite (Z.mod_small v) by lia. apply Z.mod_small. lia. }
  rewrite E. constructor; [lia| |].
  - rewrite Z.pow_0_r, Z.mul_1_r. reflexivity.
  - intros j _ Hj. rewrite Z.sub_0_r, (Z.div_small v (2 ^ B)) by lia.
    unfold dg, dec. destruct (Nat.ltb_spec j nd); [|lia].
    rewrite Z.div_0_l by (pose proof (pow10_pos j); lia).
    rewrite Z.div_small; [reflexivity|].
    split; [lia|]. eapply Z.lt_le_trans; [apply Hv|]. apply Z.pow_le_mono_r; lia.
Qed.

Lemma dinv_iter v num k : 0 <= v < 2 ^ B -> Z.of_nat k <= B ->
  dinv v num (Z.of_nat k) (Nat.iter k (dabble vs num) (bcd_init vs v)).
Proof.
  intros Hv. induction k as [|k IH]; intros Hk.
  - apply dinv_init, Hv.
  - cbn [Nat.iter nat_rect]. replace (Z.of_nat (S k)) with (Z.of_nat k + 1) by lia.
    apply dinv_step; [lia|lia|]. apply IH. lia.
Qed.

Lemma two_pow_le_ten n : 2 ^ (3 * Z.of_nat n) <= 10 ^ Z.of_nat n.
Proof.
  rewrite Z.pow_mul_r by lia. change (2 ^ 3) with 8. apply Z.pow_le_mono_l. lia.
Qed.

Lemma dabble_digits v num j : 0 <= v < 2 ^ B -> (j < num)%nat ->
  bcd_digit vs (dabble_all vs num (bcd_init vs v)) j = dec v j.
Proof.
  intros Hv Hj. pose proof B_pos as HB. unfold dabble_all.
  pose proof (dinv_iter v num (Z.to_nat (vs * 8)) Hv ltac:(unfold B; lia)) as [H0 _ Hd].
  rewrite bcd_digit_dg by exact H0.
  destruct (le_lt_dec nd j) as [H|H].
  - unfold dg. destruct (Nat.ltb_spec j nd); [lia|].
    unfold dec. rewrite Z.div_small; [reflexivity|]. split; [lia|].
    eapply Z.lt_le_trans; [apply Hv|].
    etransitivity; [|etransitivity; [apply (two_pow_le_ten nd)|]].
    + apply Z.pow_le_mono_r; [lia|]. unfold nd, B. lia.
    + apply Z.pow_le_mono_r; lia.
  - rewrite Hd by lia. f_equal.
    replace (B - Z.of_nat (Z.to_nat (vs * 8))) with 0 by (unfold B; lia).
    apply Z.div_1_r.
Qed.
End Dabble.
