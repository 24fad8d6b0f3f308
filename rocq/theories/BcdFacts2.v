(** Byte-level facts about the BCD codecs. *)
From Verif Require Import BaseFacts Bcd BcdSpec BcdFacts.

Lemma nibs_length l : List.length (nibs l) = (2 * List.length l)%nat.
Proof. induction l; cbn [nibs List.length]; lia. Qed.

Lemma nibs_app a b : nibs (a ++ b) = nibs a ++ nibs b.
Proof. induction a; cbn [nibs app]; [reflexivity|rewrite IHa; reflexivity]. Qed.

Lemma nibs_skipn n l : nibs (skipn n l) = skipn (2 * n) (nibs l).
Proof.
  revert l; induction n as [|n IH]; intros l; [reflexivity|].
  replace (2 * S n)%nat with (S (S (2 * n))) by lia.
  destruct l; cbn [skipn nibs]; [reflexivity|apply IH].
Qed.

Lemma bytes_skipn n l : bytes l -> bytes (skipn n l).
Proof.
  revert l; induction n as [|n IH]; intros l H; [exact H|].
  destruct l; [exact H|]. inversion H; cbn. apply IH. assumption.
Qed.

Lemma bytes_firstn n l : bytes l -> bytes (firstn n l).
Proof.
  revert l; induction n as [|n IH]; intros l H; [constructor|].
  destruct l; [exact H|]. inversion H; cbn; constructor; [assumption|].
  apply IH. assumption.
Qed.

(** ** from_bcd *)

Definition step10 (a d : Z) : Z := 10 * a + d.

Lemma from_bcd_loop_ok n : forall i acc c, (i <= n)%nat ->
  bytes c -> (i <= 2 * List.length c)%nat ->
  from_bcd_loop i acc c =
  Ok ((fold_left step10 (firstn (i - i mod 2) (nibs c)) acc, (i mod 2)%nat),
      skipn (i / 2) c).
Proof.
  induction n as [|n IH]; intros i acc c Hi Hb Hl.
  - assert (i = 0)%nat by lia. subst i. reflexivity.
  - destruct i as [|[|i]].
    + reflexivity.
    + reflexivity.
    + destruct c as [|b c]; [cbn in Hl; lia|].
      cbn [from_bcd_loop]. inversion Hb as [|? ? Hb0 Hb']; subst.
      change (b :: c) with ([b] ++ c). rewrite (pbind_ok _ _ _ b c).
      2:{ rewrite pread_app by reflexivity. cbn [le_dec]. f_equal. f_equal. lia. }
      rewrite IH; [|lia|assumption|cbn [List.length] in Hl; lia].
      assert (E2 : (S (S i) / 2 = S (i / 2))%nat).
      { replace (S (S i)) with (i + 1 * 2)%nat by lia. rewrite Nat.div_add by lia. lia. }
      assert (Em : (S (S i) mod 2 = i mod 2)%nat).
      { replace (S (S i)) with (i + 1 * 2)%nat by lia. apply Nat.mod_add. lia. }
      rewrite E2, Em. cbn [app skipn nibs].
      assert (Hm : (i mod 2 <= i)%nat) by (apply Nat.mod_le; lia).
      replace (S (S i) - i mod 2)%nat with (S (S (i - i mod 2))) by lia.
      cbn [firstn fold_left]. rewrite hi_spec, lo_spec by assumption.
      unfold step10 at 3 4. do 4 f_equal. lia.
Qed.

Lemma fold_step10_app l d a : fold_left step10 (l ++ [d]) a = 10 * fold_left step10 l a + d.
Proof. rewrite fold_left_app. reflexivity. Qed.

Lemma firstn_S_nth {A} (l : list A) n d : (n < List.length l)%nat ->
  firstn (S n) l = firstn n l ++ [nth n l d].
Proof.
  revert l; induction n as [|n IH]; intros [|x l] H; cbn in *; try lia; [reflexivity|].
  rewrite (IH l) by lia. reflexivity.
Qed.

Lemma nibs_nth_even l k : (k < List.length l)%nat -> nth (2 * k) (nibs l) 0 = nth k l 0 / 16.
Proof.
  revert l; induction k as [|k IH]; intros [|b l] H; cbn [List.length] in *; try lia; [reflexivity|].
  replace (2 * S k)%nat with (S (S (2 * k))) by lia. cbn [nibs nth]. apply IH. lia.
Qed.

(** Loop plus optional last digit: [i] half bytes of [c]. *)
Lemma from_bcd_rest i acc c :
  bytes c -> (i <= 2 * List.length c)%nat ->
  (let* (ri, rest') := from_bcd_loop i acc c in
   let (r2, i') := (ri : Z * nat) in
   if Nat.eqb i' 0 then Ok r2
   else let* (b, _) := pread 1 rest' in Ok (r2 * 10 + hi b)) =
  Ok (fold_left step10 (firstn i (nibs c)) acc).
Proof.
  intros Hb Hl. rewrite (from_bcd_loop_ok i) by (auto; lia).
  cbn [bind].
  pose proof (Nat.mod_upper_bound i 2 ltac:(lia)) as Hm.
  pose proof (Nat.div_mod i 2 ltac:(lia)) as Hdm.
  destruct (Nat.eqb_spec (i mod 2) 0) as [E|E].
  - rewrite E, Nat.sub_0_r. reflexivity.
  - assert (E1 : (i mod 2 = 1)%nat) by lia. rewrite E1 in *.
    set (k := (i / 2)%nat) in *. clearbody k.
    assert (Hk : (k < List.length c)%nat) by lia.
    destruct (skipn k c) as [|b r] eqn:Es.
    { apply (f_equal (@List.length Z)) in Es. rewrite skipn_length in Es. cbn in Es. lia. }
    change (b :: r) with ([b] ++ r). rewrite pread_app by reflexivity. cbn [bind].
    assert (Hnb : nth k c 0 = b).
    { rewrite <- (firstn_skipn k c), Es, app_nth2; rewrite firstn_length; [|lia].
      replace (k - Nat.min k (List.length c))%nat with 0%nat by lia. reflexivity. }
    assert (Hbb : is_byte b).
    { pose proof (bytes_skipn k c Hb) as H. rewrite Es in H. inversion H; assumption. }
    replace i with (S (2 * k)) by lia. replace (S (2 * k) - 1)%nat with (2 * k)%nat by lia.
    rewrite (firstn_S_nth _ _ 0) by (rewrite nibs_length; lia).
    rewrite fold_step10_app, nibs_nth_even by lia. rewrite Hnb.
    cbn [le_dec]. rewrite Z.mul_0_r, Z.add_0_r, hi_spec by assumption.
    f_equal. lia.
Qed.

Lemma pskip_ok n c : (n <= List.length c)%nat -> pskip n c = Ok (tt, skipn n c).
Proof. unfold pskip. intros H. apply Nat.leb_le in H. rewrite H. reflexivity. Qed.

Lemma from_bcd_ok skip num c :
  (0 < num)%nat -> bytes c -> (num + lead skip <= 2 * List.length c)%nat ->
  from_bcd skip num c =
  Ok (pos_value (firstn num (skipn (lead skip) (nibs c))),
      skipn ((num + lead skip) / 2) c).
Proof.
  intros Hn Hb Hl. unfold from_bcd. destruct num as [|n]; [lia|].
  destruct c as [|b c]; [cbn in Hl; lia|].
  change (b :: c) with ([b] ++ c) at 1. rewrite pread_app by reflexivity.
  cbn [bind]. inversion Hb as [|? ? Hb0 Hb']; subst.
  cbn [le_dec]. rewrite Z.mul_0_r, Z.add_0_r.
  rewrite hi_spec, lo_spec by assumption.
  assert (Hfold : forall l, pos_value l = fold_left step10 l 0) by reflexivity.
  assert (Hfin : forall r : Z,
    (let* (_, c') := pskip ((S n + (if skip then 1 else 0)) / 2) (b :: c) in Ok (r, c')) =
    Ok (r, skipn ((S n + lead skip) / 2) (b :: c))).
  { intros r. rewrite pskip_ok; [reflexivity|].
    unfold lead in *. destruct skip; cbn [List.length] in *;
    apply Nat.div_le_upper_bound; lia. }
  assert (Hrw : forall i acc,
    (let* (ri, rest') := from_bcd_loop i acc c in
     let (r2, i') := (ri : Z * nat) in
     let* r := (if Nat.eqb i' 0 then Ok r2
                else let* (b, _) := pread 1 rest' in Ok (r2 * 10 + hi b)) in
     let* (_, c') := pskip ((S n + (if skip then 1 else 0)) / 2) (b :: c) in
     Ok (r, c')) =
    (let* r := (let* (ri, rest') := from_bcd_loop i acc c in
                let (r2, i') := (ri : Z * nat) in
                if Nat.eqb i' 0 then Ok r2
                else let* (b, _) := pread 1 rest' in Ok (r2 * 10 + hi b)) in
     let* (_, c') := pskip ((S n + (if skip then 1 else 0)) / 2) (b :: c) in
     Ok (r, c'))).
  { intros i acc. destruct (from_bcd_loop i acc c) as [[[r2 i'] rest']| |]; reflexivity. }
  cbv zeta. rewrite Hrw.
  destruct skip; cbn [lead] in *; cbn [Nat.eqb negb].
  - rewrite from_bcd_rest by (auto; cbn [List.length] in Hl; lia).
    cbn [bind]. rewrite Hfin. cbn [skipn nibs].
    f_equal. f_equal. rewrite Hfold. cbn [firstn fold_left].
    replace (S n - 1)%nat with n by lia.
    f_equal.
  - destruct n as [|n]; cbn [Nat.eqb negb].
    + rewrite from_bcd_rest by (auto; lia). cbn [bind]. rewrite Hfin. cbn [skipn nibs].
      f_equal. 
    + rewrite from_bcd_rest by (auto; cbn [List.length] in Hl; lia).
      cbn [bind]. rewrite Hfin. cbn [skipn nibs]. f_equal. f_equal. rewrite Hfold.
      cbn [firstn fold_left]. replace (S (S n) - 2)%nat with n by lia.
      f_equal. unfold step10. lia.
Qed.

(** ** Positional values *)

Lemma fold_step10_acc l a :
  fold_left step10 l a = a * 10 ^ len l + pos_value l.
Proof.
  change (pos_value l) with (fold_left step10 l 0).
  revert a; induction l as [|d l IH]; intros a.
  - cbn. lia.
  - cbn [fold_left]. rewrite IH, (IH (step10 0 d)). rewrite len_cons.
    rewrite Z.pow_add_r by (pose proof (len_nonneg l); lia).
    unfold step10. lia.
Qed.

Lemma digits_length num v : List.length (digits num v) = num.
Proof. induction num; cbn; lia. Qed.

Lemma pos_value_digits num v : pos_value (digits num v) = v mod 10 ^ Z.of_nat num.
Proof.
  induction num as [|n IH].
  - cbn. rewrite Z.mod_1_r. reflexivity.
  - cbn [digits]. unfold pos_value. cbn [fold_left].
    change (fun a d => 10 * a + d) with step10. rewrite fold_step10_acc, IH.
    unfold len. rewrite digits_length.
    rewrite Nat2Z.inj_succ, Z.pow_succ_r by lia. rewrite (Z.mul_comm 10 (10 ^ _)).
    pose proof (pow10_pos n). rewrite Z.rem_mul_r by lia. lia.
Qed.

(** ** to_bcd *)

Lemma nib_byte a b : 0 <= a < 16 -> 0 <= b < 16 ->
  Z.lor (Z.shiftl a 4) b = 16 * a + b.
Proof.
  intros Ha Hb. replace (16 * a + b) with (a * 2 ^ 4 + b) by (change (2 ^ 4) with 16; lia).
  apply Z.bits_inj'. intros i Hi.
  rewrite Z.lor_spec, Z.shiftl_spec by lia.
  rewrite tb_split by (change (2 ^ 4) with 16; lia).
  destruct (Z.ltb_spec i 4).
  - rewrite Z.testbit_neg_r by lia. reflexivity.
  - assert (Z.testbit b i = false) as ->; [|apply orb_false_r].
    destruct (Z.eq_dec b 0) as [->|]; [apply Z.bits_0|].
    apply Z.bits_above_log2; [lia|]. apply Z.log2_lt_pow2; [lia|].
    assert (2 ^ 4 <= 2 ^ i) by (apply Z.pow_le_mono_r; lia).
    change (2 ^ 4) with 16 in *. lia.
Qed.

Lemma to_bcd_tail_ok vs st v n : forall num c, (num <= n)%nat ->
  (forall j, (j < num)%nat -> bcd_digit vs st j = dec v j) ->
  bytes c -> (num <= 2 * List.length c)%nat ->
  exists d c', to_bcd_tail vs st num c = Ok (d, c') /\
    List.length d = (num / 2)%nat /\
    List.length (d ++ c') = List.length c /\
    nibs (d ++ c') = digits num v ++ oddpad num ++ skipn (num + num mod 2) (nibs c) /\
    bytes (d ++ c').
Proof.
  induction n as [|n IH]; intros num c Hn Hd Hb Hl.
  { assert (num = 0)%nat by lia. subst num.
    exists [], c. repeat split; auto. }
  destruct num as [|[|num]].
  - exists [], c. repeat split; auto.
  - destruct c as [|b c]; [cbn in Hl; lia|].
    exists [], (Z.shiftl (bcd_digit vs st 0) 4 :: c).
    cbn [to_bcd_tail]. unfold wmod. inversion Hb as [|? ? Hb0 Hb']; subst.
    rewrite Hd by lia. pose proof (dec_range v 0).
    rewrite Z.shiftl_mul_pow2 by lia. change (2 ^ 4) with 16.
    split; [reflexivity|]. split; [reflexivity|]. split; [reflexivity|]. split.
    + cbn [app nibs digits oddpad Nat.even skipn Nat.modulo Nat.divmod fst snd Nat.sub Nat.add].
      f_equal; [|f_equal].
      * rewrite Z.div_mul by lia. reflexivity.
      * apply Z.mod_mul. lia.
    + cbn. constructor; [unfold is_byte; lia|assumption].
  - destruct c as [|b c]; [cbn in Hl; lia|].
    inversion Hb as [|? ? Hb0 Hb']; subst.
    cbn [List.length] in Hl.
    destruct (IH num c) as (d & c' & E & L & LL & Nb & Bt); [lia|intros; apply Hd; lia|assumption|lia|].
    pose proof (dec_range v (S num)). pose proof (dec_range v num).
    exists ((16 * dec v (S num) + dec v num) :: d), c'.
    split; [|split; [|split; [|split]]].
    + change (to_bcd_tail vs st (S (S num)))
        with (wput [Z.lor (Z.shiftl (bcd_digit vs st (S num)) 4) (bcd_digit vs st num)]
              ;; to_bcd_tail vs st num).
      unfold wseq. rewrite (Hd (S num)), (Hd num) by lia.
      change (b :: c) with ([b] ++ c). rewrite wput_app by reflexivity. cbn [bind].
      rewrite E. cbn [bind]. rewrite nib_byte by lia. reflexivity.
    + replace (S (S num)) with (num + 1 * 2)%nat by lia. rewrite Nat.div_add by lia.
      cbn [List.length]. lia.
    + cbn [app List.length]. lia.
    + cbn [app nibs]. rewrite Nb.
      replace (S (S num) mod 2)%nat with (num mod 2)%nat.
      2:{ replace (S (S num)) with (num + 1 * 2)%nat by lia. symmetry. apply Nat.mod_add. lia. }
      cbn [digits app]. unfold oddpad. cbn [Nat.even Nat.add skipn].
      f_equal; [|f_equal].
      * unfold dec in *. lia.
      * unfold dec in *. lia.
    + cbn [app]. constructor; [|assumption]. unfold is_byte. lia.
Qed.

Lemma lor_low b d : is_byte b -> b mod 16 = 0 -> 0 <= d < 16 -> Z.lor b d = b + d.
Proof.
  intros Hb H0 Hd. unfold is_byte in Hb.
  replace b with (Z.shiftl (b / 16) 4) at 1.
  - rewrite nib_byte by dlia. dlia.
  - rewrite Z.shiftl_mul_pow2 by lia. change (2 ^ 4) with 16. dlia.
Qed.

Lemma to_bcd_ok vs v skip num c :
  0 < vs <= 8 -> 0 <= v < 2 ^ (8 * vs) ->
  (0 < num <= 12)%nat -> bytes c -> (num + lead skip <= 2 * List.length c)%nat ->
  (skip = true -> forall b c', c = b :: c' -> b mod 16 = 0) ->
  exists d c', to_bcd vs v skip num c = Ok (d, c') /\
    List.length d = ((num + lead skip) / 2)%nat /\
    List.length (d ++ c') = List.length c /\
    nibs (d ++ c') =
      firstn (lead skip) (nibs c) ++ digits num v ++ oddpad (num + lead skip)
      ++ skipn (num + lead skip + (num + lead skip) mod 2) (nibs c) /\
    bytes (d ++ c').
Proof.
  intros Hvs Hv Hn Hb Hl Hskip. unfold to_bcd.
  destruct (Nat.leb_spec num 12); [|lia]. destruct (Nat.eqb_spec num 0); [lia|]. cbn [andb negb].
  assert (Hd : forall j, (j < num)%nat ->
    bcd_digit vs (dabble_all vs num (bcd_init vs v)) j = dec v j).
  { intros j Hj. apply dabble_digits; [assumption| |assumption].
    replace (vs * 8) with (8 * vs) by lia. assumption. }
  set (st := dabble_all vs num (bcd_init vs v)) in *. clearbody st.
  destruct skip; cbn [lead] in *.
  - destruct c as [|b c]; [cbn in Hl; lia|]. cbn [List.length] in Hl.
    inversion Hb as [|? ? Hb0 Hb']; subst.
    specialize (Hskip eq_refl b c eq_refl).
    destruct num as [|num]; [lia|].
    destruct (to_bcd_tail_ok vs st v num num c) as (d & c' & E & L & LL & Nb & Bt);
      [lia|intros; apply Hd; lia|assumption|lia|].
    pose proof (dec_range v num).
    exists ((b + dec v num) :: d), c'.
    replace (S num - 1)%nat with num by lia.
    rewrite (Hd num) by lia.
    split; [|split; [|split; [|split]]].
    + unfold wseq. cbn [wmod bind]. rewrite lor_low by (auto; lia).
      change (b + dec v num :: c) with ([b + dec v num] ++ c).
      rewrite wskip_ok by (cbn; lia). cbn [bind firstn skipn app].
      rewrite E. reflexivity.
    + replace (S num + 1)%nat with (num + 1 * 2)%nat by lia. rewrite Nat.div_add by lia.
      cbn [List.length]. lia.
    + cbn [app List.length]. lia.
    + cbn [app nibs]. rewrite Nb.
      replace (S num + 1)%nat with (S (S num)) by lia.
      replace (S (S num) mod 2)%nat with (num mod 2)%nat.
      2:{ replace (S (S num)) with (num + 1 * 2)%nat by lia. symmetry. apply Nat.mod_add. lia. }
      cbn [digits app firstn Nat.add skipn]. unfold oddpad. cbn [Nat.even].
      unfold is_byte in Hb0.
      f_equal; [|f_equal].
      * dlia.
      * unfold dec in *. dlia.
    + cbn [app]. constructor; [|assumption]. unfold is_byte in *. dlia.
  - rewrite Nat.add_0_r in *. cbn [firstn app].
    apply (to_bcd_tail_ok vs st v num num c); auto.
Qed.

(** Too short a buffer is an out-of-bounds access, never a silent overrun. *)
Lemma firstn_app_exact {A} n (a b : list A) : List.length a = n -> firstn n (a ++ b) = a.
Proof. intros <-. rewrite firstn_app, Nat.sub_diag, firstn_all. apply app_nil_r. Qed.
Lemma skipn_app_exact {A} n (a b : list A) : List.length a = n -> skipn n (a ++ b) = b.
Proof. intros <-. rewrite skipn_app, Nat.sub_diag, skipn_all. reflexivity. Qed.

Lemma bcd_roundtrip vs v skip num c :
  0 < vs <= 8 -> 0 <= v < 2 ^ (8 * vs) ->
  (0 < num <= 12)%nat -> bytes c -> (num + lead skip <= 2 * List.length c)%nat ->
  (skip = true -> forall b c', c = b :: c' -> b mod 16 = 0) ->
  exists d c', to_bcd vs v skip num c = Ok (d, c') /\
    List.length d = ((num + lead skip) / 2)%nat /\
    from_bcd skip num (d ++ c') = Ok (v mod 10 ^ Z.of_nat num, c').
Proof.
  intros Hvs Hv Hn Hb Hl Hskip.
  destruct (to_bcd_ok vs v skip num c Hvs Hv Hn Hb Hl Hskip)
    as (d & c' & E & L & LL & Nb & Bt).
  exists d, c'. split; [exact E|]. split; [exact L|].
  rewrite from_bcd_ok; [|lia|exact Bt|lia]. f_equal. f_equal.
  - rewrite Nb. rewrite skipn_app_exact.
    2:{ rewrite firstn_length, nibs_length. lia. }
    rewrite firstn_app_exact by apply digits_length.
    apply pos_value_digits.
  - apply skipn_app_exact, L.
Qed.
