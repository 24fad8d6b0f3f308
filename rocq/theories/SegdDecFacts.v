(** The readers of SEG-D header blocks on arbitrary bytes. *)
From Coq Require Import Reals Lra.
From Verif Require Import BaseFacts Bcd BcdSpec BcdFacts BcdFacts2 Platform CodecSpec CodecFacts Fp FpSpec FpReal
  SampleReal TraceHdr SegyTypes SegyCodec ISegy OSegy SegdTypes SegdSpec SegdDecSpec ISegd OpenFacts ReadFacts2
  NibFacts FixFacts SegdHdrFacts SegdTrcFacts.
Local Open Scope Z_scope.

Lemma D_bcd b k skip n : bytes b -> (0 < n)%nat -> (2 * k + lead skip + n <= 2 * List.length b)%nat ->
  from_bcd skip n (skipn k b) = Ok (dec b (2 * k + lead skip) n, skipn (k + (n + lead skip) / 2) b).
Proof.
  intros Hb Hn Hl. rewrite from_bcd_ok.
  - rewrite nibs_skipn, !skipn_skipn'. reflexivity.
  - exact Hn.
  - apply bytes_skipn. exact Hb.
  - rewrite skipn_length. lia.
Qed.

Lemma le_dec_rev l : le_dec (rev l) = fold_left (fun a x => 256 * a + x) l 0.
Proof.
  induction l as [|x l IH] using rev_ind; [reflexivity|].
  rewrite rev_app_distr, fold_left_app. cbn [rev app le_dec fold_left]. rewrite IH. ring.
Qed.

Lemma be_big l : bytes l -> be_bytes (List.length l) (fold_left (fun a x => 256 * a + x) l 0) = l.
Proof.
  intros Hb. unfold be_bytes. rewrite <- le_enc_le_bytes, <- le_dec_rev, <- (rev_length l).
  rewrite le_enc_dec by (apply Forall_rev; exact Hb). apply rev_involutive.
Qed.

Lemma big_range b k n : bytes b -> (k + n <= List.length b)%nat -> 0 <= big b k n < 256 ^ Z.of_nat n.
Proof.
  intros Hb Hl. unfold big. rewrite <- le_dec_rev.
  assert (Hb' : bytes (rev (firstn n (skipn k b)))) by (apply Forall_rev, bytes_firstn, bytes_skipn; exact Hb).
  pose proof (le_dec_bound _ Hb') as K. unfold len in K. rewrite rev_length, firstn_length, skipn_length in K.
  replace (Nat.min n (List.length b - k)) with n in K by lia. exact K.
Qed.

Lemma cut b k n : bytes b -> (k + n <= List.length b)%nat ->
  skipn k b = be_bytes n (big b k n) ++ skipn (k + n) b.
Proof.
  intros Hb Hl. unfold big.
  assert (L : List.length (firstn n (skipn k b)) = n) by (rewrite firstn_length, skipn_length; lia).
  rewrite <- L at 1. rewrite be_big by (apply bytes_firstn, bytes_skipn; exact Hb).
  rewrite <- skipn_skipn'. symmetry. apply firstn_skipn.
Qed.

Lemma D_u b k n : bytes b -> (k + n <= List.length b)%nat ->
  rd_u Swapped n (skipn k b) = Ok (big b k n, skipn (k + n) b).
Proof.
  intros Hb Hl. rewrite (cut b k n Hb Hl) at 1. rewrite <- wr_swapped, rd_u_wr.
  rewrite wrapu_small; [reflexivity|]. pose proof (big_range b k n Hb Hl).
  replace (2 ^ (8 * Z.of_nat n)) with (256 ^ Z.of_nat n); [lia|].
  rewrite Z.pow_mul_r by lia. reflexivity.
Qed.
Lemma D_i b k n : bytes b -> (k + n <= List.length b)%nat ->
  rd_i Swapped n (skipn k b) = Ok (wraps (8 * Z.of_nat n) (big b k n), skipn (k + n) b).
Proof. intros Hb Hl. rewrite (cut b k n Hb Hl) at 1. rewrite <- wr_swapped, rd_i_wr. reflexivity. Qed.
Lemma D_u24 p b k : p_left_first p = true -> bytes b -> (k + 3 <= List.length b)%nat ->
  rd_u24 p Swapped (skipn k b) = Ok (big b k 3, skipn (k + 3) b).
Proof.
  intros Hp Hb Hl. rewrite (cut b k 3 Hb Hl) at 1. rewrite <- wr24_swapped, rd_u24_wr24 by exact Hp.
  rewrite wrapu_small; [reflexivity|]. apply (big_range b k 3 Hb Hl).
Qed.
Lemma D_i24 p b k : p_left_first p = true -> bytes b -> (k + 3 <= List.length b)%nat ->
  rd_i24 p Swapped (skipn k b) = Ok (wraps 24 (big b k 3), skipn (k + 3) b).
Proof.
  intros Hp Hb Hl. rewrite (cut b k 3 Hb Hl) at 1. rewrite <- wr24_swapped, rd_i24_wr24 by exact Hp. reflexivity.
Qed.
Lemma D_skip b k n : (k + n <= List.length b)%nat -> pskip n (skipn k b) = Ok (tt, skipn (k + n) b).
Proof. intros Hl. rewrite pskip_ok by (rewrite skipn_length; lia). rewrite skipn_skipn'. reflexivity. Qed.
Lemma D_take b k n : (k + n <= List.length b)%nat ->
  ptake n (skipn k b) = Ok (firstn n (skipn k b), skipn (k + n) b).
Proof. intros Hl. rewrite ptake_ok by (rewrite skipn_length; lia). rewrite skipn_skipn'. reflexivity. Qed.
Lemma skipn_nth (b : list Z) k : (k < List.length b)%nat -> skipn k b = nth k b 0 :: skipn (S k) b.
Proof.
  revert k; induction b as [|x b IH]; intros [|k] H; cbn [List.length] in H; try lia; [reflexivity|].
  cbn [skipn nth]. rewrite IH by lia. reflexivity.
Qed.
Lemma D_peek b k : (k < List.length b)%nat -> rpeek (skipn k b) = Ok (byt b k, skipn k b).
Proof. intros H. rewrite (skipn_nth b k H) at 1. unfold rpeek. rewrite (skipn_nth b k H). reflexivity. Qed.
Lemma big1 b k : (k < List.length b)%nat -> big b k 1 = byt b k.
Proof. intros H. unfold big. rewrite (skipn_nth b k H). cbn [firstn fold_left]. unfold byt. lia. Qed.
Lemma D_8 b k : bytes b -> (k < List.length b)%nat -> r8 (skipn k b) = Ok (byt b k, skipn (S k) b).
Proof. intros Hb H. unfold r8. rewrite D_u by (auto; lia). rewrite big1, Nat.add_1_r by exact H. reflexivity. Qed.
Lemma dec1 b i : (i < 2 * List.length b)%nat -> dec b i 1 = nib b i.
Proof.
  intros H. unfold dec, nib. rewrite (skipn_nth (nibs b) i) by (rewrite nibs_length; exact H).
  reflexivity.
Qed.

(** One step of a reader; [k] is the current offset in the block. *)
Lemma S_bcd {B} b k skip n i k' (f : Z -> P B) r : bytes b -> (0 < n)%nat ->
  (2 * k + lead skip + n <= 2 * List.length b)%nat ->
  (2 * k + lead skip)%nat = i -> (k + (n + lead skip) / 2)%nat = k' ->
  f (dec b i n) (skipn k' b) = r -> pbind (from_bcd skip n) f (skipn k b) = r.
Proof. intros Hb Hn Hl <- <- H. rewrite (pbind_ok _ _ _ _ _ (D_bcd b k skip n Hb Hn Hl)). exact H. Qed.
Lemma S_u {B} b k n k' (f : Z -> P B) r : bytes b -> (k + n <= List.length b)%nat -> (k + n)%nat = k' ->
  f (big b k n) (skipn k' b) = r -> pbind (rd_u Swapped n) f (skipn k b) = r.
Proof. intros Hb Hl <- H. rewrite (pbind_ok _ _ _ _ _ (D_u b k n Hb Hl)). exact H. Qed.
Lemma S_8 {B} b k (f : Z -> P B) r : bytes b -> (k < List.length b)%nat ->
  f (byt b k) (skipn (S k) b) = r -> pbind r8 f (skipn k b) = r.
Proof. intros Hb Hl H. rewrite (pbind_ok _ _ _ _ _ (D_8 b k Hb Hl)). exact H. Qed.
Lemma S_i {B} b k n k' (f : Z -> P B) r : bytes b -> (k + n <= List.length b)%nat -> (k + n)%nat = k' ->
  f (wraps (8 * Z.of_nat n) (big b k n)) (skipn k' b) = r -> pbind (rd_i Swapped n) f (skipn k b) = r.
Proof. intros Hb Hl <- H. rewrite (pbind_ok _ _ _ _ _ (D_i b k n Hb Hl)). exact H. Qed.
Lemma S_u24 {B} p b k k' (f : Z -> P B) r : p_left_first p = true -> bytes b -> (k + 3 <= List.length b)%nat ->
  (k + 3)%nat = k' -> f (big b k 3) (skipn k' b) = r -> pbind (rd_u24 p Swapped) f (skipn k b) = r.
Proof. intros Hp Hb Hl <- H. rewrite (pbind_ok _ _ _ _ _ (D_u24 p b k Hp Hb Hl)). exact H. Qed.
Lemma S_i24 {B} p b k k' (f : Z -> P B) r : p_left_first p = true -> bytes b -> (k + 3 <= List.length b)%nat ->
  (k + 3)%nat = k' -> f (wraps 24 (big b k 3)) (skipn k' b) = r -> pbind (rd_i24 p Swapped) f (skipn k b) = r.
Proof. intros Hp Hb Hl <- H. rewrite (pbind_ok _ _ _ _ _ (D_i24 p b k Hp Hb Hl)). exact H. Qed.
Lemma S_skip {B} b k n k' (f : unit -> P B) r : (k + n <= List.length b)%nat -> (k + n)%nat = k' ->
  f tt (skipn k' b) = r -> pbind (pskip n) f (skipn k b) = r.
Proof. intros Hl <- H. rewrite (pbind_ok _ _ _ _ _ (D_skip b k n Hl)). exact H. Qed.
Lemma S_take {B} b k n k' (f : list Z -> P B) r : (k + n <= List.length b)%nat -> (k + n)%nat = k' ->
  f (firstn n (skipn k b)) (skipn k' b) = r -> pbind (ptake n) f (skipn k b) = r.
Proof. intros Hl <- H. rewrite (pbind_ok _ _ _ _ _ (D_take b k n Hl)). exact H. Qed.
Lemma S_peek {B} b k (f : Z -> P B) r : (k < List.length b)%nat ->
  f (byt b k) (skipn k b) = r -> pbind rpeek f (skipn k b) = r.
Proof. intros Hl H. rewrite (pbind_ok _ _ _ _ _ (D_peek b k Hl)). exact H. Qed.

Ltac dbound := match goal with L : List.length _ = _ |- _ => rewrite L; vm_compute; lia end.
Ltac dstep :=
  match goal with
  | |- pbind (from_bcd _ _) _ _ = _ => eapply S_bcd; [assumption|lia|dbound|vm_compute; reflexivity|vm_compute; reflexivity|]
  | |- pbind r8 _ _ = _ => eapply S_8; [assumption|dbound|]
  | |- pbind r16 _ _ = _ => eapply S_u; [assumption|dbound|vm_compute; reflexivity|]
  | |- pbind r32 _ _ = _ => eapply S_u; [assumption|dbound|vm_compute; reflexivity|]
  | |- pbind r64 _ _ = _ => eapply S_u; [assumption|dbound|vm_compute; reflexivity|]
  | |- pbind (rd_i _ _) _ _ = _ => eapply S_i; [assumption|dbound|vm_compute; reflexivity|]
  | |- pbind (r24 _) _ _ = _ => eapply S_u24; [assumption|assumption|dbound|vm_compute; reflexivity|]
  | |- pbind (rd_i24 _ _) _ _ = _ => eapply S_i24; [assumption|assumption|dbound|vm_compute; reflexivity|]
  | |- pbind (pskip _) _ _ = _ => eapply S_skip; [dbound|vm_compute; reflexivity|]
  | |- pbind (ptake _) _ _ = _ => eapply S_take; [dbound|vm_compute; reflexivity|]
  | |- pbind rpeek _ _ = _ => eapply S_peek; [dbound|]
  end; cbv beta.

Ltac conj := repeat match goal with |- _ /\ _ => split end; try reflexivity.

(** ** General header 1 *)

Lemma byt_range b i : bytes b -> 0 <= byt b i < 256.
Proof.
  intros H. unfold byt. destruct (Nat.ltb_spec i (List.length b)) as [L|L].
  - unfold bytes in H. rewrite Forall_forall in H. apply H. apply nth_In. exact L.
  - rewrite nth_overflow by exact L. lia.
Qed.
Lemma fixv_fixp d k n : fixp d k n -> fixv d k n.
Proof. intros [H _]. exact H. Qed.
Lemma low_nib b k : (k < List.length b)%nat -> Z.land (byt b k) 15 = nib b (2 * k + 1).
Proof.
  intros H. unfold nib, byt. change 15 with (Z.ones 4). rewrite Z.land_ones by lia. change (2 ^ 4) with 16.
  revert k H; induction b as [|x b IH]; intros [|k] H; cbn [List.length] in H; try lia; [reflexivity|].
  replace (2 * S k + 1)%nat with (S (S (2 * k + 1))) by lia. cbn [nth nibs]. apply IH. lia.
Qed.

Lemma gh1_dec b : bytes b -> List.length b = 32%nat -> exists g c, rd_gh1 b = Ok (g, c) /\ gh1_of b g.
Proof.
  intros Hb L. change b with (skipn 0 b) at 1. eexists _, _. split.
  - unfold rd_gh1. repeat dstep. reflexivity.
  - unfold gh1_of. cbn [g1_file_number g1_format_code g1_gen_const g1_year g1_add_blocks g1_day g1_hour g1_minute
      g1_second g1_manufac_code g1_manufac_num g1_bytes_per_scan g1_base_scan_int g1_polarity g1_scans_per_block
      g1_record_type g1_record_length g1_scan_types g1_channel_sets g1_skew_blocks g1_extended_blocks
      g1_external_blocks].
    rewrite <- !dec1 by (rewrite L; vm_compute; lia).
    pose proof (byt_range b 22 Hb).
    conj.
    + apply fixv_fixp, fixp_div; lia.
    + rewrite (low_nib b 23) by (rewrite L; lia). rewrite <- dec1 by (rewrite L; vm_compute; lia). reflexivity.
Qed.

(** ** General header 2 *)

Lemma rev_dec b : bytes b -> List.length b = 32%nat -> exists c, rd_rev b = Ok ((byt b 10, byt b 11), c).
Proof.
  intros Hb L. change b with (skipn 0 b) at 1. eexists. unfold rd_rev. repeat dstep. reflexivity.
Qed.

Lemma gh2_dec p o b : p_left_first p = true -> bytes b -> List.length b = 32%nat ->
  exists g c, rd_gh2_rev2 p (byt b 10) (byt b 11) o b = Ok (g, c) /\ gh2_of b g /\ g2_skew_blocks g = g2_skew_blocks o.
Proof.
  intros Hp Hb L. eexists _, _. split.
  - change b with (skipn 0 b) at 3. unfold rd_gh2_rev2. repeat dstep. reflexivity.
  - unfold gh2_of. cbn [g2_file_num g2_channel_sets g2_extended_blocks g2_external_blocks g2_major g2_minor
      g2_trailer_blocks g2_record_len g2_block_num g2_sequence g2_skew_blocks]. conj.
Qed.

(** ** General header N *)

Lemma big_app b k n m : (k + (n + m) <= List.length b)%nat ->
  big b k (n + m) = big b k n * 256 ^ Z.of_nat m + big b (k + n) m.
Proof.
  intros H. unfold big.
  assert (E : firstn (n + m) (skipn k b) = firstn n (skipn k b) ++ firstn m (skipn (k + n) b)).
  { rewrite <- skipn_skipn'. rewrite <- (firstn_skipn n (skipn k b)) at 1.
    rewrite firstn_app, firstn_firstn, firstn_length, skipn_length.
    replace (Nat.min (n + m) n) with n by lia. f_equal. f_equal. lia. }
  rewrite E, fold_left_app. set (x := fold_left _ (firstn n _) 0).
  assert (Lm : List.length (firstn m (skipn (k + n) b)) = m) by (rewrite firstn_length, skipn_length; lia).
  rewrite <- Lm at 2. generalize (firstn m (skipn (k + n) b)). intros l. clearbody x. clear. revert x.
  assert (K : forall l x, fold_left (fun a y => 256 * a + y) l x =
    x * 256 ^ Z.of_nat (List.length l) + fold_left (fun a y => 256 * a + y) l 0).
  { clear. induction l as [|y l IH]; intros x; cbn [fold_left List.length]; [rewrite Z.mul_1_r; lia|].
    rewrite IH. rewrite (IH (256 * 0 + y)). rewrite Nat2Z.inj_succ, Z.pow_succ_r by lia. ring. }
  exact (K l).
Qed.

Lemma fix5 b k : bytes b -> (k + 5 <= List.length b)%nat ->
  fixv (fix16 (wraps 24 (big b k 3)) (big b (k + 3) 2)) (as_signed 5 (big b k 5)) 16.
Proof.
  intros Hb Hl. pose proof (big_range b k 3 Hb ltac:(lia)) as R3. pose proof (big_range b (k + 3) 2 Hb ltac:(lia)) as R2.
  change (256 ^ Z.of_nat 3) with (2 ^ 24) in R3. change (256 ^ Z.of_nat 2) with (2 ^ 16) in R2.
  replace (as_signed 5 (big b k 5)) with (wraps 24 (big b k 3) * 2 ^ 16 + big b (k + 3) 2).
  - apply fixv_fixp, fix16_fixp; [|exact R2]. unfold wraps. rewrite Z.mod_small by lia.
    destruct (_ <? _) eqn:?; lia.
  - pose proof (big_app b k 3 2 ltac:(lia)) as Ea. change (3 + 2)%nat with 5%nat in Ea. rewrite Ea. change (256 ^ Z.of_nat 2) with (2 ^ 16).
    unfold as_signed, wraps. change (256 ^ Z.of_nat 5) with (2 ^ 40). change (24 - 1) with 23.
    rewrite !Z.mod_small by lia.
    destruct (Z.ltb_spec (big b k 3) (2 ^ 23)), (Z.ltb_spec (2 * (big b k 3 * 2 ^ 16 + big b (k + 3) 2)) (2 ^ 40)); lia.
Qed.

Lemma ghN_dec p b : p_left_first p = true -> bytes b -> List.length b = 32%nat ->
  exists h c, rd_ghN p b = Ok (h, c) /\ ghN_of b h.
Proof.
  intros Hp Hb L. change b with (skipn 0 b) at 1. eexists _, _. split.
  - unfold rd_ghN. repeat dstep. reflexivity.
  - unfold ghN_of. cbn [gN_file_number gN_line gN_point gN_point_index gN_phase_control gN_type_vibrator
      gN_phase_angle gN_block_num gN_set_num]. conj.
    + apply (fix5 b 3); [exact Hb|rewrite L; lia].
    + apply (fix5 b 8); [exact Hb|rewrite L; lia].
    + rewrite as_signed_wraps by lia. reflexivity.
Qed.

(** ** Channel set header *)

Lemma descale_dec b v : bytes b -> (8 <= List.length b)%nat -> v = big b 6 2 ->
  fixv (d_div (d_mul (if Z.testbit v 15 then i2d (-1) else i2d 1) (i2d (Z.land v 32767))) (d_pow2 10))
       (sign_mag v) 10.
Proof.
  intros Hb Hl ->. pose proof (big_range b 6 2 Hb ltac:(lia)) as R. change (256 ^ Z.of_nat 2) with (2 ^ 16) in R.
  set (v := big b 6 2) in *. clearbody v. clear b Hb Hl. unfold sign_mag.
  change 32767 with (Z.ones 15). rewrite Z.land_ones by lia.
  assert (T : Z.testbit v 15 = negb (v <? 2 ^ 15)).
  { rewrite Z.testbit_eqb by lia. destruct (Z.ltb_spec v (2 ^ 15)) as [H|H]; cbn [negb].
    - rewrite Z.div_small by lia. reflexivity.
    - replace (v / 2 ^ 15) with 1; [reflexivity|]. apply (Z.div_unique v (2 ^ 15) 1 (v - 2 ^ 15)); lia. }
  rewrite T. set (s := if negb (v <? 2 ^ 15) then -1 else 1).
  replace (if negb (v <? 2 ^ 15) then i2d (-1) else i2d 1) with (i2d s) by (unfold s; destruct (negb _); reflexivity).
  replace (if v <? 2 ^ 15 then v else 2 ^ 15 - v) with (s * (v mod 2 ^ 15)).
  2:{ unfold s. destruct (Z.ltb_spec v (2 ^ 15)) as [H|H]; cbn [negb].
      - rewrite Z.mod_small by lia. lia.
      - rewrite <- (Z.mod_unique v (2 ^ 15) 1 (v - 2 ^ 15)) by lia. lia. }
  set (m := v mod 2 ^ 15). assert (M : 0 <= m < 2 ^ 15) by (apply Z.mod_pos_bound; lia).
  assert (S : s = 1 \/ s = -1) by (unfold s; destruct (negb _); auto).
  destruct (i2d_holds s ltac:(lia)) as [Hs _]. destruct (i2d_holds m ltac:(lia)) as [Hm _].
  destruct (d_mul_holds _ _ _ _ (s * m) 0 Hs Hm) as [H1 _]; try nia.
  { rewrite pw_0, mult_IZR. ring. }
  rewrite <- mult_IZR in H1.
  destruct (d_pow2_holds 10 ltac:(lia)) as [Hp _].
  destruct (d_div_holds _ _ _ _ (s * m) (-10) H1 Hp (pow2_nz 10)) as [H2 _]; try nia.
  { unfold Rdiv. rewrite <- pw_opp. reflexivity. }
  unfold fixv. replace (IZR (s * m) * powerRZ 2 (- (10)))%R with (IZR (s * m) / pw 10)%R; [exact H2|].
  rewrite pw_powerRZ. unfold Rdiv. rewrite <- pw_opp. reflexivity.
Qed.

Lemma flag_dec v : 0 <= v < 256 -> v / 16 < 8 -> flag_of v = v / 16.
Proof.
  intros H L. assert (B := nib_div v). 
  destruct (flag_split (v / 16) (v mod 16)) as [E _]; [split; [apply Z.div_pos; lia|lia]|apply Z.mod_pos_bound; lia|].
  rewrite B in E. exact E.
Qed.
Lemma high_nib b k : (k < List.length b)%nat -> nib b (2 * k) = byt b k / 16.
Proof. apply nibs_nth_even. Qed.


Lemma chset_dec p b : bytes b -> List.length b = 32%nat ->
  exists v c, rd_chset p b = Ok (v, c) /\ chset_of b v /\ c_number_of_samples v = Some 0.
Proof.
  intros Hb L. change b with (skipn 0 b) at 1. eexists _, _. split.
  - unfold rd_chset. repeat dstep. reflexivity.
  - unfold chset_of. cbn [c_scan_type c_number c_start c_end c_descale
      c_channels c_type c_subscans c_gain c_alias_freq c_alias_slope c_low_freq c_low_slope c_notch1 c_notch2
      c_notch3 c_ext_num c_ext_flag c_hdr_ext c_vert_stack c_streamer c_array].
    rewrite !(dec1 b) by (rewrite L; vm_compute; lia). conj.
    + lia.
    + lia.
    + apply (descale_dec b); [exact Hb|rewrite L; lia|reflexivity].
    + change 56%nat with (2 * 28)%nat. rewrite (high_nib b 28) by (rewrite L; lia). apply flag_dec. apply byt_range, Hb.
    + apply (low_nib b 28). rewrite L; lia.
Qed.

Lemma flag_high v : 0 <= v < 256 -> 8 <= v / 16 -> flag_of v = 240 + v / 16.
Proof.
  intros H L. assert (E : forallb (fun v => (v / 16 <? 8) || (flag_of v =? 240 + v / 16)) (map Z.of_nat (seq 0 256)) = true)
    by (vm_compute; reflexivity).
  rewrite forallb_forall in E. specialize (E v). lapply E; [clear E; intros E|].
  - apply orb_prop in E as [E|E]; [apply Z.ltb_lt in E; lia|apply Z.eqb_eq, E].
  - apply in_map_iff. exists (Z.to_nat v). split; [lia|apply in_seq; lia].
Qed.
Lemma chset_flag p b : bytes b -> List.length b = 32%nat -> 8 <= nib b 56 ->
  exists v c, rd_chset p b = Ok (v, c) /\ c_ext_flag v = 240 + nib b 56.
Proof.
  intros Hb L. change 56%nat with (2 * 28)%nat. rewrite (high_nib b 28) by (rewrite L; lia).
  intros N. change b with (skipn 0 b) at 1. eexists _, _. split.
  - unfold rd_chset. repeat dstep. reflexivity.
  - cbn [c_ext_flag]. apply flag_high; [apply byt_range, Hb|exact N].
Qed.

(** ** Trace header *)

Lemma th_dec p b : p_left_first p = true -> bytes b -> List.length b = 20%nat ->
  exists h c, rd_trace_header p b = Ok (h, c) /\ th_of b h.
Proof.
  intros Hp Hb L. change b with (skipn 0 b) at 1. eexists _, _. split.
  - unfold rd_trace_header. repeat dstep. reflexivity.
  - pose proof (big_range b 6 3 Hb ltac:(rewrite L; lia)) as R1. change (256 ^ Z.of_nat 3) with (2 ^ 24) in R1.
    pose proof (big_range b 12 3 Hb ltac:(rewrite L; lia)) as R2. change (256 ^ Z.of_nat 3) with (2 ^ 24) in R2.
    pose proof (byt_range b 10 Hb) as R3.
    assert (F1 : fixv (d_div (i2d (big b 6 3)) (d_pow2 8)) (big b 6 3) 8) by (apply fixv_fixp, fixp_div; lia).
    assert (F2 : fixv (d_div (i2d (big b 12 3)) (d_pow2 8)) (big b 12 3) 8) by (apply fixv_fixp, fixp_div; lia).
    assert (F3 : fixv (d_div (i2d (byt b 10)) (d_pow2 8)) (byt b 10) 8) by (apply fixv_fixp, fixp_div; lia).
    unfold th_of.
    destruct (big b 15 2 =? 0), (big b 17 3 =? 0); repeat rewrite hget_hset; cbn [hget String.eqb Ascii.eqb Bool.eqb];
    (repeat (split; [reflexivity|]); eexists _, _, _;
     (split; [reflexivity|]); (split; [exact F1|]); (split; [reflexivity|]); (split; [exact F3|]); (split; [reflexivity|exact F2])).
Qed.
