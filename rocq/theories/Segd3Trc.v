(** Reading the traces of SEG-D revision 3 files. *)
From Coq Require Import Reals.
From Verif Require Import BaseFacts Bcd BcdSpec BcdFacts BcdFacts2 Platform CodecSpec CodecFacts Fp FpSpec FpReal SampleReal
  TraceHdr HdrFacts SegyTypes SegyCodec ISegy SegdTypes SegdSpec SegdDecSpec SegdTrcSpec SegdReadSpec Segd3Spec Segd3TrcSpec ISegd OpenFacts ReadFacts2
  NibFacts FixFacts SegdHdrFacts SegdTrcFacts SegdFileFacts SegdDecFacts SegdOpenFacts SegdOpenProps SegdRecFacts SegdTrcRead SegdReadProps
  Segd3Facts Segd3Props.
Local Open Scope Z_scope.

Lemma signed_pos b i n : bytes b -> (0 < n)%nat -> (i + n <= List.length b)%nat -> byt b i < 128 -> as_signed n (big b i n) = big b i n.
Proof.
  intros Hb Hn L H. pose proof (big_range b i n Hb L) as Rn. unfold as_signed. rewrite (Z.mod_small (big b i n)) by exact Rn.
  destruct (Z.ltb_spec (2 * big b i n) (256 ^ Z.of_nat n)) as [?|Q]; [reflexivity|exfalso]. clear Rn.
  destruct n as [|n]; [lia|]. change (S n) with (1 + n)%nat in *. rewrite (big_app b i 1 n) in Q by lia. rewrite big1 in Q by lia.
  pose proof (big_range b (i + 1) n Hb ltac:(lia)) as R. pose proof (byt_range b i Hb).
  rewrite Nat2Z.inj_add, Z.pow_add_r in Q by lia. change (256 ^ Z.of_nat 1) with 256 in Q. nia.
Qed.

Lemma te3_dec p major h b : p_left_first p = true -> bytes b -> List.length b = 32%nat -> 3 <= major -> hget h "TRACE_NUMBER" = None ->
  exists h' c, rd_ext_std p major h b = Ok (Ok h', c) /\ te3_of b h' /\ hget h' "TRACE_NUMBER" = Some (VInt 0) /\
    (forall k, ~ In k ext3_keys -> hget h' k = hget h k).
Proof.
  intros Hp Hb L M N.
  unfold rd_ext_std. destruct (Z.ltb_spec major 3) as [?|_]; [lia|]. destruct (Z.ltb_spec 2 major) as [_|?]; [|lia].
  destruct (Z.ltb_spec 1 major) as [_|?]; [|lia].
  pose proof (big5_zero b 10 Hb ltac:(lia)) as Zl. pose proof (big5_zero b 15 Hb ltac:(lia)) as Zp.
  pose proof (fix5u b 10 Hb ltac:(lia)) as Fl. pose proof (fix5u b 15 Hb ltac:(lia)) as Fp.
  change (10 + 3)%nat with 13%nat in *. change (15 + 3)%nat with 18%nat in *.
  eexists. eexists. split.
  { change b with (skipn 0 b) at 1. do 3 dstep.
    erewrite pbind_ok; [|do 3 dstep; reflexivity]. erewrite pbind_ok; [|do 5 dstep; reflexivity].
    do 5 dstep.
    match goal with |- context [hidx ?h "TRACE_NUMBER"] => assert (Nh : hget h "TRACE_NUMBER" = None) end.
    { rewrite !hget_hset, !hget_nonzero, !hget_hset. cbn [String.eqb Ascii.eqb Bool.eqb].
      destruct (_ && _); destruct (_ && _); exact N. }
    unfold hidx. rewrite Nh. reflexivity. }
  change (0 =? 16665) with false. cbv iota. unfold te3_of, receivers_pos, receiver3.
  rewrite !hget_hset, !hget_nonzero, !hget_hset, Zl, Zp. cbn [String.eqb Ascii.eqb Bool.eqb].
  split.
  { split.
    - intros (R1 & R2 & R3 & R4). rewrite !(signed_pos b) by (auto; lia).
      split; destruct (big b 10 5 =? 0), (big b 15 5 =? 0); first [reflexivity|eexists; split; [reflexivity|assumption]].
    - destruct (big b 10 5 =? 0), (big b 15 5 =? 0); repeat (split; [reflexivity|]); reflexivity. }
  split; [reflexivity|].
  intros k Hk. cbn [In ext3_keys] in Hk.
  rewrite !hget_hset, !hget_nonzero, !hget_hset, Zl, Zp.
  repeat match goal with |- context [String.eqb k ?x] => destruct (String.eqb_spec k x); [subst k; tauto|] end.
  destruct (big b 15 5 =? 0); destruct (big b 10 5 =? 0); reflexivity.
Qed.

Definition te3_rel (b : list Z) (n : Z) (h h' : hdr) : Prop :=
  (n = 0 -> h' = h) /\ (0 < n -> te3_of b h' /\ hget h' "TRACE_NUMBER" = Some (VInt 0)) /\
  (forall k, ~ In k ext3_keys -> hget h' k = hget h k).

Lemma exts3_reads p major n f h : p_left_first p = true -> 3 <= major -> good_file f -> hget h "TRACE_NUMBER" = None ->
  reads (rd_exts p major [] n 0 f h) f (32 * Z.of_nat n) (te3_rel (slice (fpos f) 32 (fdata f)) (Z.of_nat n) h).
Proof.
  intros Hp M G N. destruct n as [|n]; cbn [rd_exts].
  - apply reads_ret. split; [reflexivity|]. split; [lia|reflexivity].
  - replace (32 * Z.of_nat (S n)) with (32 + 32 * Z.of_nat n) by lia.
    eapply reads_bind; [exact G|lia|lia|apply reads_fread, G|].
    intros b f1 G1 D1 P1 (B & Bb & L & Q). destruct (te3_dec p major h b Hp Bb L M N) as (h' & c & E & Ht & Hn & Hk).
    eapply reads_ok; [rewrite E; reflexivity|].
    eapply reads_weak; [apply exts_more, G1|reflexivity|].
    intros h2 ->. rewrite <- B. split; [lia|]. split; [intros _; auto|exact Hk].
Qed.

Lemma th3_dec p b : p_left_first p = true -> bytes b -> List.length b = 20%nat ->
  exists h c, rd_trace_header p b = Ok (h, c) /\ th_of b h /\ forall k, In k ext3_keys -> hget h k = None.
Proof.
  intros Hp Hb L. destruct (th_dec p b Hp Hb L) as (h & c & E & H). exists h, c. split; [exact E|]. split; [exact H|].
  assert (X : exists h' c', rd_trace_header p b = Ok (h', c') /\ forall k, In k ext3_keys -> hget h' k = None).
  { change b with (skipn 0 b) at 1. eexists _, _. split.
    - unfold rd_trace_header. repeat dstep. reflexivity.
    - intros k Hk. cbn [In ext3_keys] in Hk. destruct (big b 15 2 =? 0), (big b 17 3 =? 0); repeat rewrite hget_hset;
      repeat (destruct Hk as [Hk|Hk]; [subst k; reflexivity|]); destruct Hk. }
  destruct X as (h' & c' & E' & H'). rewrite E in E'. injection E' as <- _. exact H'.
Qed.

Definition std3_hdr (s : isegd) (h : hdr) : Prop :=
  th_of (th_at s) h /\ (byt (th_at s) 9 <> 0 -> te3_of (te_at s) h /\ hget h "TRACE_NUMBER" = Some (VInt 0)) /\
  (byt (th_at s) 9 = 0 -> forall k, In k ext3_keys -> hget h k = None).

Definition hdr_read3 (p : platform) (s : isegd) : Prop :=
  ((exists e, d_read_trace p s = Throw e) /\ len (fdata (d_file s)) < smp_at s) \/
  exists h f2, d_read_trace p s = (let* (smp, f3) := read_trace_samples p s h f2 in finish p s h smp f3) /\
    fdata f2 = fdata (d_file s) /\ fpos f2 = smp_at s /\ smp_at s <= len (fdata (d_file s)) /\ std3_hdr s h /\
    curr_ch_set s h = (let* sets := nth_1 (d_sets s) (dec (th_at s) 4 2) in nth_1 sets (set_num (th_at s))) /\
    (forall c n, smp3_num s c n -> samp_num_of h c = Ok n).

Lemma trace_hdr3 p s : p_left_first p = true -> good_file (d_file s) -> d_layouts s = [] -> 3 <= g2_major (d_g2 s) -> hdr_read3 p s.
Proof.
  intros Hp G Hl M. unfold hdr_read3, std3_hdr.
  unfold d_read_trace. set (D := fdata (d_file s)). set (q := fpos (d_file s)).
  assert (G' := G). destruct G' as (Gb & Gp & Gl). fold D in Gb, Gl. fold q in Gp.
  destruct (reads_freadn (d_file s) 20 ltac:(lia) G) as (U1 & S1 & C1). fold D q in S1, C1.
  change TRACE_HEADER_SIZE with 20.
  assert (Te : q + 20 <= smp_at s).
  { unfold smp_at. fold q.
    assert (0 <= byt (th_at s) 9) by (apply byt_range; unfold th_at; apply bytes_slice, Gb). lia. }
  destruct (fread 20 (d_file s)) as [[buf f1]|e|] eqn:Ef1;
    [|left; split; [eexists; reflexivity|destruct (Z.ltb_spec (len D) (smp_at s)) as [?|?]; [assumption|];
      destruct C1 as [? C1]; [lia|discriminate]]|congruence].
  destruct (S1 _ _ eq_refl) as (D1 & P1 & B1 & Bb1 & L1). clear U1 S1 C1. cbn [bind].
  assert (L1' : List.length buf = 20%nat) by (unfold len in L1; lia).
  assert (Eb : th_at s = buf) by (unfold th_at; fold D q; congruence).
  rewrite Eb in *.
  destruct (th3_dec p buf Hp Bb1 L1') as (h0 & c0 & E0 & H0 & X0). rewrite E0. cbn [bind].
  unfold read_trace_header_ext, hidx.
  assert (K5 : hget h0 "TR_HDR_EXT" = Some (VInt (byt buf 9))) by (apply H0).
  rewrite K5. cbn [get_int bind]. set (n := byt buf 9) in *.
  assert (Hn : 0 <= n < 256) by (apply byt_range, Bb1).
  replace (wraps 32 n) with n by (symmetry; apply wraps_id; [lia|unfold in_i; lia]).
  assert (G1 : good_file f1).
  { unfold good_file. rewrite D1, P1. fold D. split; [exact Gb|]. split; [lia|exact Gl]. }
  rewrite Hl. destruct (exts3_reads p (g2_major (d_g2 s)) (Z.to_nat n) f1 h0 Hp M G1 ltac:(apply X0; cbn; tauto)) as (U2 & S2 & C2).
  rewrite Z2Nat.id in S2, C2 by lia.
  assert (Te2 : smp_at s = q + 20 + 32 * n) by (unfold smp_at; rewrite Eb; reflexivity).
  destruct (rd_exts p (g2_major (d_g2 s)) [] (Z.to_nat n) 0 f1 h0) as [[h f2]|e|] eqn:Ex;
    [|left; split; [eexists; reflexivity|destruct (Z.ltb_spec (len D) (smp_at s)) as [?|?]; [assumption|];
      destruct C2 as [? C2]; [rewrite D1, P1; fold D q; lia|discriminate]]|congruence].
  destruct (S2 _ _ eq_refl) as (D2 & P2 & R1 & R2 & R3). clear U2 S2 C2. cbn [bind].
  rewrite D1, P1 in R2. fold D q in R2.
  assert (H1 : th_of buf h).
  { unfold th_of in *. rewrite !R3 by (cbn; intuition discriminate). exact H0. }
  destruct H1 as (T1 & T2 & T3 & T4). pose proof (conj T1 (conj T2 (conj T3 T4))) as H1.
  right. exists h, f2. split; [reflexivity|]. split; [congruence|]. split; [lia|]. split.
  { assert (If1 : fpos f1 <= len (fdata f1)).
    { clear - Ef1. unfold fread in Ef1. change (20 =? 0) with false in Ef1. cbv iota in Ef1.
      destruct (Z.leb_spec (fpos (d_file s) + 20) (len (fdata (d_file s)))); [|discriminate]. injection Ef1 as <- <-. exact H. }
    pose proof (exts_in _ _ _ _ _ _ _ _ _ Ex If1) as Qi. rewrite D2, D1 in Qi. fold D in Qi. lia. }
  split.
  { split; [exact H1|]. split; [intros Hn0; unfold te_at; fold D q; apply R2; fold n in Hn0; lia|].
    intros Z0 key Hk; rewrite (R1 Z0); exact (X0 key Hk). }
  split; [unfold curr_ch_set, hidx; rewrite T2, T3; reflexivity|].
  unfold samp_num_of, smp3_num. rewrite Eb. fold n. intros c ns. destruct (Z.eqb_spec n 0) as [Z0|Nz]; intros Hs.
  - rewrite (R1 Z0), (X0 "SAMP_NUM"%string) by (cbn; tauto). rewrite Hs. reflexivity.
  - destruct (R2 ltac:(lia)) as ((_ & _ & _ & _ & _ & _ & R2' & _) & _). rewrite R2'. cbn [get_int bind].
    unfold te_at in Hs. fold D q in Hs. rewrite <- Hs.
    assert (0 <= ns < 256 ^ Z.of_nat 4) by (rewrite Hs; apply big_lt, bytes_slice, Gb).
    rewrite wrapu_small by (change (2 ^ 32) with (256 ^ Z.of_nat 4); lia). reflexivity.
Qed.

(** ** Samples *)

Definition trace_done3 (p : platform) (s : isegd) (c : chset) (n : Z) (Q : list Z -> nat -> list Z -> Prop) : Prop :=
  ((exists e, d_read_trace p s = Throw e) /\ (2 ^ 32 <= p_max_alloc p -> len (fdata (d_file s)) < trace3_end s n)) \/
  exists h ys f3, d_read_trace p s = finish p s h (map (fun y => d_mul y (d_exp2 p (c_descale c))) ys) f3 /\
    fdata f3 = fdata (d_file s) /\ fpos f3 = trace3_end s n /\ trace3_end s n <= len (fdata (d_file s)) /\
    std3_hdr s h /\ Q (slice (smp_at s) (Z.of_nat (sample_bytes (g1_format_code (d_g1 s))) * n) (fdata (d_file s))) (Z.to_nat n) ys.

Lemma trace_gen3 p s c n r (Q : list Z -> nat -> list Z -> Prop) :
  let k := sample_bytes (g1_format_code (d_g1 s)) in
  good_file (d_file s) -> hdr_read3 p s -> in_table s c -> smp3_num s c n -> 0 <= n -> n * (8 * Z.of_nat k) < 2 ^ 32 ->
  d_sample_reader p (g1_format_code (d_g1 s)) = Ok (8 * Z.of_nat k, r) -> (1 <= k <= 8)%nat ->
  (forall b n, bytes b -> List.length b = (k * n)%nat -> exists ys rst, prep r n b = Ok (ys, rst) /\ Q b n ys) ->
  trace_done3 p s c n Q.
Proof.
  intros k G Hd T Hn Hn0 Hfit Er Kb Hr. pose proof (table_ok s c T) as Tc.
  set (fmt := g1_format_code (d_g1 s)) in *. unfold trace_done3.
  assert (Ee : trace3_end s n = smp_at s + Z.of_nat k * n) by reflexivity.
  destruct Hd as [[X Y]|(h & f2 & E & D2 & P2 & L2 & H1 & H4 & H5)].
  { left. split; [exact X|]. intros _. rewrite Ee. nia. }
  rewrite E. clear E. unfold read_trace_samples. rewrite H4, Tc. cbn [bind]. rewrite (H5 c n Hn). cbn [bind].
  fold fmt. rewrite Er. cbn [bind]. set (D := fdata (d_file s)) in *.
  assert (G' := G). destruct G' as (Gb & Gp & Gl). fold D in Gb, Gl.
  rewrite wrapu_small by nia.
  replace (n * (8 * Z.of_nat k) / 8) with (Z.of_nat k * n) by (rewrite Z.mul_assoc, (Z.mul_comm n 8), <- Z.mul_assoc, (Z.mul_comm 8), Z.div_mul by lia; lia).
  assert (Rz : forall z, 0 <= z <= 2 ^ 32 -> (exists u, resize_to p z = Ok u) \/ (exists e, resize_to p z = Throw e) /\ ~ 2 ^ 32 <= p_max_alloc p).
  { intros z Hz. unfold resize_to. rewrite wrapu_small by lia. destruct (Z.leb_spec z (p_max_alloc p)); [left|right]; [eexists; reflexivity|].
    split; [eexists; reflexivity|lia]. }
  destruct (Rz (Z.of_nat k * n) ltac:(nia)) as [[u ->]|[[e ->] Na]]; [|left; split; [eexists; reflexivity|contradiction]]. cbn [bind].
  assert (Sp : 0 <= smp_at s).
  { unfold smp_at. assert (0 <= byt (th_at s) 9) by (apply byt_range; unfold th_at; apply bytes_slice, Gb). lia. }
  assert (G2 : good_file f2).
  { unfold good_file. rewrite D2, P2. split; [exact Gb|]. split; [exact Sp|exact Gl]. }
  destruct (reads_freadn f2 (Z.of_nat k * n) ltac:(nia) G2) as (U3 & S3 & C3).
  rewrite D2, P2 in S3, C3.
  destruct (fread (Z.of_nat k * n) f2) as [[sb f3]|e|] eqn:Ef;
    [|left; split; [eexists; reflexivity|intros _; destruct (Z.ltb_spec (len D) (trace3_end s n)) as [?|?]; [assumption|];
      destruct C3 as [? C3]; [lia|discriminate]]|congruence].
  destruct (S3 _ _ eq_refl) as (D3 & P3 & B3 & Bb3 & L3). clear U3 S3 C3. cbn [bind].
  destruct (Rz (8 * n) ltac:(nia)) as [[u' ->]|[[e ->] Na]]; [|left; split; [eexists; reflexivity|contradiction]]. cbn [bind].
  destruct (Hr sb (Z.to_nat n) Bb3) as (ys & rst & Ep & Hys); [unfold len in L3; nia|].
  rewrite (pmap_prep _ _ _ _ _ _ Ep). cbn [bind]. right. exists h, ys, f3.
  split; [reflexivity|]. split; [exact D3|]. split; [lia|]. split.
  { pose proof (fread_in _ _ _ _ Ef ltac:(rewrite D2, P2; exact L2)) as Qi. rewrite D3, P3 in Qi. lia. }
  split; [exact H1|]. rewrite B3 in Hys. exact Hys.
Qed.

(** ** Formats *)

Lemma safe_reader p fmt : p_left_first p = true -> In fmt safe_formats ->
  exists r, d_sample_reader p fmt = Ok (8 * Z.of_nat (sample_bytes fmt), r) /\ (1 <= sample_bytes fmt <= 8)%nat /\
  forall b n, bytes b -> List.length b = (sample_bytes fmt * n)%nat ->
    exists ys rst, prep r n b = Ok (ys, rst) /\ List.length ys = n.
Proof.
  intros Hp Hf. destruct Hf as [E|Hf].
  { subst fmt. set (r := snd (match d_sample_reader p 9036 with Ok x => x | _ => (0, pret 0) end)).
    exists r. split; [reflexivity|]. split; [cbn; lia|]. intros b n Hb L. cbn [sample_bytes] in L.
    destruct (prep_words r (fun _ _ => True) 3) with (n := n) (b := b) as (ys & Ey & Hw).
    - intros w rst Hw Lw. destruct w as [|a [|b' [|c' [|]]]]; try discriminate. unfold r. cbn [d_sample_reader snd].
      unfold rd_16_8. rewrite Hp. eexists. split; [|exact I]. cbn. reflexivity.
    - exact Hb.
    - lia.
    - eexists _, _. split; [exact Ey|]. apply F2_length in Hw. rewrite <- Hw. unfold words. rewrite map_length. apply seq_length. }
  assert (St : forall g, d_sample_reader p fmt = Ok (8, let+ b := rpeek in pret (g b)) -> sample_bytes fmt = 1%nat ->
    exists r, d_sample_reader p fmt = Ok (8 * Z.of_nat (sample_bytes fmt), r) /\ (1 <= sample_bytes fmt <= 8)%nat /\
    forall b n, bytes b -> List.length b = (sample_bytes fmt * n)%nat ->
      exists ys rst, prep r n b = Ok (ys, rst) /\ List.length ys = n).
  { intros g Er Ek. exists (let+ b := rpeek in pret (g b)). rewrite Ek. split; [exact Er|]. split; [lia|]. intros b n Hb L.
    assert (X : forall x b' m, prep (let+ b := rpeek in pret (g b)) m (x :: b') = Ok (repeat (g x) m, x :: b')).
    { intros x b' m. induction m as [|m IH]; [reflexivity|]. cbn [prep]. unfold pbind at 1. unfold pbind at 1. cbn [rpeek].
      unfold pret at 1. unfold pbind at 1. rewrite IH. reflexivity. }
    destruct b as [|x b].
    - destruct n; [|cbn in L; lia]. exists [], []. split; reflexivity.
    - eexists _, _. split; [apply X|]. apply repeat_length. }
  destruct Hf as [E|Hf].
  { subst fmt. apply (St (fun b => d_mul (i2d ((if Z.testbit b 7 then -1 else 1) * Z.land b 15)) (d_pow2 (Z.land b 112 - 4)))); reflexivity. }
  destruct Hf as [E|Hf].
  { subst fmt. apply (St (fun b => d_mul (d_div (i2d ((if Z.testbit b 7 then -1 else 1) * Z.land b 31)) (d_pow2 5)) (d_pow2 (4 * Z.land b 96)))); reflexivity. }
  destruct (sample_dec p fmt Hp Hf) as (r & Er & Kb & Hr). exists r. split; [exact Er|]. split; [lia|].
  intros b n Hb L. destruct (prep_words r (sample_value fmt) _ Hr n b Hb) as (ys & E & Hw); [lia|].
  eexists _, _. split; [exact E|]. apply F2_length in Hw. rewrite <- Hw. unfold words. rewrite map_length. apply seq_length.
Qed.

Lemma trace_dec3 p s c n : p_left_first p = true -> good_file (d_file s) -> hdr_read3 p s ->
  let fmt := g1_format_code (d_g1 s) in
  In fmt good_formats -> in_table s c -> smp3_num s c n -> 0 <= n -> n * (8 * Z.of_nat (sample_bytes fmt)) < 2 ^ 32 ->
  trace_done3 p s c n (fun b m ys => Forall2 (sample_value fmt) (words b (sample_bytes fmt) m) ys).
Proof.
  intros Hp G Hd fmt Hf T Hn Hn0 Hfit. destruct (sample_dec p _ Hp Hf) as (r & Er & Kb & Hr).
  apply (trace_gen3 p s c n r); auto; [fold fmt in Kb |- *; lia|].
  intros b m Hb L. destruct (prep_words r (sample_value fmt) _ Hr m b Hb) as (ys & E & Hw); [fold fmt in L |- *; lia|].
  eexists _, _. split; [exact E|exact Hw].
Qed.

Lemma trace_safe3 p s c n : p_left_first p = true -> good_file (d_file s) -> hdr_read3 p s ->
  let fmt := g1_format_code (d_g1 s) in
  In fmt safe_formats -> in_table s c -> smp3_num s c n -> 0 <= n -> n * (8 * Z.of_nat (sample_bytes fmt)) < 2 ^ 32 ->
  trace_done3 p s c n (fun b m ys => List.length ys = m).
Proof.
  intros Hp G Hd fmt Hf T Hn Hn0 Hfit. destruct (safe_reader p _ Hp Hf) as (r & Er & Kb & Hr).
  apply (trace_gen3 p s c n r); auto.
Qed.

(** Reading more words than there are bytes. *)
Lemma short_ub p fmt bits r : In fmt good_formats -> d_sample_reader p fmt = Ok (bits, r) ->
  forall n b, bytes b -> (List.length b < sample_bytes fmt * n)%nat -> p_left_first p = true -> prep r n b = UB.
Proof.
  intros Hf Er n b Hb L Hp. destruct (sample_dec p fmt Hp Hf) as (r' & Er' & Kb & Hr). rewrite Er in Er'. injection Er' as _ <-.
  assert (Sh : forall b, (List.length b < sample_bytes fmt)%nat -> r b = UB).
  { clear - Hf Er Hp. intros b L. unfold good_formats in Hf. cbn [In] in Hf.
    destruct Hf as [<-|[<-|[<-|[<-|[<-|[<-|[<-|[]]]]]]]]; cbn [d_sample_reader] in Er; injection Er as _ <-; cbn [sample_bytes] in L;
    do 8 (try (destruct b as [|? b]; [first [reflexivity|unfold pmap, rd_i24, rd_u24, rd_16_8; rewrite Hp; reflexivity]|])); cbn [List.length] in L; lia. }
  revert b Hb L. induction n as [|n IH]; intros b Hb L; [lia|]. cbn [prep].
  destruct (Nat.ltb_spec (List.length b) (sample_bytes fmt)) as [S0|S0].
  - unfold pbind at 1. rewrite (Sh _ S0). reflexivity.
  - destruct (Hr (firstn (sample_bytes fmt) b) (skipn (sample_bytes fmt) b)) as (y & E & _);
      [apply bytes_firstn, Hb|rewrite firstn_length; lia|]. rewrite firstn_skipn in E. rewrite (pbind_ok _ _ _ _ _ E).
    unfold pbind at 1. rewrite IH; [reflexivity|apply bytes_skipn, Hb|rewrite skipn_length; lia].
Qed.

Lemma pmap_ub {A B} (r : P A) (g : A -> B) n b : prep r n b = UB -> prep (pmap g r) n b = UB.
Proof.
  revert b. induction n as [|n IH]; intros b H; cbn [prep] in *; [discriminate|]. unfold pbind in H.
  unfold pbind at 1, pmap at 1, pbind at 1. destruct (r b) as [[y b1]|e|]; try discriminate; [|reflexivity].
  unfold pret at 1. destruct (prep r n b1) as [[ys b2]|e|] eqn:E; try discriminate. unfold pbind. rewrite (IH _ E). reflexivity.
Qed.

Lemma trace_wrap3 p s c n : p_left_first p = true -> good_file (d_file s) -> hdr_read3 p s ->
  let bits := 8 * Z.of_nat (sample_bytes (g1_format_code (d_g1 s))) in
  In (g1_format_code (d_g1 s)) good_formats -> in_table s c -> smp3_num s c n -> 0 <= n < 2 ^ 32 -> 2 ^ 32 <= n * bits ->
  2 ^ 35 <= p_max_alloc p -> smp_at s + n * bits mod 2 ^ 32 / 8 <= len (fdata (d_file s)) -> d_read_trace p s = UB.
Proof.
  intros Hp G Hd bits Hf T Hn Hn0 Hfit Ha L. pose proof (table_ok s c T) as Tc.
  destruct (sample_dec p _ Hp Hf) as (r & Er & Kb & Hr). fold bits in Er.
  assert (Wr : 0 <= n * bits mod 2 ^ 32 < 2 ^ 32) by (apply Z.mod_pos_bound; reflexivity).
  assert (Wd : 0 <= n * bits mod 2 ^ 32 / 8 < 2 ^ 29).
  { split; [apply Z.div_pos; lia|apply Z.div_lt_upper_bound; lia]. }
  destruct Hd as [[X Y]|(h & f2 & E & D2 & P2 & L2 & H1 & H4 & H5)]; [lia|].
  rewrite E. clear E. unfold read_trace_samples. rewrite H4, Tc. cbn [bind]. rewrite (H5 c n Hn). cbn [bind].
  rewrite Er. cbn [bind]. unfold wrapu at 1. unfold resize_to. rewrite wrapu_small by lia.
  destruct (Z.leb_spec (n * bits mod 2 ^ 32 / 8) (p_max_alloc p)) as [_|?]; [|lia]. cbn [bind].
  assert (Sp : 0 <= smp_at s).
  { unfold smp_at. assert (0 <= byt (th_at s) 9) by (apply byt_range; unfold th_at; apply bytes_slice, G). assert (0 <= fpos (d_file s)) by apply G. lia. }
  assert (G2 : good_file f2).
  { unfold good_file. rewrite D2, P2. split; [apply G|]. split; [exact Sp|apply G]. }
  unfold wrapu at 1. destruct (reads_freadn f2 (n * bits mod 2 ^ 32 / 8) ltac:(lia) G2) as (U3 & S3 & C3).
  rewrite D2, P2 in C3. destruct (C3 ltac:(lia)) as [[sb f3] C]. rewrite C. cbn [bind].
  destruct (S3 _ _ C) as (D3 & P3 & B3 & Bb3 & L3).
  rewrite wrapu_small by lia. destruct (Z.leb_spec (8 * n) (p_max_alloc p)) as [_|?]; [|lia]. cbn [bind].
  rewrite (pmap_ub r _ (Z.to_nat n) sb); [reflexivity|].
  eapply short_ub; try eassumption.
  assert (Q : n * bits mod 2 ^ 32 / 8 < n * Z.of_nat (sample_bytes (g1_format_code (d_g1 s)))).
  { apply Z.div_lt_upper_bound; [lia|]. subst bits. lia. }
  unfold len in L3. nia.
Qed.

(** ** The states of a reader *)

Record inv3 (b : list Z) (s : isegd) : Prop := {
  i3_data : fdata (d_file s) = b;
  i3_pos : 0 <= fpos (d_file s);
  i3_layouts : d_layouts s = [];
  i3_major : 3 <= g2_major (d_g2 s);
  i3_counts : Forall (Forall (fun c => exists n, c_number_of_samples c = Some n /\ 0 <= n < 2 ^ 32)) (d_sets s);
  i3_fmt : In (g1_format_code (d_g1 s)) known_formats;
  i3_eod : d_eod s = len b }.

Lemma good3 b s : bytes b -> len b < 2 ^ 63 -> inv3 b s -> good_file (d_file s).
Proof. intros Hb Hl I. destruct I. split; [congruence|]. split; congruence. Qed.

Lemma F2_right {A B} (R : A -> B -> Prop) (Q : B -> Prop) l m : (forall a b, In a l -> R a b -> Q b) -> Forall2 R l m -> Forall Q m.
Proof.
  intros H F. induction F as [|a b l m X F IH]; constructor; [apply (H a); [left; reflexivity|exact X]|].
  apply IH. intros a' b' Ha. apply H. right. exact Ha.
Qed.

Lemma open_inv3 p b s : p_left_first p = true -> bytes b -> len b < 2 ^ 63 -> rev3 b -> isegd_open p b [] = Ok s -> inv3 b s.
Proof.
  intros Hp Hb Hl Hr E. destruct (proj1 (proj2 (open3 p b [] Hp Hb Hl Hr)) s E) as (Sh & L).
  pose proof (counts3 _ _ _ _ _ Hb Hr (proj1 Sh)) as (K1 & K2 & K3 & K4 & K5 & K6 & K7).
  destruct Sh as (S1 & S2 & S3 & S4 & S5 & S6 & S7 & S8 & S9). constructor.
  - exact S5.
  - rewrite S6. unfold rtraces_at, rextds_at, rsets_at.
    assert (Sr := dec2_range b 54 Hb). assert (Nr := dec2_range b 56 Hb).
    assert (Kr : 0 <= skews3_of b).
    { unfold skews3_of, esc3_of. pose proof (big2_range b 40 Hb). pose proof (dec2_range b (2 * 29) Hb). destruct (_ =? _); lia. }
    assert (Dr := esc3_range b 30 37 Hb). assert (Lr := esc3_range b 31 54 Hb). fold (extds3_of b) in Dr. fold (nextl b) in Lr.
    fold (scans_of b) in Sr. fold (sets_of b) in Nr.
    assert (Ar : 0 <= nblk b) by (unfold nblk, wrapu; apply Z.mod_pos_bound; reflexivity).
    assert (0 <= scans_of b * scan3_size b) by (unfold scan3_size; nia). lia.
  - exact L.
  - unfold is_rev3 in K6. destruct (Z.ltb_spec (g2_major (d_g2 s)) 3) as [Q|Q]; [|exact Q].
    destruct (g1_add_blocks (d_g1 s) =? 0); cbn in K6; discriminate.
  - eapply F2_right; [|exact S2]. intros x cs Hx F. eapply F2_right; [|exact F]. intros y c Hy Hc.
    destruct Hc as (Hc & _). destruct Hc as (_ & _ & _ & _ & _ & _ & _ & _ & _ & _ & _ & _ & _ & _ & _ & _ & _ & _ & _ & r & Er & Es & _).
    exists (big y 12 4). unfold c_number_of_samples. rewrite Er, Es. split; [reflexivity|].
    change (2 ^ 32) with (256 ^ Z.of_nat 4). apply big_lt.
    apply in_map_iff in Hx. destruct Hx as (i & <- & _). unfold blocks96 in Hy. apply in_map_iff in Hy. destruct Hy as (j & <- & _).
    apply bytes_slice, Hb.
  - unfold isegd_open, read_headers_before_traces in E.
    destruct (read_general_headers p _) as [[[[[g1 g2] g3] m] f1]|e|]; cbn [bind] in E; try discriminate.
    destruct (d_sample_reader p (g1_format_code g1)) as [r|e|] eqn:Er; cbn [bind] in E; try discriminate.
    destruct (read_scan_types _ _ _ _ _ _) as [[sets f2]|e|]; cbn [bind] in E; try discriminate.
    destruct (resize_to p _) as [?|e|]; cbn [bind] in E; try discriminate.
    destruct (read_blks _ _) as [[? f3]|e|]; cbn [bind] in E; try discriminate.
    destruct (resize_to p _) as [?|e|]; cbn [bind] in E; try discriminate.
    destruct (read_blks _ _) as [[? f4]|e|]; cbn [bind] in E; try discriminate.
    injection E as <-. cbn [d_g1]. exact (reader_known _ _ _ Er).
  - exact S7.
Qed.

Lemma fread_pos n f d f' : fread n f = Ok (d, f') -> 0 <= n -> 0 <= fpos f -> fdata f' = fdata f /\ 0 <= fpos f'.
Proof.
  unfold fread. intros H Hn Hf. destruct (_ =? 0); [injection H as <- <-; auto|].
  destruct (_ <=? _); [|discriminate]. injection H as <- <-. cbn. split; [reflexivity|lia].
Qed.
Lemma exts_pos p mj ls n : forall i f h r f', rd_exts p mj ls n i f h = Ok (r, f') -> 0 <= fpos f -> fdata f' = fdata f /\ 0 <= fpos f'.
Proof.
  induction n as [|n IH]; cbn [rd_exts]; intros i f h r f' H Hf; [injection H as <- <-; auto|].
  destruct (fread TRACE_HEADER_EXT_SIZE f) as [[b f1]|e|] eqn:E; cbn [bind] in H; try discriminate.
  match type of H with bind ?x _ = _ => destruct x as [h1|e|] end; cbn [bind] in H; try discriminate.
  destruct (fread_pos _ _ _ _ E ltac:(discriminate) Hf) as [A B]. destruct (IH _ _ _ _ _ H B) as [C D]. split; [congruence|exact D].
Qed.

(** A trace that is not the last one leaves everything but the position and the
    counter. *)
Lemma next_inv3 p b s t s' : inv3 b s -> d_read_trace p s = Ok (t, s') -> ~ last_trace s -> inv3 b s'.
Proof.
  intros I E Nl. unfold d_read_trace in E.
  destruct (fread TRACE_HEADER_SIZE (d_file s)) as [[buf f1]|e|] eqn:E1; cbn [bind] in E; try discriminate.
  destruct (fread_pos _ _ _ _ E1 ltac:(discriminate) (i3_pos _ _ I)) as [A1 B1].
  destruct (rd_trace_header p buf) as [[h0 c0]|e|]; cbn [bind] in E; try discriminate.
  destruct (read_trace_header_ext p s h0 f1) as [[h f2]|e|] eqn:E2; cbn [bind] in E; try discriminate.
  unfold read_trace_header_ext in E2. destruct (hidx h0 "TR_HDR_EXT") as [v h1].
  destruct (get_int v) as [n|e|]; cbn [bind] in E2; try discriminate. destruct (exts_pos _ _ _ _ _ _ _ _ _ E2 B1) as [A2 B2].
  destruct (read_trace_samples p s h f2) as [[smp f3]|e|] eqn:E3; cbn [bind] in E; try discriminate.
  unfold read_trace_samples in E3.
  destruct (curr_ch_set s h) as [c|e|]; cbn [bind] in E3; try discriminate.
  destruct (samp_num_of h c) as [m|e|]; cbn [bind] in E3; try discriminate.
  destruct (d_sample_reader p _) as [[bits rs]|e|]; cbn [bind] in E3; try discriminate.
  destruct (resize_to p _) as [?|e|]; cbn [bind] in E3; try discriminate.
  destruct (fread _ f2) as [[sb f4]|e|] eqn:E4; cbn [bind] in E3; try discriminate.
  destruct (resize_to p _) as [?|e|]; cbn [bind] in E3; try discriminate.
  destruct (prep _ _ _) as [[? ?]|e|]; cbn [bind] in E3; try discriminate. injection E3 as <- <-.
  assert (0 <= wrapu 32 (m * bits) / 8) by (apply Z.div_pos; [unfold wrapu; apply Z.mod_pos_bound; reflexivity|lia]).
  destruct (fread_pos _ _ _ _ E4 ltac:(assumption) B2) as [A3 B3].
  unfold last_trace in Nl. change ((d_read s + 1) mod 2 ^ 64) with (wrapu 64 (d_read s + 1)) in Nl.
  destruct (Z.eqb_spec (d_chans s) (wrapu 64 (d_read s + 1))) as [L|L]; [contradiction|]. injection E as <- <-.
  destruct I. constructor; cbn [d_set d_file d_layouts d_g2 d_sets d_g1 d_eod]; auto. congruence.
Qed.

Lemma reader3_inv p b s : p_left_first p = true -> bytes b -> len b < 2 ^ 63 -> reader3 p b s -> inv3 b s.
Proof.
  intros Hp Hb Hl R. induction R as [s Hr E|s t s' R IH E Nl]; [apply (open_inv3 p); assumption|apply (next_inv3 p b s t); assumption].
Qed.

Lemma inv_hdr3 p b s : p_left_first p = true -> bytes b -> len b < 2 ^ 63 -> inv3 b s -> hdr_read3 p s.
Proof. intros Hp Hb Hl I. apply trace_hdr3; [exact Hp|exact (good3 b s Hb Hl I)|apply I|apply I]. Qed.

Lemma count_range b s c n : bytes b -> inv3 b s -> in_table s c -> smp3_num s c n -> 0 <= n < 2 ^ 32.
Proof.
  intros Hb I (cs & [_ Hcs] & [_ Hc]) Hn. unfold smp3_num in Hn. destruct (_ =? _).
  - pose proof (i3_counts _ _ I) as F. rewrite Forall_forall in F. apply nth_error_In in Hcs. apply nth_error_In in Hc.
    specialize (F cs Hcs). rewrite Forall_forall in F. destruct (F c Hc) as (m & Em & Hm). congruence.
  - subst n. change (2 ^ 32) with (256 ^ Z.of_nat 4). apply big_lt. unfold te_at. rewrite (i3_data _ _ I). apply bytes_slice, Hb.
Qed.

Lemma finish_trace p s h smp f3 t s' : finish p s h smp f3 = Ok (t, s') -> t = mkTrace h smp.
Proof.
  unfold finish. intros E. destruct (_ =? _); [|injection E as <- <-; reflexivity].
  match type of E with bind ?x _ = _ => destruct x end; cbn [bind] in E; try discriminate. injection E as <- <-. reflexivity.
Qed.

Lemma smp3_pos b s : bytes b -> inv3 b s -> 0 <= smp_at s.
Proof.
  intros Hb I. unfold smp_at, th_at. pose proof (i3_pos _ _ I). rewrite (i3_data _ _ I).
  assert (0 <= byt (slice (fpos (d_file s)) 20 b) 9) by (apply byt_range, bytes_slice, Hb). lia.
Qed.

Lemma trace_decoded3 p b s c n t s' : p_left_first p = true -> bytes b -> len b < 2 ^ 63 -> reader3 p b s ->
  let fmt := g1_format_code (d_g1 s) in
  In fmt good_formats -> in_table s c -> smp3_num s c n -> n * (8 * Z.of_nat (sample_bytes fmt)) < 2 ^ 32 ->
  d_read_trace p s = Ok (t, s') ->
  th_of (th_at s) (t_hdr t) /\
  (byt (th_at s) 9 <> 0 -> te3_of (te_at s) (t_hdr t) /\ hget (t_hdr t) "TRACE_NUMBER" = Some (VInt 0)) /\
  (byt (th_at s) 9 = 0 -> forall k, In k ext3_keys -> hget (t_hdr t) k = None) /\
  len (t_smp t) = n /\
  (exists ys, t_smp t = map (fun y => d_mul y (d_exp2 p (c_descale c))) ys /\
     Forall2 (sample_value fmt) (words (skipn (Z.to_nat (smp_at s)) b) (sample_bytes fmt) (Z.to_nat n)) ys) /\
  (forall m, holds (c_descale c) (IZR m) -> -31 <= m <= 31 ->
   Forall2 (sample_of fmt m) (words (skipn (Z.to_nat (smp_at s)) b) (sample_bytes fmt) (Z.to_nat n)) (t_smp t)) /\
  (~ last_trace s -> fdata (d_file s') = b /\ fpos (d_file s') = trace3_end s n /\ d_read s' = (d_read s + 1) mod 2 ^ 64) /\
  trace3_end s n <= len b.
Proof.
  intros Hp Hb Hl R fmt Hf T Hn Hfit E. pose proof (reader3_inv p b s Hp Hb Hl R) as I.
  pose proof (good3 b s Hb Hl I) as G. pose proof (count_range b s c n Hb I T Hn) as Rn.
  destruct (trace_dec3 p s c n Hp G (inv_hdr3 p b s Hp Hb Hl I) Hf T Hn ltac:(lia) Hfit) as
    [[[e X] _]|(h & ys & f3 & X & D3 & P3 & L3 & (H1 & H2 & H3) & H4)]; [congruence|].
  rewrite X in E. rewrite (i3_data _ _ I) in *.
  pose proof (finish_trace _ _ _ _ _ _ _ E) as Et. subst t. cbn [t_hdr t_smp]. fold fmt in H4.
  split; [exact H1|]. split; [exact H2|]. split; [exact H3|].
  pose proof (smp3_pos b s Hb I) as S0.
  pose proof (words_slice b (smp_at s) (sample_bytes fmt) (Z.to_nat n)) as W.
  rewrite Z2Nat.id in W by lia. rewrite W in H4 by lia. clear W.
  split; [|split; [|split; [|split; [|exact L3]]]].
  - apply F2_length in H4. unfold len. rewrite map_length, <- H4. unfold words. rewrite map_length, seq_length. lia.
  - exists ys. split; [reflexivity|exact H4].
  - intros m Hds Hm.
    assert (Bw : Forall bytes (words (skipn (Z.to_nat (smp_at s)) b) (sample_bytes fmt) (Z.to_nat n))).
    { apply Forall_forall. intros w Hw. apply in_map_iff in Hw. destruct Hw as (i & <- & _).
      apply bytes_firstn, bytes_skipn, bytes_skipn, Hb. }
    revert H4 Bw. clear - Hf Hds Hm. generalize (words (skipn (Z.to_nat (smp_at s)) b) (sample_bytes fmt) (Z.to_nat n)).
    intros ws F. induction F as [|w y ws ys Hw F IH]; intros Bw; cbn [map]; constructor; inversion Bw; subst.
    + apply sample_shown; assumption.
    + apply IH. assumption.
  - intros Nl. unfold finish in E. unfold last_trace in Nl. change ((d_read s + 1) mod 2 ^ 64) with (wrapu 64 (d_read s + 1)) in *.
    destruct (Z.eqb_spec (d_chans s) (wrapu 64 (d_read s + 1))) as [Q|Q]; [contradiction|].
    injection E as <- . cbn. auto.
Qed.

Lemma trace_total3 p b s c n : p_left_first p = true -> bytes b -> len b < 2 ^ 63 -> reader3 p b s ->
  let fmt := g1_format_code (d_g1 s) in
  In fmt safe_formats -> in_table s c -> smp3_num s c n -> n * (8 * Z.of_nat (sample_bytes fmt)) < 2 ^ 32 ->
  ~ last_trace s \/ trace3_end s n = len b ->
  d_read_trace p s <> UB /\
  (trace3_end s n <= len b -> 2 ^ 32 <= p_max_alloc p -> exists t s', d_read_trace p s = Ok (t, s')).
Proof.
  intros Hp Hb Hl R fmt Hf T Hn Hfit Nl. pose proof (reader3_inv p b s Hp Hb Hl R) as I.
  pose proof (good3 b s Hb Hl I) as G. pose proof (count_range b s c n Hb I T Hn) as Rn.
  destruct (trace_safe3 p s c n Hp G (inv_hdr3 p b s Hp Hb Hl I) Hf T Hn ltac:(lia) Hfit) as
    [[[e X] Y]|(h & ys & f3 & X & D3 & P3 & L3 & _)].
  - split; [congruence|]. rewrite (i3_data _ _ I) in Y. intros L A. specialize (Y A). lia.
  - assert (Z0 : exists t s', d_read_trace p s = Ok (t, s')).
    { rewrite X. unfold finish. unfold last_trace in Nl. change ((d_read s + 1) mod 2 ^ 64) with (wrapu 64 (d_read s + 1)) in *.
      destruct (Z.eqb_spec (d_chans s) (wrapu 64 (d_read s + 1))) as [Q|Q]; [|eexists _, _; reflexivity].
      destruct Nl as [Nl|Nl]; [contradiction|]. unfold has_record. cbn [d_set d_file d_eod]. rewrite P3, (i3_eod _ _ I), Nl, Z.eqb_refl.
      eexists _, _. reflexivity. }
    split; [destruct Z0 as (t & s' & ->); discriminate|intros _ _; exact Z0].
Qed.

Lemma trace_wraps3 p b s c n : p_left_first p = true -> bytes b -> len b < 2 ^ 63 -> reader3 p b s ->
  let bits := 8 * Z.of_nat (sample_bytes (g1_format_code (d_g1 s))) in
  In (g1_format_code (d_g1 s)) good_formats -> in_table s c -> smp3_num s c n -> 2 ^ 32 <= n * bits ->
  2 ^ 35 <= p_max_alloc p -> smp_at s + n * bits mod 2 ^ 32 / 8 <= len b -> d_read_trace p s = UB.
Proof.
  intros Hp Hb Hl R bits Hf T Hn Hfit Ha L. pose proof (reader3_inv p b s Hp Hb Hl R) as I.
  pose proof (good3 b s Hb Hl I) as G. pose proof (count_range b s c n Hb I T Hn) as Rn.
  apply (trace_wrap3 p s c n Hp G (inv_hdr3 p b s Hp Hb Hl I) Hf T Hn Rn Hfit Ha). rewrite (i3_data _ _ I). exact L.
Qed.

(** Outside of the channel set table. *)
Lemma outside3 p b s : p_left_first p = true -> bytes b -> len b < 2 ^ 63 -> reader3 p b s ->
  (forall c, ~ in_table s c) -> smp_at s <= len b -> d_read_trace p s = UB.
Proof.
  intros Hp Hb Hl R No L. pose proof (reader3_inv p b s Hp Hb Hl R) as I.
  destruct (inv_hdr3 p b s Hp Hb Hl I) as [[X Y]|(h & f2 & E & D2 & P2 & L2 & H1 & H4 & H5)].
  - rewrite (i3_data _ _ I) in Y. lia.
  - destruct (table_inv s) as [[c T]|Ub]; [destruct (No c T)|]. rewrite E. unfold read_trace_samples. rewrite H4, Ub. reflexivity.
Qed.
