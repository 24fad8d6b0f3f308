(** Reading an arbitrary SEG-D trace of revision below 3. *)
From Coq Require Import Reals.
From Verif Require Import BaseFacts Bcd BcdSpec BcdFacts BcdFacts2 Platform CodecSpec CodecFacts Fp FpSpec FpReal SampleReal
  TraceHdr HdrFacts SegyTypes SegyCodec ISegy SegdTypes SegdSpec SegdDecSpec SegdTrcSpec SegdReadSpec ISegd OpenFacts ReadFacts2
  NibFacts FixFacts SegdHdrFacts SegdTrcFacts SegdFileFacts SegdDecFacts SegdOpenFacts SegdOpenProps SegdRecFacts.
Local Open Scope Z_scope.

Lemma reads_freadn f n : 0 <= n -> good_file f ->
  reads (fread n f) f n (fun b => b = slice (fpos f) n (fdata f) /\ bytes b /\ len b = n).
Proof.
  intros Hn (Gb & Gp & Gl). split; [apply fread_not_ub|]. split.
  - intros b f' E. pose proof (fread_bytes _ _ _ _ Gb E) as Bb.
    destruct (fread_ok n f b f' Hn E Gp) as (L & S & D & P). auto.
  - intros H. unfold fread. destruct (Z.leb_spec (fpos f + n) (len (fdata f))) as [L|L]; [|lia].
    destruct (n =? 0); eexists; reflexivity.
Qed.

(** ** The first extension block *)

Lemma fix5u b k : bytes b -> (k + 5 <= List.length b)%nat -> fixv (fix16 (big b k 3) (big b (k + 3) 2)) (big b k 5) 16.
Proof.
  intros Hb Hl. pose proof (big_range b k 3 Hb ltac:(lia)) as R1. pose proof (big_range b (k + 3) 2 Hb ltac:(lia)) as R2.
  change (256 ^ Z.of_nat 3) with (2 ^ 24) in R1. change (256 ^ Z.of_nat 2) with (2 ^ 16) in R2.
  change (big b k 5) with (big b k (3 + 2)). rewrite (big_app b k 3 2) by lia. change (256 ^ Z.of_nat 2) with (2 ^ 16) in *.
  apply fixv_fixp. 
  apply fix16_fixp; lia.
Qed.

Lemma big5_zero b k : bytes b -> (k + 5 <= List.length b)%nat ->
  (big b k 3 =? 0) && (big b (k + 3) 2 =? 0) = (big b k 5 =? 0).
Proof.
  intros Hb Hl. pose proof (big_range b k 3 Hb ltac:(lia)) as R1. pose proof (big_range b (k + 3) 2 Hb ltac:(lia)) as R2.
  change (big b k 5) with (big b k (3 + 2)). rewrite (big_app b k 3 2) by lia. change (256 ^ Z.of_nat 2) with (2 ^ 16) in *.
  apply eq_true_iff_eq. rewrite andb_true_iff, !Z.eqb_eq. lia.
Qed.

Lemma te_dec p major h b : p_left_first p = true -> bytes b -> List.length b = 32%nat -> major < 3 ->
  exists h' c, rd_ext_std p major h b = Ok (Ok h', c) /\ te_of b major h' /\
    (forall k, ~ In k ext_keys -> hget h' k = hget h k).
Proof.
  intros Hp Hb L M. 
  unfold rd_ext_std. destruct (Z.ltb_spec major 3) as [_|?]; [|lia]. destruct (Z.ltb_spec 2 major) as [?|_]; [lia|].
  unfold te_of, receiver_num. destruct (Z.ltb_spec 1 major) as [M1|M1]; cbn [andb].
  - pose proof (big5_zero b 10 Hb ltac:(lia)) as Zl. pose proof (big5_zero b 15 Hb ltac:(lia)) as Zp.
    pose proof (fix5u b 10 Hb ltac:(lia)) as Fl. pose proof (fix5u b 15 Hb ltac:(lia)) as Fp.
    change (10 + 3)%nat with 13%nat in *. change (15 + 3)%nat with 18%nat in *.
    eexists. eexists. split.
    { change b with (skipn 0 b) at 1. do 3 dstep.
      erewrite pbind_ok; [|dstep; reflexivity]. erewrite pbind_ok; [|do 5 dstep; reflexivity]. reflexivity. }
    rewrite !hget_hset, !hget_nonzero, !hget_hset, Zl, Zp. cbn [String.eqb Ascii.eqb Bool.eqb].
    split.
    { split; [destruct (big b 10 5 =? 0); cbn [negb]; destruct (big b 15 5 =? 0); first [reflexivity|eexists; split; [reflexivity|exact Fl]]|].
      split; [destruct (big b 15 5 =? 0); cbn [negb]; destruct (big b 10 5 =? 0); first [reflexivity|eexists; split; [reflexivity|exact Fp]]|].
      split; [destruct (big b 15 5 =? 0); destruct (big b 10 5 =? 0); reflexivity|].
      split; [destruct (big b 15 5 =? 0); destruct (big b 10 5 =? 0); reflexivity|]. reflexivity. }
    intros k Hk. cbn [In ext_keys] in Hk.
    rewrite !hget_hset, !hget_nonzero, !hget_hset, Zl, Zp.
    repeat match goal with |- context [String.eqb k ?x] => destruct (String.eqb_spec k x); [subst k; tauto|] end.
    destruct (big b 15 5 =? 0); destruct (big b 10 5 =? 0); reflexivity.
  - eexists. eexists. split.
    { change b with (skipn 0 b) at 1. do 3 dstep.
      erewrite pbind_ok; [|dstep; reflexivity]. reflexivity. }
    rewrite !hget_hset. cbn [String.eqb Ascii.eqb Bool.eqb].
    split; [split; [reflexivity|split; [reflexivity|split; [reflexivity|split; [reflexivity|lia]]]]|].
    intros k Hk. cbn [In ext_keys] in Hk. rewrite !hget_hset.
    repeat match goal with |- context [String.eqb k ?x] => destruct (String.eqb_spec k x); [subst k; tauto|] end.
    reflexivity.
Qed.

Lemma exts_more p major n : forall f h i, good_file f ->
  reads (rd_exts p major [] n (S i) f h) f (32 * Z.of_nat n) (fun h' => h' = h).
Proof.
  induction n as [|n IH]; intros f h i G; cbn [rd_exts].
  - apply reads_ret. reflexivity.
  - eapply reads_weak; [|reflexivity|intros a H; exact H].
    replace (32 * Z.of_nat (S n)) with (32 + 32 * Z.of_nat n) by lia.
    eapply reads_bind; [exact G|lia|lia|apply reads_fread, G|].
    intros b f1 G1 D1 P1 _. cbn [bind]. apply IH, G1.
Qed.

Definition te_rel (b : list Z) (major n : Z) (h h' : hdr) : Prop :=
  (n = 0 -> h' = h) /\ (0 < n -> te_of b major h') /\ (forall k, ~ In k ext_keys -> hget h' k = hget h k).

Lemma exts_reads p major n f h : p_left_first p = true -> major < 3 -> good_file f ->
  reads (rd_exts p major [] n 0 f h) f (32 * Z.of_nat n)
    (te_rel (slice (fpos f) 32 (fdata f)) major (Z.of_nat n) h).
Proof.
  intros Hp M G. destruct n as [|n]; cbn [rd_exts].
  - apply reads_ret. split; [reflexivity|]. split; [lia|reflexivity].
  - replace (32 * Z.of_nat (S n)) with (32 + 32 * Z.of_nat n) by lia.
    eapply reads_bind; [exact G|lia|lia|apply reads_fread, G|].
    intros b f1 G1 D1 P1 (B & Bb & L & Q). destruct (te_dec p major h b Hp Bb L M) as (h' & c & E & Ht & Hk).
    eapply reads_ok; [rewrite E; reflexivity|].
    eapply reads_weak; [apply exts_more, G1|reflexivity|].
    intros h2 ->. rewrite <- B. split; [lia|]. split; [intros _; exact Ht|exact Hk].
Qed.

(** ** Samples *)

Lemma F2_length {A B} (R : A -> B -> Prop) l m : Forall2 R l m -> List.length l = List.length m.
Proof. induction 1; cbn; congruence. Qed.

Lemma prep_words (r : P Z) (V : list Z -> Z -> Prop) k :
  (forall w rst, bytes w -> List.length w = k -> exists y, r (w ++ rst) = Ok (y, rst) /\ V w y) ->
  forall n b, bytes b -> (k * n <= List.length b)%nat ->
  exists ys, prep r n b = Ok (ys, skipn (k * n) b) /\ Forall2 V (words b k n) ys.
Proof.
  intros H. induction n as [|n IH]; intros b Hb Hl.
  - exists []. cbn [prep]. rewrite Nat.mul_0_r. split; [reflexivity|constructor].
  - cbn [prep]. destruct (H (firstn k b) (skipn k b)) as (y & E & Hy);
      [apply bytes_firstn, Hb|rewrite firstn_length; lia|]. rewrite firstn_skipn in E.
    destruct (IH (skipn k b)) as (ys & E2 & Hys); [apply bytes_skipn, Hb|rewrite skipn_length; lia|].
    exists (y :: ys). rewrite (pbind_ok _ _ _ _ _ E), (pbind_ok _ _ _ _ _ E2). split.
    + rewrite skipn_skipn'. unfold pret. do 3 f_equal. lia.
    + unfold words. cbn [seq map]. constructor; [rewrite Nat.mul_0_r; exact Hy|].
      rewrite <- seq_shift, map_map. unfold words in Hys. erewrite map_ext; [exact Hys|].
      intros i. cbv beta. rewrite skipn_skipn'. do 2 f_equal. lia.
Qed.

Lemma sample_dec p fmt : p_left_first p = true -> In fmt good_formats ->
  exists r, d_sample_reader p fmt = Ok (8 * Z.of_nat (sample_bytes fmt), r) /\ (3 <= sample_bytes fmt <= 8)%nat /\
  forall w rst, bytes w -> List.length w = sample_bytes fmt ->
    exists y, r (w ++ rst) = Ok (y, rst) /\ sample_value fmt w y.
Proof.
  intros Hp Hin. unfold good_formats in Hin. cbn [In] in Hin.
  assert (Be : forall w rst, bytes w -> rd_u Swapped (List.length w) (w ++ rst) = Ok (big w 0 (List.length w), rst) /\
            0 <= big w 0 (List.length w) < 256 ^ Z.of_nat (List.length w)).
  { intros w rst Hw. split; [|apply big_range; auto].
    rewrite <- (be_big w Hw) at 2. rewrite <- wr_swapped, rd_u_wr.
    pose proof (big_range w 0 (List.length w) Hw (le_n _)) as R. unfold big in *. cbn [skipn] in *.
    rewrite firstn_all in *. rewrite wrapu_small; [reflexivity|].
    rewrite <- pow256_2. exact R. }
  assert (Le : forall w rst, bytes w -> rd_u Native (List.length w) (w ++ rst) = Ok (big (rev w) 0 (List.length w), rst) /\
            0 <= big (rev w) 0 (List.length w) < 256 ^ Z.of_nat (List.length w)).
  { intros w rst Hw. assert (Hr : bytes (rev w)) by (apply Forall_rev, Hw). split.
    - unfold rd_u. rewrite (pbind_ok _ _ _ _ _ (pread_app _ w rst eq_refl)). unfold pret, big. cbn [skipn].
      rewrite firstn_all2 by (rewrite rev_length; lia). rewrite <- le_dec_rev, rev_involutive. reflexivity.
    - apply big_range; [exact Hr|rewrite rev_length; lia]. }
  assert (Ih : forall n u, (0 < n <= 4)%nat -> 0 <= u < 256 ^ Z.of_nat n ->
            holds (i2d (wraps (8 * Z.of_nat n) u)) (IZR (as_signed n u))).
  { intros n u Hn Hu. rewrite as_signed_wraps by lia. apply i2d_holds.
    pose proof (wraps_range (8 * Z.of_nat n) u ltac:(lia)) as W. unfold in_i in W.
    assert (2 ^ (8 * Z.of_nat n - 1) <= 2 ^ 32) by (apply Z.pow_le_mono_r; lia). lia. }
  assert (A24 : forall w rst, bytes w -> List.length w = 3%nat ->
            rd_i24 p Swapped (w ++ rst) = Ok (wraps 24 (big w 0 3), rst)).
  { intros w rst Hw Lw. rewrite <- (be_big w Hw) at 1. rewrite Lw, <- wr24_swapped, rd_i24_wr24 by exact Hp.
    unfold big. cbn [skipn]. rewrite firstn_all2 by lia. reflexivity. }
  destruct Hin as [<-|[<-|[<-|[<-|[<-|[<-|[<-|[]]]]]]]]; cbn [sample_bytes];
    (eexists; split; [reflexivity|]; split; [lia|]; intros w rst Hw Lw;
     destruct (Be w rst Hw) as [Eb Rb]; destruct (Le w rst Hw) as [El Rl]; rewrite Lw in Eb, Rb, El, Rl;
     eexists; split).
  - erewrite pmap_ok by (apply A24; assumption). reflexivity.
  - apply (Ih 3%nat); [lia|exact Rb].
  - unfold rd_i. erewrite pmap_ok by (erewrite pmap_ok by exact Eb; reflexivity). reflexivity.
  - apply (Ih 4%nat); [lia|exact Rb].
  - unfold rd_f32. erewrite pmap_ok by exact Eb. reflexivity.
  - intros F. apply f2d_finite; [exact Rb|exact F].
  - exact Eb.
  - reflexivity.
  - unfold rd_i. erewrite pmap_ok by (erewrite pmap_ok by exact El; reflexivity). reflexivity.
  - apply (Ih 4%nat); [lia|exact Rl].
  - unfold rd_f32. erewrite pmap_ok by exact El. reflexivity.
  - intros F. apply f2d_finite; [exact Rl|exact F].
  - exact El.
  - reflexivity.
Qed.

(** ** Traces *)

Lemma nth_1_ok {A} (l : list A) i a : nth1 l i a -> nth_1 l i = Ok a.
Proof.
  intros [H E]. unfold nth_1. rewrite E.
  assert (Q : (Z.to_nat (i - 1) < List.length l)%nat) by (apply nth_error_Some; congruence).
  destruct (Z.leb_spec 1 i); [|lia]. destruct (Z.leb_spec i (len l)); [reflexivity|unfold len in *; lia].
Qed.

Definition finish (p : platform) (s : isegd) (h : hdr) (smp : list Z) (f3 : file) : outcome (trace * isegd) :=
  let rd := wrapu 64 (d_read s + 1) in
  if d_chans s =? rd then
    let s1 := d_set s f3 [] 0 0 in
    let* s2 := (if has_record s1 then read_headers_before_traces p s1 else Ok s1) in
    Ok (mkTrace h smp, s2)
  else Ok (mkTrace h smp, d_set s f3 (d_sets s) (d_chans s) rd).

Lemma th_dec' p b : p_left_first p = true -> bytes b -> List.length b = 20%nat ->
  exists h c, rd_trace_header p b = Ok (h, c) /\ th_of b h /\ forall k, In k ext_keys -> hget h k = None.
Proof.
  intros Hp Hb L. destruct (th_dec p b Hp Hb L) as (h & c & E & H). exists h, c. split; [exact E|]. split; [exact H|].
  assert (X : exists h' c', rd_trace_header p b = Ok (h', c') /\ forall k, In k ext_keys -> hget h' k = None).
  { change b with (skipn 0 b) at 1. eexists _, _. split.
    - unfold rd_trace_header. repeat dstep. reflexivity.
    - intros k Hk. cbn [In ext_keys] in Hk. destruct (big b 15 2 =? 0), (big b 17 3 =? 0); repeat rewrite hget_hset;
      repeat (destruct Hk as [Hk|Hk]; [subst k; reflexivity|]); destruct Hk. }
  destruct X as (h' & c' & E' & H'). rewrite E in E'. injection E' as <- _. exact H'.
Qed.

Lemma big_pos b i n : bytes b -> 0 <= big b i n.
Proof.
  intros Hb. unfold big.
  assert (Q : forall l a, bytes l -> 0 <= a -> 0 <= fold_left (fun a x => 256 * a + x) l a).
  { induction l as [|x l IH]; intros a Hb' Ha; [exact Ha|]. inversion Hb'; subst. cbn [fold_left]. apply IH; [assumption|].
    unfold is_byte in *. lia. }
  apply Q; [|lia]. apply bytes_firstn, bytes_skipn, Hb.
Qed.
Lemma big_3 b i : bytes b -> 0 <= big b i 3 < 2 ^ 24.
Proof.
  intros Hb. split; [apply big_pos, Hb|]. unfold big. pose proof (bytes_firstn 3 _ (bytes_skipn i b Hb)) as B.
  pose proof (firstn_le_length 3 (skipn i b)) as L. revert B L. generalize (firstn 3 (skipn i b)). intros l B L.
  destruct l as [|x [|y [|z [|w l]]]]; cbn [fold_left List.length] in *; try lia;
  repeat match goal with H : bytes (_ :: _) |- _ => inversion H; subst; clear H | H : Forall _ (_ :: _) |- _ => inversion H; subst; clear H end;
  unfold is_byte in *; lia.
Qed.

Lemma pmap_prep (r : P Z) (g : Z -> Z) n b ys c : prep r n b = Ok (ys, c) -> prep (pmap g r) n b = Ok (map g ys, c).
Proof.
  revert b ys c; induction n as [|n IH]; intros b ys c H; cbn [prep] in *.
  - unfold pret in *. injection H as <- <-. reflexivity.
  - unfold pbind in H. destruct (r b) as [[y b1]|e|] eqn:E; try discriminate.
    destruct (prep r n b1) as [[ys' b2]|e|] eqn:E2; try discriminate. unfold pret in H. injection H as <- <-.
    rewrite (pbind_ok (pmap g r) _ b (g y) b1) by (unfold pmap, pbind; rewrite E; reflexivity).
    rewrite (pbind_ok _ _ _ _ _ (IH _ _ _ E2)). reflexivity.
Qed.

Lemma words_slice d o k n : (0 <= o) -> (k * n <= Z.to_nat (Z.of_nat k * Z.of_nat n))%nat ->
  words (slice o (Z.of_nat k * Z.of_nat n) d) k n = words (skipn (Z.to_nat o) d) k n.
Proof.
  intros Ho Hk. unfold words, slice. apply map_ext_in. intros i Hi. apply in_seq in Hi.
  rewrite skipn_firstn_comm, firstn_firstn. f_equal. nia.
Qed.

Lemma fread_in n f d f' : fread n f = Ok (d, f') -> fpos f <= len (fdata f) -> fpos f' <= len (fdata f').
Proof.
  unfold fread. intros H Hf. destruct (_ =? 0); [injection H as <- <-; exact Hf|].
  destruct (Z.leb_spec (fpos f + n) (len (fdata f))); [|discriminate]. injection H as <- <-. exact H0.
Qed.
Lemma exts_in p mj ls n : forall i f h r f', rd_exts p mj ls n i f h = Ok (r, f') -> fpos f <= len (fdata f) -> fpos f' <= len (fdata f').
Proof.
  induction n as [|n IH]; cbn [rd_exts]; intros i f h r f' H Hf; [injection H as <- <-; exact Hf|].
  destruct (fread TRACE_HEADER_EXT_SIZE f) as [[b f1]|e|] eqn:E; cbn [bind] in H; try discriminate.
  match type of H with bind ?x _ = _ => destruct x as [h1|e|] end; cbn [bind] in H; try discriminate.
  apply (IH _ _ _ _ _ H). exact (fread_in _ _ _ _ E Hf).
Qed.

(** The header, with the property [H], and its extensions have been read. *)
Definition hdr_read (p : platform) (s : isegd) (H : hdr -> Prop) : Prop :=
  ((exists e, d_read_trace p s = Throw e) /\ len (fdata (d_file s)) < smp_at s) \/
  exists h f2, d_read_trace p s = (let* (smp, f3) := read_trace_samples p s h f2 in finish p s h smp f3) /\
    fdata f2 = fdata (d_file s) /\ fpos f2 = smp_at s /\ smp_at s <= len (fdata (d_file s)) /\ H h /\
    curr_ch_set s h = (let* sets := nth_1 (d_sets s) (dec (th_at s) 4 2) in nth_1 sets (set_num (th_at s))) /\
    (forall c, c_number_of_samples c = Some 0 -> samp_num_of h c = Ok (smp_num s)) /\ 0 <= smp_num s < 2 ^ 24.

Definition std_hdr (s : isegd) (h : hdr) : Prop :=
  th_of (th_at s) h /\ (byt (th_at s) 9 <> 0 -> te_of (te_at s) (g2_major (d_g2 s)) h) /\
  (byt (th_at s) 9 = 0 -> forall k, In k ext_keys -> hget h k = None).

Lemma trace_hdr p s : p_left_first p = true -> good_file (d_file s) -> d_layouts s = [] -> g2_major (d_g2 s) < 3 ->
  hdr_read p s (std_hdr s).
Proof.
  intros Hp G Hl M. unfold hdr_read, std_hdr.
  unfold d_read_trace. set (D := fdata (d_file s)). set (q := fpos (d_file s)).
  assert (G' := G). destruct G' as (Gb & Gp & Gl). fold D in Gb, Gl. fold q in Gp.
  (* trace header *)
  destruct (reads_freadn (d_file s) 20 ltac:(lia) G) as (U1 & S1 & C1). fold D q in S1, C1.
  change TRACE_HEADER_SIZE with 20.
  assert (Te : q + 20 <= smp_at s).
  { unfold smp_at. fold q.
    assert (0 <= byt (th_at s) 9) by (apply byt_range; unfold th_at; apply bytes_slice, Gb). lia. }
  destruct (fread 20 (d_file s)) as [[buf f1]|e|] eqn:Ef1;
    [|left; split; [eexists; reflexivity|destruct (Z.ltb_spec (len D) (smp_at s)) as [?|?]; [assumption|];
      destruct C1 as [? C1]; [lia|discriminate]]|congruence].
  destruct (S1 _ _ eq_refl) as (D1 & P1 & B1 & Bb1 & L1). clear U1 S1 C1. cbn [bind].
  assert (L1' : List.length buf = 20%nat) by (unfold len in L1; lia).
  assert (Eb : th_at s = buf) by (unfold th_at; fold D q; congruence).
  rewrite Eb in *.
  destruct (th_dec' p buf Hp Bb1 L1') as (h0 & c0 & E0 & H0 & X0). rewrite E0. cbn [bind].
  (* extensions *)
  unfold read_trace_header_ext, hidx.
  assert (K5 : hget h0 "TR_HDR_EXT" = Some (VInt (byt buf 9))) by (apply H0).
  rewrite K5. cbn [get_int bind]. set (n := byt buf 9) in *.
  assert (Hn : 0 <= n < 256) by (apply byt_range, Bb1).
  replace (wraps 32 n) with n by (symmetry; apply wraps_id; [lia|unfold in_i; lia]).
  assert (G1 : good_file f1).
  { unfold good_file. rewrite D1, P1. fold D. split; [exact Gb|]. split; [lia|exact Gl]. }
  rewrite Hl. destruct (exts_reads p (g2_major (d_g2 s)) (Z.to_nat n) f1 h0 Hp M G1) as (U2 & S2 & C2).
  rewrite Z2Nat.id in S2, C2 by lia.
  assert (Te2 : smp_at s = q + 20 + 32 * n) by (unfold smp_at; rewrite Eb; reflexivity).
  destruct (rd_exts p (g2_major (d_g2 s)) [] (Z.to_nat n) 0 f1 h0) as [[h f2]|e|] eqn:Ex;
    [|left; split; [eexists; reflexivity|destruct (Z.ltb_spec (len D) (smp_at s)) as [?|?]; [assumption|];
      destruct C2 as [? C2]; [rewrite D1, P1; fold D q; lia|discriminate]]|congruence].
  destruct (S2 _ _ eq_refl) as (D2 & P2 & R1 & R2 & R3). clear U2 S2 C2. cbn [bind].
  rewrite D1, P1 in R2. fold D q in R2.
  assert (H1 : th_of buf h).
  { unfold th_of in *. rewrite !R3 by (cbn; intuition discriminate). exact H0. }
  destruct H1 as (T1 & T2 & T3 & T4). pose proof (conj T1 (conj T2 (conj T3 T4))) as H1.
  right. exists h, f2. split; [reflexivity|]. split; [congruence|]. split; [lia|]. split.
  { assert (If1 : fpos f1 <= len (fdata f1)).
    { clear - Ef1. unfold fread in Ef1. change (20 =? 0) with false in Ef1. cbv iota in Ef1.
      destruct (Z.leb_spec (fpos (d_file s) + 20) (len (fdata (d_file s)))); [|discriminate]. injection Ef1 as <- <-. exact H. }
    pose proof (exts_in _ _ _ _ _ _ _ _ _ Ex If1) as Qi. rewrite D2, D1 in Qi. fold D in Qi. lia. }
  split.
  { split; [exact H1|]. split; [intros Hn0; unfold te_at; fold D q; apply R2; fold n in Hn0; lia|].
    intros Z0 key Hk; rewrite (R1 Z0); exact (X0 key Hk). }
  split; [unfold curr_ch_set, hidx; rewrite T2, T3; reflexivity|].
  unfold samp_num_of, smp_num. rewrite Eb. fold n. destruct (Z.eqb_spec n 0) as [Z0|Nz].
  - split; [|lia]. intros c Zc. rewrite (R1 Z0), (X0 "SAMP_NUM"%string) by (cbn; tauto). rewrite Zc. reflexivity.
  - specialize (R2 ltac:(lia)). destruct R2 as (_ & _ & _ & R2 & _). rewrite R2. cbn [get_int bind].
    unfold te_at. fold D q.
    assert (0 <= big (slice (q + 20) 32 D) 7 3 < 2 ^ 24) by (apply big_3, bytes_slice, Gb).
    rewrite wrapu_small by lia. split; [reflexivity|lia].
Qed.

Lemma counts_in s c : no_counts s -> in_table s c -> c_number_of_samples c = Some 0.
Proof.
  intros Nc (cs & [_ Hcs] & [_ Hc]). unfold no_counts in Nc. rewrite Forall_forall in Nc.
  apply nth_error_In in Hcs. apply nth_error_In in Hc. specialize (Nc cs Hcs). rewrite Forall_forall in Nc. exact (Nc c Hc).
Qed.
Lemma table_ok s c : in_table s c -> (let* sets := nth_1 (d_sets s) (dec (th_at s) 4 2) in nth_1 sets (set_num (th_at s))) = Ok c.
Proof. intros (cs & Hcs & Hc). rewrite (nth_1_ok _ _ _ Hcs). exact (nth_1_ok _ _ _ Hc). Qed.
Lemma nth_1_inv {A} (l : list A) i : (exists a, nth1 l i a) \/ nth_1 l i = UB.
Proof.
  unfold nth_1. destruct (Z.leb_spec 1 i), (Z.leb_spec i (len l)); cbn [andb]; try (right; reflexivity).
  destruct (nth_error l (Z.to_nat (i - 1))) as [a|] eqn:E; [left; exists a; split; assumption|right; reflexivity].
Qed.
Lemma table_inv s : (exists c, in_table s c) \/
  (let* sets := nth_1 (d_sets s) (dec (th_at s) 4 2) in nth_1 sets (set_num (th_at s))) = UB.
Proof.
  destruct (nth_1_inv (d_sets s) (dec (th_at s) 4 2)) as [[cs Hcs]|E]; [|right; rewrite E; reflexivity].
  destruct (nth_1_inv cs (set_num (th_at s))) as [[c Hc]|E]; [left; exists c, cs; split; assumption|].
  right. rewrite (nth_1_ok _ _ _ Hcs). exact E.
Qed.

Definition trace_done (p : platform) (s : isegd) (H : hdr -> Prop) (c : chset) (k : nat) (Q : list Z -> nat -> list Z -> Prop) : Prop :=
  ((exists e, d_read_trace p s = Throw e) /\ (2 ^ 27 <= p_max_alloc p -> len (fdata (d_file s)) < trace_end s)) \/
  exists h ys f3, d_read_trace p s = finish p s h (map (fun y => d_mul y (d_exp2 p (c_descale c))) ys) f3 /\
    fdata f3 = fdata (d_file s) /\ fpos f3 = trace_end s /\ trace_end s <= len (fdata (d_file s)) /\
    H h /\ Q (slice (smp_at s) (Z.of_nat k * smp_num s) (fdata (d_file s))) (Z.to_nat (smp_num s)) ys.

Lemma trace_gen p s H c r (Q : list Z -> nat -> list Z -> Prop) :
  let k := sample_bytes (g1_format_code (d_g1 s)) in
  good_file (d_file s) -> hdr_read p s H -> no_counts s -> in_table s c ->
  d_sample_reader p (g1_format_code (d_g1 s)) = Ok (8 * Z.of_nat k, r) -> (1 <= k <= 8)%nat ->
  (forall b n, bytes b -> List.length b = (k * n)%nat -> exists ys rst, prep r n b = Ok (ys, rst) /\ Q b n ys) ->
  trace_done p s H c k Q.
Proof.
  intros k G Hd Nc T Er Kb Hr.
  pose proof (counts_in s c Nc T) as Zc. pose proof (table_ok s c T) as Tc.
  set (fmt := g1_format_code (d_g1 s)) in *. unfold trace_done.
  assert (Ee : trace_end s = smp_at s + Z.of_nat k * smp_num s) by reflexivity.
  destruct Hd as [[X Y]|(h & f2 & E & D2 & P2 & L2 & H1 & H4 & H5 & H6)].
  { left. split; [exact X|]. intros _. rewrite Ee.
    assert (0 <= smp_num s); [|nia].
    unfold smp_num. destruct (_ =? _); [lia|]. unfold te_at. apply big_pos, bytes_slice. apply G. }
  rewrite E. clear E. unfold read_trace_samples. rewrite H4, Tc. cbn [bind]. rewrite (H5 c Zc). cbn [bind].
  fold fmt. rewrite Er. cbn [bind]. set (D := fdata (d_file s)) in *.
  set (ns := smp_num s) in *.
  assert (G' := G). destruct G' as (Gb & Gp & Gl). fold D in Gb, Gl.
  rewrite wrapu_small by nia.
  replace (ns * (8 * Z.of_nat k) / 8) with (Z.of_nat k * ns) by (rewrite Z.mul_assoc, (Z.mul_comm ns 8), <- Z.mul_assoc, (Z.mul_comm 8), Z.div_mul by lia; lia).
  assert (Rz : forall z, 0 <= z <= 2 ^ 27 -> (exists u, resize_to p z = Ok u) \/ (exists e, resize_to p z = Throw e) /\ ~ 2 ^ 27 <= p_max_alloc p).
  { intros z Hz. unfold resize_to. rewrite wrapu_small by lia. destruct (Z.leb_spec z (p_max_alloc p)); [left|right]; [eexists; reflexivity|].
    split; [eexists; reflexivity|lia]. }
  destruct (Rz (Z.of_nat k * ns) ltac:(nia)) as [[u ->]|[[e ->] Na]]; [|left; split; [eexists; reflexivity|contradiction]]. cbn [bind].
  assert (Sp : 0 <= smp_at s).
  { unfold smp_at. assert (0 <= byt (th_at s) 9) by (apply byt_range; unfold th_at; apply bytes_slice, Gb). lia. }
  assert (G2 : good_file f2).
  { unfold good_file. rewrite D2, P2. split; [exact Gb|]. split; [exact Sp|exact Gl]. }
  destruct (reads_freadn f2 (Z.of_nat k * ns) ltac:(nia) G2) as (U3 & S3 & C3).
  rewrite D2, P2 in S3, C3.
  destruct (fread (Z.of_nat k * ns) f2) as [[sb f3]|e|] eqn:Ef;
    [|left; split; [eexists; reflexivity|intros _; destruct (Z.ltb_spec (len D) (trace_end s)) as [?|?]; [assumption|];
      destruct C3 as [? C3]; [lia|discriminate]]|congruence].
  destruct (S3 _ _ eq_refl) as (D3 & P3 & B3 & Bb3 & L3). clear U3 S3 C3. cbn [bind].
  destruct (Rz (8 * ns) ltac:(nia)) as [[u' ->]|[[e ->] Na]]; [|left; split; [eexists; reflexivity|contradiction]]. cbn [bind].
  destruct (Hr sb (Z.to_nat ns) Bb3) as (ys & rst & Ep & Hys); [unfold len in L3; nia|].
  rewrite (pmap_prep _ _ _ _ _ _ Ep). cbn [bind]. right. exists h, ys, f3.
  split; [reflexivity|]. split; [exact D3|]. split; [lia|]. split.
  { pose proof (fread_in _ _ _ _ Ef ltac:(rewrite D2, P2; exact L2)) as Qi. rewrite D3, P3 in Qi. lia. }
  split; [exact H1|]. rewrite B3 in Hys. exact Hys.
Qed.

(** A channel set outside of the table. *)
Lemma trace_outside p s H : hdr_read p s H -> (forall c, ~ in_table s c) ->
  (smp_at s <= len (fdata (d_file s)) -> d_read_trace p s = UB) /\
  (forall r, d_read_trace p s <> Ok r).
Proof.
  intros Hd No. destruct (table_inv s) as [[c T]|Ub]; [destruct (No c T)|].
  destruct Hd as [[[e X] Y]|(h & f2 & E & D2 & P2 & L2 & H1 & H4 & H5 & H6)].
  - split; [lia|]. intros r Er. congruence.
  - assert (U : d_read_trace p s = UB).
    { rewrite E. unfold read_trace_samples. rewrite H4, Ub. reflexivity. }
    split; [intros _; exact U|]. intros r Er. congruence.
Qed.

(** The formats whose sample reader is undefined. *)
Lemma trace_bad p s H c : good_file (d_file s) -> hdr_read p s H ->
  no_counts s -> In (g1_format_code (d_g1 s)) bad_formats -> in_table s c ->
  (smp_num s = 0 -> trace_done p s H c 0 (fun b n ys => ys = [])) /\
  (smp_num s <> 0 -> (forall r, d_read_trace p s <> Ok r) /\
     (2 ^ 27 <= p_max_alloc p ->
      smp_at s + smp_num s * bad_bits (g1_format_code (d_g1 s)) / 8 <= len (fdata (d_file s)) -> d_read_trace p s = UB)).
Proof.
  intros G Hd Nc Hf T.
  pose proof (counts_in s c Nc T) as Zc. pose proof (table_ok s c T) as Tc.
  assert (Er : d_sample_reader p (g1_format_code (d_g1 s)) = Ok (bad_bits (g1_format_code (d_g1 s)), fun _ => UB) /\
               sample_bytes (g1_format_code (d_g1 s)) = 0%nat /\ 16 <= bad_bits (g1_format_code (d_g1 s)) <= 32).
  { destruct Hf as [<-|[<-|[<-|[<-|[]]]]]; cbn; (split; [reflexivity|split; [reflexivity|lia]]). }
  destruct Er as (Er & Ek & Bb). set (bits := bad_bits _) in *.
  assert (Ns : 0 <= smp_num s < 2 ^ 24).
  { unfold smp_num. destruct (_ =? _); [lia|]. apply big_3, bytes_slice, G. }
  assert (Ee : trace_end s = smp_at s) by (unfold trace_end; rewrite Ek; lia).
  set (ns := smp_num s) in *.
  assert (Sp : 0 <= smp_at s).
  { unfold smp_at. assert (0 <= byt (th_at s) 9) by (apply byt_range; unfold th_at; apply bytes_slice, G).
    assert (0 <= fpos (d_file s)) by (apply G). lia. }
  destruct Hd as [[[e X] Y]|(h & f2 & E & D2 & P2 & L2 & H1 & H4 & H5 & H6)].
  - split.
    + intros _. left. split; [exists e; exact X|]. intros _. lia.
    + intros _. split; [intros r Q; congruence|]. intros _ Q. exfalso.
      assert (0 <= ns * bits / 8) by (apply Z.div_pos; nia). lia.
  - unfold read_trace_samples in E. rewrite H4, Tc in E. cbn [bind] in E. rewrite (H5 c Zc) in E. cbn [bind] in E.
    rewrite Er in E. cbn [bind] in E. fold ns in E. rewrite (wrapu_small 32 (ns * bits)) in E by nia.
    split.
    + intros Z0. rewrite Z0 in E. change (0 * bits / 8) with 0 in E. unfold resize_to in E.
      change (wrapu 64 0) with 0 in E. destruct (Z.leb_spec 0 (p_max_alloc p)) as [A|A].
      * right. exists h, [], f2. cbn [map]. split.
        { rewrite E. cbn [bind]. unfold fread. change (0 =? 0) with true. cbv iota. cbn [bind]. change (8 * 0) with 0. change (wrapu 64 0) with 0.
          destruct (Z.leb_spec 0 (p_max_alloc p)); [|lia]. cbn [bind]. change (Z.to_nat 0) with 0%nat. reflexivity. }
        split; [exact D2|]. split; [lia|]. split; [lia|]. auto.
      * left. split; [eexists; rewrite E; reflexivity|]. intros A2. exfalso. lia.
    + intros Nz. assert (Sz : 0 <= ns * bits / 8 < 2 ^ 27).
      { split; [apply Z.div_pos; nia|apply Z.div_lt_upper_bound; nia]. }
      set (sz := ns * bits / 8) in *.
      assert (Pn : forall (g : Z -> Z) b, prep (pmap g (fun _ : list Z => @UB (Z * list Z))) (Z.to_nat ns) b = @UB (list Z * list Z)).
      { intros g b. destruct (Z.to_nat ns) eqn:En; [lia|]. reflexivity. }
      assert (G2 : good_file f2) by (unfold good_file; rewrite D2, P2; split; [apply G|split; [exact Sp|apply G]]).
      destruct (reads_freadn f2 sz ltac:(lia) G2) as (U3 & S3 & C3). rewrite D2, P2 in C3.
      unfold resize_to in E. rewrite !(wrapu_small 64) in E by lia.
      split.
      * intros r. rewrite E. destruct (sz <=? p_max_alloc p); cbn [bind]; [|discriminate].
        destruct (fread sz f2) as [[sb f3]|e|]; cbn [bind]; try discriminate.
        destruct (8 * ns <=? p_max_alloc p); cbn [bind]; [|discriminate]. rewrite Pn. discriminate.
      * intros A L. destruct (C3 L) as [[sb f3] C]. rewrite E. rewrite (proj2 (Z.leb_le _ _)) by lia. cbn [bind].
        rewrite C. cbn [bind]. rewrite (proj2 (Z.leb_le _ _)) by lia. cbn [bind]. rewrite Pn. reflexivity.
Qed.

(** The formats with one word per sample that are read correctly. *)
Lemma trace_dec p s H c : p_left_first p = true -> good_file (d_file s) -> hdr_read p s H -> In (g1_format_code (d_g1 s)) good_formats -> no_counts s -> in_table s c ->
  let fmt := g1_format_code (d_g1 s) in
  trace_done p s H c (sample_bytes fmt) (fun b n ys => Forall2 (sample_value fmt) (words b (sample_bytes fmt) n) ys).
Proof.
  intros Hp G Hd Hf Nc T fmt. destruct (sample_dec p _ Hp Hf) as (r & Er & Kb & Hr).
  apply (trace_gen p s H c r); auto; [fold fmt in Kb |- *; lia|].
  intros b n Hb L. destruct (prep_words r (sample_value fmt) _ Hr n b Hb) as (ys & E & Hw); [fold fmt in L |- *; lia|].
  eexists _, _. split; [exact E|exact Hw].
Qed.

(** The formats whose reader stays at the first byte. *)
Lemma trace_stuck p s H c : good_file (d_file s) -> hdr_read p s H -> In (g1_format_code (d_g1 s)) [8022; 8042] -> no_counts s -> in_table s c ->
  trace_done p s H c 1 (fun b n ys => List.length ys = n /\ exists y, Forall (eq y) ys).
Proof.
  intros G Hd Hf Nc T.
  assert (X : exists g, d_sample_reader p (g1_format_code (d_g1 s)) = Ok (8, let+ b := rpeek in pret (g b)) /\
              sample_bytes (g1_format_code (d_g1 s)) = 1%nat).
  { destruct Hf as [<-|[<-|[]]].
    - exists (fun b => d_mul (i2d ((if Z.testbit b 7 then -1 else 1) * Z.land b 15)) (d_pow2 (Z.land b 112 - 4))).
      split; reflexivity.
    - exists (fun b => d_mul (d_div (i2d ((if Z.testbit b 7 then -1 else 1) * Z.land b 31)) (d_pow2 5)) (d_pow2 (4 * Z.land b 96))).
      split; reflexivity. }
  destruct X as (g & Er & Ek). rewrite <- Ek. eapply trace_gen; try eassumption; rewrite Ek; [exact Er|lia|].
  intros b n Hb L. assert (X : forall x b' m, prep (let+ b := rpeek in pret (g b)) m (x :: b') = Ok (repeat (g x) m, x :: b')).
  { intros x b' m. induction m as [|m IH]; [reflexivity|]. cbn [prep]. unfold pbind at 1. unfold pbind at 1. cbn [rpeek].
    unfold pret at 1. unfold pbind at 1. rewrite IH. reflexivity. }
  destruct b as [|x b].
  - destruct n; [|cbn in L; lia]. exists [], []. split; [reflexivity|]. split; [reflexivity|]. exists 0. constructor.
  - eexists _, _. split; [apply X|]. split; [apply repeat_length|]. exists (g x). apply Forall_forall. intros y Hy.
    symmetry. exact (repeat_spec _ _ _ Hy).
Qed.

(** All formats except the four whose reader is undefined. *)
Lemma trace_safe p s H c : p_left_first p = true -> good_file (d_file s) -> hdr_read p s H -> In (g1_format_code (d_g1 s)) safe_formats -> no_counts s -> in_table s c ->
  trace_done p s H c (sample_bytes (g1_format_code (d_g1 s))) (fun b n ys => List.length ys = n).
Proof.
  intros Hp G Hd Hf Nc T. destruct Hf as [E|[E|[E|Hf]]].
  - set (r := snd (match d_sample_reader p 9036 with Ok x => x | _ => (0, pret 0) end)).
    apply (trace_gen p s H c r); rewrite <- ?E; auto; [cbn; lia|].
    intros b n Hb L. cbn [sample_bytes] in L.
    destruct (prep_words r (fun _ _ => True) 3) with (n := n) (b := b) as (ys & Ey & Hw).
    + intros w rst Hw Lw. destruct w as [|a [|b' [|c' [|]]]]; try discriminate. unfold r. cbn [d_sample_reader snd].
      unfold rd_16_8. rewrite Hp. eexists. split; [|exact I]. cbn. reflexivity.
    + exact Hb.
    + lia.
    + eexists _, _. split; [exact Ey|]. apply F2_length in Hw. rewrite <- Hw. unfold words. rewrite map_length. apply seq_length.
  - destruct (trace_stuck p s H c) as [X|(h & ys & f3 & X)]; auto; [rewrite <- E; cbn; auto|left; exact X|].
    right. exists h, ys, f3. tauto.
  - destruct (trace_stuck p s H c) as [X|(h & ys & f3 & X)]; auto; [rewrite <- E; cbn; auto|left; exact X|].
    right. exists h, ys, f3. tauto.
  - destruct (trace_dec p s H c) as [X|(h & ys & f3 & X)]; auto; [left; exact X|].
    right. exists h, ys, f3. cbv zeta in X. destruct X as (X1 & X2 & X3 & X4 & X5 & X8).
    repeat (split; [assumption|]). apply F2_length in X8. rewrite <- X8. unfold words. rewrite map_length. apply seq_length.
Qed.
