(** SEG-D traces: what the writer stores and what the reader makes of it. *)
From Coq Require Import Reals Lra Permutation.
From Verif Require Import BaseFacts Bcd BcdSpec BcdFacts BcdFacts2 Platform CodecSpec Fp FpSpec
  FpReal SampleReal TraceHdr SegyTypes SegyCodec CodecFacts ISegy OSegy SegdTypes SegdSpec ISegd OSegd
  NibFacts FixFacts SegdHdrFacts SegdTrcFacts SegdFileFacts SegdSmpFacts WriterFacts RoundSpec ReaderFacts.
Local Open Scope Z_scope.

Lemma pack_firstn n : forall l, firstn n (pack l) = pack (firstn (2 * n) l).
Proof.
  induction n as [|n IH]; intros l; [reflexivity|].
  replace (2 * S n)%nat with (S (S (2 * n))) by lia.
  destruct l as [|a [|b l]]; [reflexivity|reflexivity|].
  cbn [pack firstn]. rewrite IH. reflexivity.
Qed.

Lemma blk_firstn n m ns : (List.length ns <= 2 * n)%nat -> (n <= m)%nat -> firstn n (blk m ns) = blk n ns.
Proof.
  intros L M. unfold blk. rewrite pack_firstn, firstn_app, firstn_all2 by lia. do 2 f_equal.
  assert (K : forall a b, (a <= b)%nat -> firstn a (repeat 0 b) = repeat 0 a).
  { clear. induction a as [|a IH]; intros b H; [reflexivity|]. destruct b; [lia|].
    cbn [repeat firstn]. f_equal. apply IH. lia. }
  apply K. lia.
Qed.

Lemma write_exts_zero p major h n : p_flat_bufs p = true -> forall i d,
  write_exts p major [] h n (S i) (fend d) = Ok (fend (d ++ repeat 0 (32 * n))).
Proof.
  intros Hp. induction n as [|n IH]; intros i d; cbn [write_exts].
  - rewrite Nat.mul_0_r, app_nil_r. reflexivity.
  - rewrite Hp. cbn [bind]. change (firstn 32 (zeros FLAT_SIZE)) with (repeat 0 32).
    rewrite fwrite_fend, IH, <- app_assoc, <- repeat_app. do 4 f_equal. lia.
Qed.

Lemma write_exts_ok p h t n d : p_flat_bufs p = true -> te_carries h t -> te_range t -> (1 <= n)%nat ->
  write_exts p 2 [] h n 0 (fend d) = Ok (fend (d ++ blk 32 (te_layout t) ++ repeat 0 (32 * (n - 1)))).
Proof.
  intros Hp C R Hn. destruct n as [|n]; [lia|]. cbn [write_exts]. rewrite Hp.
  destruct (blk_run _ _ 52 (te_WN p h t C R)) as (E & _); [rewrite te_layout_len; lia|].
  change (zeros FLAT_SIZE) with (repeat 0 52). rewrite E. cbn [bind].
  rewrite blk_firstn by (rewrite ?te_layout_len; lia).
  rewrite fwrite_fend, write_exts_zero by exact Hp. rewrite <- app_assoc.
  replace (S n - 1)%nat with n by lia. reflexivity.
Qed.

Lemma o_samp_buf_len p s n bits : 0 <= n * bits / 8 <= p_max_alloc p -> 0 <= n * bits < 2 ^ 64 ->
  exists b, o_samp_buf p s n bits = Ok b /\ len b = n * bits / 8.
Proof.
  intros A B. unfold o_samp_buf. rewrite wrapu_small by lia.
  destruct (Z.eqb_spec (len (od_sbuf s)) (n * bits / 8)) as [E|E]; [eauto|].
  assert (n * bits / 8 < 2 ^ 64). { apply Z.div_lt_upper_bound; lia. }
  unfold resize_buf. rewrite resize_ok by lia. cbn [bind]. eexists. split; [reflexivity|].
  unfold len. rewrite app_length, firstn_length, repeat_length. lia.
Qed.

Lemma nth1_get {A B} (f : A -> B) (l : list A) i a : nth1 l i a ->
  (1 <=? i) && (i <=? len (map f l)) = true /\ nth_error (map f l) (Z.to_nat (i - 1)) = Some (f a).
Proof.
  intros [H1 H2]. assert (Z.to_nat (i - 1) < List.length l)%nat by (apply nth_error_Some; congruence).
  rewrite len_map. split.
  - unfold len. apply andb_true_intro. split; lia.
  - rewrite nth_error_map, H2. reflexivity.
Qed.

Lemma nth_1_map {A B} (f : A -> B) (l : list A) i a : nth1 l i a -> nth_1 (map f l) i = Ok (f a).
Proof. intros H. unfold nth_1. destruct (nth1_get f l i a H) as [-> ->]. reflexivity. Qed.

Lemma fixp_num a k k' n : fixp a k n -> fixp a k' n -> k = k'.
Proof.
  intros H H'. apply fixp_pw in H as [(_ & _ & E) _]. apply fixp_pw in H' as [(_ & _ & E') _].
  pose proof (pw_pos (- n)). apply eq_IZR. rewrite E in E'. apply Rmult_eq_reg_r in E'; [exact E'|lra].
Qed.

Lemma descale_range x m k e : chset_range x k e -> fixp (c_descale x) (m * 2 ^ 10) 10 -> -1022 <= m <= 1023.
Proof.
  unfold chset_range. intros (_ & _ & _ & _ & (B & F') & _) F.
  pose proof (fixp_num _ _ _ _ F F'). lia.
Qed.

(** ** Writing *)

Lemma int_key_pos h k v : int_key h k v -> 1 <= v -> hget h k = Some (VInt v).
Proof. intros [H|[_ H]] B; [exact H|lia]. Qed.

Definition odst (s : osegd) (r : srec) : Prop :=
  od_g1 s = r_g1 r /\ od_g2 s = r_g2 r /\ od_sets s = map (map fst3) (r_sets r) /\ od_layouts s = [].

Lemma nth1_range {A} (P : A -> Prop) l i a : Forall P l -> nth1 l i a -> P a.
Proof. intros F [_ H]. apply nth_error_In in H. rewrite Forall_forall in F. auto. Qed.

Lemma write_trace_ok p s r t c d : p_left_first p = true -> p_flat_bufs p = true -> 2 ^ 27 <= p_max_alloc p ->
  srec_ok r -> g2_major (r_g2 r) = 2 -> conv_fmt p (g1_format_code (r_g1 r)) ->
  In (g1_format_code (r_g1 r)) good_formats ->
  odst s r -> trace_in r t c -> od_file s = fend d -> od_written s <> od_chans s ->
  0 <= od_written s < 2 ^ 64 - 1 ->
  exists s', d_write_trace p s t = Ok s' /\ odst s' r /\ od_file s' = fend (d ++ trc_bytes c) /\
    od_written s' = od_written s + 1 /\ od_chans s' = od_chans s.
Proof.
  intros Hp Hf Ha Hr M Cv Fk (S1 & S2 & S3 & S4) T Ef Nw Bw.
  destruct T as (Tc & Tr & Te & Ec & Er & Es & cs & x & m & N1 & N2 & Fx & Fs).
  pose proof Hr as (_ & _ & _ & _ & _ & RS & _).
  assert (Rx : chset_range (fst3 x) (snd (fst x)) (snd x)).
  { apply (nth1_range _ _ _ _ (nth1_range _ _ _ _ RS N1) N2). }
  pose proof (descale_range _ _ _ _ Rx Fx) as Bm.
  destruct (codec_ok p _ Hp Cv Fk) as (n & f & rr & Cd & Bn).
  assert (Ls : len (t_smp t) < 2 ^ 24) by (unfold te_range in Er; lia).
  pose proof (len_nonneg (t_smp t)) as Ls0.
  unfold d_write_trace. destruct (Z.eqb_spec (od_written s) (od_chans s)); [contradiction|].
  rewrite Ef, (put_block_fend TRACE_HEADER_SIZE _ _ d (th_WN p _ _ Tc Tr))
    by (rewrite th_layout_len; vm_compute; lia).
  cbn [bind]. change (Z.to_nat TRACE_HEADER_SIZE) with 20%nat.
  pose proof Tc as (_ & Ks & Kc & _ & _ & Ke & _).
  pose proof Tr as (_ & Bs & Bc & _ & _ & Be & _). unfold below in Bs. change (10 ^ Z.of_nat 2) with 100 in Bs.
  rewrite (opt_int_key _ _ _ Ke). cbn [bind]. rewrite (wrapu_small 8) by lia.
  rewrite S2, M, S4, (write_exts_ok p _ (s_te c)) by (assumption || lia). cbn [bind].
  rewrite S1. destruct Cd as (Cw & Cr & Ck). rewrite Cw. cbn [bind].
  destruct (o_samp_buf_len p s (len (t_smp t)) (8 * Z.of_nat n)) as (buf & Eb & Lb).
  { replace (len (t_smp t) * (8 * Z.of_nat n)) with (len (t_smp t) * Z.of_nat n * 8) by lia.
    rewrite Z.div_mul by lia. nia. }
  { nia. }
  rewrite Eb. cbn [bind].
  replace (len (t_smp t) * (8 * Z.of_nat n)) with (len (t_smp t) * Z.of_nat n * 8) in Lb by lia.
  rewrite Z.div_mul in Lb by lia.
  assert (Ech : o_ch_set s (t_hdr t) = Ok (fst3 x)).
  { unfold o_ch_set. rewrite (int_key_pos _ _ _ Ks) by (destruct N1; assumption). rewrite Kc.
    cbn [get_int bind]. rewrite !wrapu_small by lia. rewrite S3.
    destruct (nth1_get (map fst3) _ _ _ N1) as [-> ->]. cbn [bind].
    destruct (nth1_get fst3 _ _ _ N2) as [-> ->]. reflexivity. }
  rewrite Ech. cbn [bind]. rewrite (d_exp2_int p _ _ Fx Bm).
  rewrite (write_smps_ok p (g1_format_code (r_g1 r)) n f rr m (od_pend s) (conj Cw (conj Cr Ck)) Bm
             (t_smp t) (s_words c) buf Fs) by (unfold len in Lb; lia).
  cbn [bind fst snd].
  rewrite skipn_all2 by (unfold len in Lb; lia). rewrite app_nil_r, fwrite_fend.
  eexists. split; [reflexivity|]. unfold odst, od_upd. cbn [od_g1 od_g2 od_sets od_layouts od_file od_written od_chans].
  split; [auto|]. split; [|split; [rewrite wrapu_small; lia|reflexivity]].
  f_equal. unfold trc_bytes. rewrite <- !app_assoc. reflexivity.
Qed.

Lemma write_all_ok p r : p_left_first p = true -> p_flat_bufs p = true -> 2 ^ 27 <= p_max_alloc p ->
  srec_ok r -> g2_major (r_g2 r) = 2 -> conv_fmt p (g1_format_code (r_g1 r)) ->
  In (g1_format_code (r_g1 r)) good_formats ->
  forall ts cs s d, odst s r -> Forall2 (trace_in r) ts cs -> od_file s = fend d ->
  0 <= od_written s -> od_written s + len ts <= od_chans s -> od_chans s < 2 ^ 64 ->
  exists s', d_write_all p s ts = Ok s' /\ odst s' r /\ od_file s' = fend (d ++ concat (map trc_bytes cs)) /\
    od_written s' = od_written s + len ts /\ od_chans s' = od_chans s.
Proof.
  intros Hp Hf Ha Hr M Cv Fk. induction ts as [|t ts IH]; intros cs s d Hs F Ef B1 B2 B3;
    inversion F as [|? c ? cs' F1 F2]; subst; cbn [d_write_all map concat].
  - rewrite app_nil_r. exists s. change (len (@nil trace)) with 0. rewrite Z.add_0_r. auto.
  - rewrite len_cons in B2. pose proof (len_nonneg ts).
    destruct (write_trace_ok p s r t c d Hp Hf Ha Hr M Cv Fk Hs F1 Ef ltac:(lia) ltac:(lia))
      as (s1 & E1 & O1 & G1 & W1 & C1).
    rewrite E1. cbn [bind].
    destruct (IH cs' s1 _ O1 F2 G1) as (s2 & E2 & O2 & G2 & W2 & C2); [lia|lia|lia|].
    exists s2. split; [exact E2|]. split; [exact O2|]. rewrite G2, <- app_assoc, len_cons.
    split; [reflexivity|]. split; [lia|congruence].
Qed.

(** ** Reading *)

Lemma rd_exts_zero p major h n D : forall i q l, here D q (repeat 0 (32 * n) ++ l) ->
  rd_exts p major [] n (S i) (fat D q) h = Ok (h, fat D (q + 32 * Z.of_nat n)) /\
  here D (q + 32 * Z.of_nat n) l.
Proof.
  induction n as [|n IH]; intros i q l Q; cbn [rd_exts].
  - change (32 * Z.of_nat 0) with 0. rewrite Z.add_0_r. auto.
  - replace (32 * S n)%nat with (32 + 32 * n)%nat in Q by lia.
    rewrite repeat_app, <- app_assoc in Q.
    destruct (here_read D q _ _ TRACE_HEADER_EXT_SIZE Q) as [E Q1]; [reflexivity|].
    rewrite E. cbn [bind]. destruct (IH (S i) _ _ Q1) as [E2 Q2].
    change (q + TRACE_HEADER_EXT_SIZE) with (q + 32) in *. rewrite E2.
    replace (q + 32 * Z.of_nat (S n)) with (q + 32 + 32 * Z.of_nat n) by lia. auto.
Qed.

Lemma rd_exts_ok p h h0 t n D q l : p_left_first p = true -> te_carries h0 t -> te_range t -> (1 <= n)%nat ->
  here D q (blk 32 (te_layout t) ++ repeat 0 (32 * (n - 1)) ++ l) ->
  rd_exts p 2 [] n 0 (fat D q) h = Ok (te_set h t, fat D (q + 32 * Z.of_nat n)) /\
  here D (q + 32 * Z.of_nat n) l.
Proof.
  intros Hp C R Hn Q. destruct n as [|n]; [lia|]. cbn [rd_exts].
  pose proof (te_WN p h0 t C R) as W.
  destruct (here_read D q _ _ TRACE_HEADER_EXT_SIZE Q) as [E Q1].
  { rewrite (blk_len _ _ _ W); [reflexivity|]. rewrite te_layout_len. lia. }
  rewrite E. cbn [bind].
  destruct (RN_blk _ _ _ _ 32 W (te_RN p h t Hp R)) as (c & Ec); [rewrite te_layout_len; lia|].
  rewrite Ec. cbn [bind]. change (q + TRACE_HEADER_EXT_SIZE) with (q + 32) in *.
  replace (S n - 1)%nat with n in Q1 by lia.
  destruct (rd_exts_zero p 2 (te_set h t) n D 0 _ _ Q1) as [E2 Q2]. rewrite E2.
  replace (q + 32 * Z.of_nat (S n)) with (q + 32 + 32 * Z.of_nat n) by lia. auto.
Qed.

Definition isst (s : isegd) (r : srec) : Prop :=
  g1_format_code (d_g1 s) = g1_format_code (r_g1 r) /\ g2_major (d_g2 s) = 2 /\ d_layouts s = [] /\
  d_sets s = map (map (fun c => chset_seen (fst3 c))) (r_sets r).

Definition trace_hdr_seen (c : strc) : hdr := te_set (th_hdr (s_th c)) (s_te c).

Lemma read_trace_body p s r t c D q l : p_left_first p = true -> 2 ^ 27 <= p_max_alloc p ->
  srec_ok r -> conv_fmt p (g1_format_code (r_g1 r)) ->
  In (g1_format_code (r_g1 r)) good_formats ->
  isst s r -> trace_in r t c -> d_file s = fat D q -> here D q (trc_bytes c ++ l) ->
  exists q', here D q' l /\ d_read_trace p s =
    (let rd := wrapu 64 (d_read s + 1) in
     if d_chans s =? rd then
       let s1 := d_set s (fat D q') [] 0 0 in
       let* s2 := (if has_record s1 then read_headers_before_traces p s1 else Ok s1) in
       Ok (mkTrace (trace_hdr_seen c) (t_smp t), s2)
     else Ok (mkTrace (trace_hdr_seen c) (t_smp t), d_set s (fat D q') (d_sets s) (d_chans s) rd)).
Proof.
  intros Hp Ha Hr Cv Fk (S1 & S2 & S3 & S4) T Ef Q.
  destruct T as (Tc & Tr & Te & Ec & Er & Es & cs & x & m & N1 & N2 & Fx & Fs).
  pose proof Hr as (_ & _ & _ & _ & _ & RS & _).
  assert (Rx : chset_range (fst3 x) (snd (fst x)) (snd x)).
  { apply (nth1_range _ _ _ _ (nth1_range _ _ _ _ RS N1) N2). }
  pose proof (descale_range _ _ _ _ Rx Fx) as Bm.
  destruct (codec_ok p _ Hp Cv Fk) as (n & f & rr & Cd & Bn).
  assert (Ls : len (t_smp t) < 2 ^ 24) by (unfold te_range in Er; lia).
  pose proof (len_nonneg (t_smp t)) as Ls0.
  pose proof Tr as (_ & _ & _ & _ & _ & Be & _).
  unfold trc_bytes in Q. rewrite <- !app_assoc in Q.
  pose proof (th_WN p _ _ Tc Tr) as W.
  destruct (here_read D q _ _ TRACE_HEADER_SIZE Q) as [E1 Q1].
  { rewrite (blk_len _ _ _ W); [reflexivity|]. rewrite th_layout_len. lia. }
  unfold d_read_trace. rewrite Ef, E1. cbn [bind].
  destruct (RN_blk _ _ _ _ 20 W (th_RN p _ Hp Tr)) as (c1 & Ec1); [rewrite th_layout_len; lia|].
  rewrite Ec1. cbn [bind]. clear Ec1 E1.
  unfold read_trace_header_ext.
  change (hidx (th_hdr (s_th c)) "TR_HDR_EXT") with (VInt (th_ext (s_th c)), th_hdr (s_th c)).
  cbv iota. cbn [get_int bind]. rewrite wraps_id by (unfold in_i; lia). rewrite S2, S3.
  destruct (rd_exts_ok p (th_hdr (s_th c)) (t_hdr t) (s_te c) (Z.to_nat (th_ext (s_th c))) D _ _ Hp Ec Er
              ltac:(lia) Q1) as [E2 Q2].
  rewrite E2. cbn [bind]. clear E2. fold (trace_hdr_seen c).
  unfold read_trace_samples.
  destruct (te_set_th _ _ (s_te c) (th_hdr_shows _ Tr)) as (_ & Hsc & Hse & _).
  destruct (te_set_shows (th_hdr (s_th c)) _ Er) as (_ & _ & _ & Hsn & _).
  fold (trace_hdr_seen c) in Hsc, Hse, Hsn.
  assert (Ech : curr_ch_set s (trace_hdr_seen c) = Ok (chset_seen (fst3 x))).
  { unfold curr_ch_set, hidx. rewrite Hsc, Hse. cbn [fst get_int bind]. rewrite S4.
    rewrite (nth_1_map _ _ _ _ N1). cbn [bind]. apply (nth_1_map (fun c => chset_seen (fst3 c)) _ _ _ N2). }
  rewrite Ech. cbn [bind]. unfold samp_num_of. rewrite Hsn. cbn [get_int bind].
  rewrite Es, (wrapu_small 32 (len (t_smp t))) by lia. rewrite S1.
  pose proof Cd as (Cw & Cr & Ck). rewrite Cr. cbn [bind].
  rewrite wrapu_small by nia.
  replace (len (t_smp t) * (8 * Z.of_nat n)) with (len (t_smp t) * Z.of_nat n * 8) by lia.
  rewrite Z.div_mul by lia. rewrite resize_ok by nia. cbn [bind].
  destruct (here_read D _ _ _ (len (t_smp t) * Z.of_nat n) Q2) as [E3 Q3].
  { unfold len at 1. rewrite (words_len p _ n f rr m Cd _ _ Fs). unfold len. lia. }
  rewrite E3. cbn [bind]. rewrite resize_ok by lia. cbn [bind].
  change (c_descale (chset_seen (fst3 x))) with (c_descale (fst3 x)).
  rewrite (d_exp2_int p _ _ Fx Bm), len_to_nat.
  pose proof (read_smps_ok p _ n f rr m Cd Bm _ _ [] Fs) as E4. rewrite app_nil_r in E4.
  rewrite E4. cbn [bind].
  eexists. split; [exact Q3|]. reflexivity.
Qed.

Lemma hget_key h k : hget h k <> None -> In k (map fst h).
Proof.
  induction h as [|[k0 v] h IH]; cbn [hget map fst In]; [congruence|].
  destruct (String.eqb_spec k k0) as [->|_]; auto.
Qed.

Lemma seen_same r t c : trace_in r t c -> trace_same t c (mkTrace (trace_hdr_seen c) (t_smp t)).
Proof.
  intros (Tc & Tr & Te & Ec & Er & Es & _). unfold trace_same. cbn [t_hdr t_smp].
  split; [apply te_set_th, th_hdr_shows, Tr|]. split; [apply te_set_shows, Er|]. split; [reflexivity|].
  intros k Hk. unfold trace_hdr_seen in Hk.
  destruct (in_dec string_dec k ["R_LINE"; "R_POINT"; "R_POINT_IDX"; "SAMP_NUM"; "SENSOR_TYPE"]%string) as [I|N].
  { cbn [In] in I |- *. tauto. }
  rewrite te_set_other in Hk by exact N.
  apply hget_key in Hk. unfold th_hdr in Hk. cbn [map fst In] in Hk |- *. tauto.
Qed.

Lemma trc_len r t c (p : platform) : trace_in r t c -> 20 <= len (trc_bytes c).
Proof.
  intros (Tc & Tr & _). unfold trc_bytes. rewrite len_app.
  rewrite (blk_len _ _ 20 (th_WN p _ _ Tc Tr)) by (rewrite th_layout_len; lia).
  match goal with |- _ <= _ + len ?x => pose proof (len_nonneg x) end. lia.
Qed.

(** ** Files of several records *)

(** The reader stands inside the record [r]: [k] traces read, [l] follows. *)
Definition in_rec (D : list Z) (s : isegd) (r : srec) (k : Z) (l : list Z) : Prop :=
  exists q, d_file s = fat D q /\ here D q l /\
  d_g1 s = gh1_seen (r_g1 r) (r_ext r) /\ d_g2 s = gh2_seen (r_g2 r) gh2_zero /\
  d_sets s = map (map (fun c => chset_seen (fst3 c))) (r_sets r) /\
  d_extd s = r_extd r /\ d_extl s = r_extl r /\ d_layouts s = [] /\ d_eod s = len D /\
  d_chans s = r_chans r /\ d_read s = k.

Lemma good_known p r : rec_good p r -> fmt_known p (g1_format_code (r_g1 r)).
Proof.
  intros (_ & _ & _ & H). unfold good_formats in H. cbn [In] in H.
  destruct H as [<-|[<-|[<-|[<-|[<-|[<-|[<-|[]]]]]]]]; eexists _, _; reflexivity.
Qed.

Lemma in_rec_isst D s r k l p : in_rec D s r k l -> rec_good p r -> isst s r.
Proof.
  intros (q & _ & _ & H1 & H2 & H3 & _ & _ & H4 & _) (_ & M & _). unfold isst.
  rewrite H1, H2, H3, H4. cbn [gh1_seen g1_format_code gh2_seen g2_major]. auto.
Qed.

Lemma step_in p D s r k t c l : plat_ok p -> rec_good p r -> in_rec D s r k (trc_bytes c ++ l) ->
  trace_in r t c -> 0 <= k -> k + 1 < r_chans r -> r_chans r < 2 ^ 64 ->
  exists s', d_read_trace p s = Ok (mkTrace (trace_hdr_seen c) (t_smp t), s') /\ in_rec D s' r (k + 1) l /\
             d_blocks s' = d_blocks s /\ has_record s = true.
Proof.
  intros (Hp & Hf & Ha) G I T B1 B2 B3. pose proof (in_rec_isst _ _ _ _ _ _ I G) as Is.
  destruct G as (G1 & G2 & G3 & G4).
  destruct I as (q & I1 & I2 & I3 & I4 & I5 & I6 & I7 & I8 & I9 & I10 & I11).
  destruct (read_trace_body p s r t c D q l Hp Ha G1 G3 G4 Is T I1 I2) as (q' & Q & E).
  rewrite E. cbv zeta. rewrite I10, I11, wrapu_small by lia.
  destruct (Z.eqb_spec (r_chans r) (k + 1)); [lia|].
  eexists. split; [reflexivity|]. split.
  - exists q'. unfold d_set. cbn. auto 15.
  - split; [reflexivity|]. unfold has_record. rewrite I1, I9. cbn [fat fpos].
    destruct I2 as (a & -> & ->). rewrite !len_app.
    pose proof (trc_len r t c p T). pose proof (len_nonneg l). lia.
Qed.

Lemma rec_hdr_len r : srec_ok r -> 64 <= len (rec_hdr r).
Proof.
  intros (R1 & R2 & _). unfold rec_hdr. rewrite app_assoc, len_app, len_app.
  rewrite (gh1_blk_len _ _ _ _ R1), (blk_len _ _ 32 (gh2_WN _ R2)) by (rewrite gh2_layout_len; lia).
  match goal with |- _ <= _ + len ?x => pose proof (len_nonneg x) end. lia.
Qed.

Lemma step_next p D s r k t c r2 l : plat_ok p -> rec_good p r -> rec_good p r2 -> len D < 2 ^ 63 ->
  in_rec D s r k (trc_bytes c ++ rec_hdr r2 ++ l) ->
  trace_in r t c -> 0 <= k -> k + 1 = r_chans r -> r_chans r < 2 ^ 64 ->
  exists s', d_read_trace p s = Ok (mkTrace (trace_hdr_seen c) (t_smp t), s') /\ in_rec D s' r2 0 l /\
    d_blocks s' = fold_left (fun m h => bset m (gN_block_num h) (AN h)) (map fst3 (r_N r2)) (d_blocks s) /\
    has_record s = true.
Proof.
  intros (Hp & Hf & Ha) G G' LD I T B1 B2 B3. pose proof (in_rec_isst _ _ _ _ _ _ I G) as Is.
  pose proof (good_known p r2 G') as Fk2.
  destruct G as (G1 & G2 & G3 & G4). destruct G' as (G1' & G2' & G3' & G4').
  destruct I as (q & I1 & I2 & I3 & I4 & I5 & I6 & I7 & I8 & I9 & I10 & I11).
  destruct (read_trace_body p s r t c D q _ Hp Ha G1 G3 G4 Is T I1 I2) as (q' & Q & E).
  rewrite E. cbv zeta. rewrite I10, I11, wrapu_small by lia.
  destruct (Z.eqb_spec (r_chans r) (k + 1)); [|lia].
  set (s1 := d_set s (fat D q') [] 0 0).
  assert (H1 : has_record s1 = true).
  { unfold has_record, s1, d_set. cbn [d_file d_eod fat fpos]. rewrite I9.
    destruct Q as (a & -> & ->). rewrite !len_app.
    pose proof (rec_hdr_len _ G1'). pose proof (len_nonneg l). lia. }
  rewrite H1.
  destruct (read_headers_ok p s1 r2 D q' l Hp ltac:(lia) LD G1' Fk2 eq_refl Q) as (q2 & Q2 & E2).
  rewrite E2. cbn [bind]. eexists. split; [reflexivity|]. split.
  - exists q2. cbn [d_file d_g1 d_g2 d_sets d_extd d_extl d_layouts d_eod d_chans d_read s1 d_set].
    rewrite I4. auto 15.
  - split; [reflexivity|]. unfold has_record. rewrite I1, I9. cbn [fat fpos].
    destruct I2 as (a & -> & ->). rewrite !len_app.
    pose proof (trc_len r t c p T). pose proof (rec_hdr_len _ G1'). pose proof (len_nonneg l). lia.
Qed.

Lemma step_last p D s r k t c : plat_ok p -> rec_good p r ->
  in_rec D s r k (trc_bytes c) ->
  trace_in r t c -> 0 <= k -> k + 1 = r_chans r -> r_chans r < 2 ^ 64 ->
  exists s', d_read_trace p s = Ok (mkTrace (trace_hdr_seen c) (t_smp t), s') /\
    d_has_trace s' = false /\ has_record s' = false /\ has_record s = true.
Proof.
  intros (Hp & Hf & Ha) G I T B1 B2 B3. pose proof (in_rec_isst _ _ _ _ _ _ I G) as Is.
  destruct G as (G1 & G2 & G3 & G4).
  destruct I as (q & I1 & I2 & I3 & I4 & I5 & I6 & I7 & I8 & I9 & I10 & I11).
  rewrite <- (app_nil_r (trc_bytes c)) in I2.
  destruct (read_trace_body p s r t c D q _ Hp Ha G1 G3 G4 Is T I1 I2) as (q' & Q & E).
  rewrite E. cbv zeta. rewrite I10, I11, wrapu_small by lia.
  destruct (Z.eqb_spec (r_chans r) (k + 1)); [|lia].
  set (s1 := d_set s (fat D q') [] 0 0).
  assert (H1 : has_record s1 = false).
  { unfold has_record, s1, d_set. cbn [d_file d_eod fat fpos]. rewrite I9.
    destruct Q as (a & -> & ->). rewrite app_nil_r, Z.eqb_refl. reflexivity. }
  rewrite H1. cbn [bind]. eexists. split; [reflexivity|]. split; [reflexivity|]. split; [exact H1|].
  unfold has_record. rewrite I1, I9. cbn [fat fpos].
  destruct I2 as (a & -> & ->). rewrite !len_app.
  pose proof (trc_len r t c p T). change (len (@nil Z)) with 0. lia.
Qed.

Lemma d_take_app p n : forall m s ts s1, d_take p n s = Ok (ts, s1) -> forall ts2 s2,
  d_take p m s1 = Ok (ts2, s2) -> d_take p (n + m) s = Ok (ts ++ ts2, s2).
Proof.
  induction n as [|n IH]; intros m s ts s1 E ts2 s2 E2; cbn [d_take Nat.add] in *.
  - injection E as <- <-. exact E2.
  - destruct (d_read_trace p s) as [[t sa]| |]; cbn [bind] in *; try discriminate E.
    destruct (d_take p n sa) as [[tsa sb]| |] eqn:En; cbn [bind] in *; try discriminate E.
    injection E as <- <-. rewrite (IH m sa _ _ En _ _ E2). reflexivity.
Qed.

Definition tc_seen (tcs : list (trace * strc)) : list trace :=
  map (fun x => mkTrace (trace_hdr_seen (snd x)) (t_smp (fst x))) tcs.

(** Inside a record: some traces to read. *)
Definition at_rec (p : platform) (D : list Z) (s : isegd) (r : srec) (k : Z) (tcs : list (trace * strc)) (l : list Z)
  : Prop :=
  rec_good p r /\ Forall (tc_in r) tcs /\ k + len tcs = r_chans r /\ 0 <= k /\ tcs <> [] /\ r_chans r < 2 ^ 63 /\
  in_rec D s r k (tc_bytes tcs ++ l).

Lemma take_in p D r l tcs1 : plat_ok p -> forall s k tcs2, at_rec p D s r k (tcs1 ++ tcs2) l -> tcs2 <> [] ->
  exists s', d_take p (List.length tcs1) s = Ok (tc_seen tcs1, s') /\ at_rec p D s' r (k + len tcs1) tcs2 l /\
             d_blocks s' = d_blocks s.
Proof.
  intros Hp. induction tcs1 as [|[t c] tcs1 IH]; intros s k tcs2 A N; cbn [List.length d_take].
  - exists s. cbn [app] in A. change (len (@nil (trace * strc))) with 0. rewrite Z.add_0_r. auto.
  - destruct A as (G & F & Hk & B & _ & Hb & I). cbn [app] in F, I. inversion F as [|? ? F1 F2]; subst.
    cbn [app] in Hk. rewrite len_cons in Hk.
    assert (len tcs2 > 0) by (destruct tcs2; [congruence|rewrite len_cons; pose proof (len_nonneg tcs2); lia]).
    rewrite len_app in Hk. pose proof (len_nonneg tcs1).
    unfold tc_bytes in I. cbn [map concat snd] in I. rewrite <- app_assoc in I. fold (tc_bytes (tcs1 ++ tcs2)) in I.
    destruct (step_in p D s r k t c _ Hp G I F1 B ltac:(lia) ltac:(lia)) as (s1 & E1 & I1 & Bl & _).
    rewrite E1. cbn [bind].
    destruct (IH s1 (k + 1) tcs2) as (s2 & E2 & A2 & Bl2).
    { split; [exact G|]. split; [exact F2|]. rewrite len_app. split; [lia|]. split; [lia|].
      split; [destruct tcs1; [exact N|discriminate]|]. split; [exact Hb|exact I1]. }
    { exact N. }
    rewrite E2. cbn [bind]. exists s2. split; [reflexivity|]. rewrite len_cons.
    replace (k + (1 + len tcs1)) with (k + 1 + len tcs1) by lia. split; [exact A2|congruence].
Qed.

Lemma at_last {A} (l : list A) : l <> [] -> exists l' a, l = l' ++ [a].
Proof. intros H. destruct (exists_last H) as (l' & a & E). eauto. Qed.

Lemma take_next p D s r k tcs y l : plat_ok p -> len D < 2 ^ 63 -> fr_ok p y ->
  at_rec p D s r k tcs (fr_bytes y ++ l) ->
  exists s', d_take p (List.length tcs) s = Ok (tc_seen tcs, s') /\ at_rec p D s' (fst y) 0 (snd y) l /\
    d_blocks s' = fold_left (fun m h => bset m (gN_block_num h) (AN h)) (map fst3 (r_N (fst y))) (d_blocks s).
Proof.
  intros Hp LD (Gy & Fy & Ly & Ny & By) A.
  destruct (at_last tcs) as (tcs' & [t c] & ->); [apply A|].
  destruct (take_in p D r _ tcs' Hp s k [(t, c)] A ltac:(discriminate)) as (s1 & E1 & A1 & B1).
  destruct A1 as (G & F & Hk & B & _ & Hb & I). inversion F as [|? ? F1 F2]; subst.
  change (len [(t, c)]) with 1 in Hk.
  unfold tc_bytes in I. cbn [map concat snd] in I. rewrite app_nil_r in I. unfold fr_bytes in I.
  rewrite <- app_assoc in I.
  destruct (step_next p D s1 r _ t c _ _ Hp G Gy LD I F1 B Hk ltac:(lia)) as (s2 & E2 & I2 & B2 & _).
  exists s2. rewrite app_length. split; [|split].
  - unfold tc_seen. rewrite map_app. apply (d_take_app p _ _ _ _ _ E1).
    cbn [List.length d_take]. rewrite E2. reflexivity.
  - split; [exact Gy|]. split; [exact Fy|]. split; [lia|]. split; [lia|]. split; [exact Ny|]. split; [lia|exact I2].
  - rewrite B2, B1. reflexivity.
Qed.

Lemma take_last p D s r k tcs : plat_ok p -> at_rec p D s r k tcs [] ->
  exists s', d_take p (List.length tcs) s = Ok (tc_seen tcs, s') /\ d_has_trace s' = false /\ has_record s' = false.
Proof.
  intros Hp A.
  destruct (at_last tcs) as (tcs' & [t c] & ->); [apply A|].
  destruct (take_in p D r _ tcs' Hp s k [(t, c)] A ltac:(discriminate)) as (s1 & E1 & A1 & B1).
  destruct A1 as (G & F & Hk & B & _ & Hb & I). inversion F as [|? ? F1 F2]; subst.
  change (len [(t, c)]) with 1 in Hk.
  unfold tc_bytes in I. cbn [map concat snd] in I. rewrite !app_nil_r in I.
  destruct (step_last p D s1 r _ t c Hp G I F1 B Hk ltac:(lia)) as (s2 & E2 & H1 & H2 & _).
  exists s2. rewrite app_length. split; [|auto].
  unfold tc_seen. rewrite map_app. apply (d_take_app p _ _ _ _ _ E1).
  cbn [List.length d_take]. rewrite E2. reflexivity.
Qed.

Lemma take_recs p D xs : plat_ok p -> len D < 2 ^ 63 -> Forall (fr_ok p) xs -> forall s r tcs y l, fr_ok p y ->
  at_rec p D s r 0 tcs (concat (map fr_bytes xs) ++ fr_bytes y ++ l) ->
  exists s', d_take p (List.length (tcs ++ fr_traces xs)) s = Ok (tc_seen (tcs ++ fr_traces xs), s') /\
    at_rec p D s' (fst y) 0 (snd y) l.
Proof.
  intros Hp LD. induction xs as [|x xs IH]; intros F s r tcs y l Hy A; cbn [map concat app] in A.
  - destruct (take_next p D s r 0 tcs y l Hp LD Hy A) as (s' & E & A' & _).
    unfold fr_traces. cbn [map concat]. rewrite app_nil_r. eauto.
  - inversion F as [|? ? F1 F2]; subst. rewrite <- app_assoc in A.
    destruct (take_next p D s r 0 tcs x _ Hp LD F1 A) as (s1 & E1 & A1 & _).
    destruct (IH F2 s1 (fst x) (snd x) y l Hy A1) as (s2 & E2 & A2).
    exists s2. split; [|exact A2]. unfold fr_traces. cbn [map concat]. fold (fr_traces xs).
    rewrite app_length. unfold tc_seen. rewrite map_app. apply (d_take_app p _ _ _ _ _ E1 _ _ E2).
Qed.

Lemma open_recs p x xs : plat_ok p -> Forall (fr_ok p) (x :: xs) -> len (concat (map fr_bytes (x :: xs))) < 2 ^ 63 ->
  let D := concat (map fr_bytes (x :: xs)) in
  exists s, isegd_open p D [] = Ok s /\ at_rec p D s (fst x) 0 (snd x) (concat (map fr_bytes xs)) /\
    d_blocks s = fold_left (fun m h => bset m (gN_block_num h) (AN h)) (map fst3 (r_N (fst x))) [].
Proof.
  intros (Hp & Hf & Ha) F LD D. inversion F as [|? ? F1 F2]; subst.
  destruct F1 as (G & Ft & Lt & Nt & Bt). pose proof G as (G1 & G2 & G3 & G4).
  unfold isegd_open.
  match goal with |- context [read_headers_before_traces p ?s] => set (s0 := s) end.
  destruct (read_headers_ok p s0 (fst x) D 0 (tc_bytes (snd x) ++ concat (map fr_bytes xs)) Hp ltac:(lia) LD G1
              (good_known p _ G) eq_refl) as (q' & Q & E).
  { exists []. split; [|reflexivity]. cbn [app]. unfold D. cbn [map concat]. unfold fr_bytes at 1.
    rewrite <- app_assoc. reflexivity. }
  rewrite E. eexists. split; [reflexivity|]. split; [|reflexivity].
  split; [exact G|]. split; [exact Ft|]. split; [lia|]. split; [lia|]. split; [exact Nt|]. split; [lia|].
  exists q'. cbn [d_file d_g1 d_g2 d_sets d_extd d_extl d_layouts d_eod d_chans d_read]. auto 15.
Qed.

Lemma at_rec_more p D s r k tcs l : at_rec p D s r k tcs l -> d_has_trace s = true /\ has_record s = true.
Proof.
  intros (G & F & Hk & B & N & Hb & (q & I1 & (a & Ed & Eq) & _ & _ & _ & _ & _ & _ & I9 & I10 & I11)).
  destruct tcs as [|[t c] tcs]; [congruence|]. rewrite len_cons in Hk. pose proof (len_nonneg tcs).
  inversion F as [|? ? F1 F2]. split.
  - unfold d_has_trace. rewrite I10, I11. lia.
  - unfold has_record. rewrite I1, I9, Eq, Ed. cbn [fat fpos]. rewrite !len_app.
    unfold tc_bytes. cbn [map concat snd]. rewrite len_app. pose proof (trc_len r t c p (ltac:(subst; assumption))).
    match goal with |- context [len (trc_bytes c) + len ?x] => pose proof (len_nonneg x) end.
    pose proof (len_nonneg l). pose proof (len_nonneg a). lia.
Qed.
