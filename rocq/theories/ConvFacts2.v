(** Proofs for C95: the loop, what the file holds, when the program succeeds. *)
From Coq Require Import Reals.
From Flocq Require Import Core.
From Verif Require Import BaseFacts Platform CodecSpec Fp FpSpec FpReal SampleReal TraceHdr SegyTypes SegyCodec LayoutSpec LayoutFacts ISegy OSegy
  CodecFacts OpenFacts NibFacts FixFacts SegdHdrFacts SegdDecFacts SegdFileFacts RoundSpec ReadSpec WriterFacts SegyDecSpec FileSpec FileFacts SegyEncSpec SegyEncFacts3 SegyEncFacts5
  SegdTypes SegdSpec SegdDecSpec SegdTrcSpec SegdReadSpec ISegd SegdOpenFacts SegdTrcFacts SegdTrcRead SegdReadProps ReadFacts2 SegdOpenProps SegdRecFacts
  ConvSpec ConvFacts PropertiesSegyEnc.
Local Open Scope string_scope.
Local Open Scope list_scope.
Local Open Scope Z_scope.

(** ** The loop *)

Lemma loop_writes p : forall s l, visits p s l -> forall fuel o o1, conv_loop p fuel s o = Ok o1 -> write_traces p o (map snd l) = Ok o1.
Proof.
  induction 1 as [s H|s t s1 l H E V IH]; intros fuel o o1 C; destruct fuel as [|k]; cbn [conv_loop map snd write_traces] in *; rewrite H in C;
    try congruence.
  rewrite E in C. cbn [bind] in C. destruct (write_trace p o t) as [o2|e|]; cbn [bind] in *; try discriminate. eauto.
Qed.

Lemma loop_is p : forall s l, visits p s l -> forall fuel o, (List.length l <= fuel)%nat -> conv_loop p fuel s o = write_traces p o (map snd l).
Proof.
  induction 1 as [s H|s t s1 l H E V IH]; intros fuel o L; destruct fuel as [|k]; cbn [conv_loop map snd write_traces List.length] in *; rewrite H;
    try reflexivity; [lia|].
  rewrite E. cbn [bind]. destruct (write_trace p o t) as [o2|e|]; cbn [bind]; [apply IH; lia|reflexivity..].
Qed.

Lemma visits_states p b : forall s l, visits p s l -> reader p b s -> Forall (fun x => plain_trace b (fst x)) l ->
  Forall (fun x => reader p b (fst x) /\ plain_trace b (fst x) /\ exists s', d_read_trace p (fst x) = Ok (snd x, s')) l.
Proof.
  induction 1 as [s H|s t s1 l H E V IH]; intros R F; [constructor|]. inversion F as [|? ? F1 F2]; subst. constructor.
  - cbn [fst snd] in *. eauto.
  - apply IH; [|exact F2]. eapply reader_next; [exact R|exact E|apply F1].
Qed.

(** ** One trace *)

Definition seen (p : platform) (b : list Z) (s : isegd) (t : trace) : Prop :=
  (forall k z, hget (t_hdr t) k = Some (VInt z) <-> In (k, z) (integers_of s)) /\
  (forall k d, hget (t_hdr t) k = Some (VDbl d) -> In k (fixed_points s)) /\
  (forall k, In k (fixed_points s) -> exists d, hget (t_hdr t) k = Some (VDbl d)) /\
  typed t /\ hget (t_hdr t) "SAMP_NUM" = (if byt (th_at s) 9 =? 0 then None else Some (VInt (smp_num s))) /\
  len (t_smp t) = smp_num s /\ 0 <= smp_num s < 2 ^ 24 /\
  exists cs, in_table s cs /\ forall m, holds (c_descale cs) (IZR m) -> -31 <= m <= 31 ->
    Forall2 (sample_of (g1_format_code (d_g1 s)) m)
      (words (skipn (Z.to_nat (smp_at s)) b) (sample_bytes (g1_format_code (d_g1 s))) (Z.to_nat (smp_num s))) (t_smp t).

Local Ltac fin Dr Br Yr := first [apply Dr; lia | apply Br; [assumption|lia] | apply Yr; assumption | idtac].
Lemma read_seen p b s t s' : p_left_first p = true -> pow_typed p -> bytes b -> len b < 2 ^ 63 -> reader p b s -> plain_trace b s ->
  d_read_trace p s = Ok (t, s') -> seen p b s t.
Proof.
  intros Hp Pw Hb Hl R (Hf & _) E. pose proof (reader_invariant p b s Hp Hb Hl R) as I.
  pose proof (inv_good b s Hb Hl I) as G. pose proof (ri_g2 _ _ I) as G2. unfold g2_small in G2.
  assert (T : exists c, in_table s c).
  { destruct (step p b s _ Hp Hb Hl I (inv_hdr p b s Hp Hb Hl I)) as [No|(c & k & Q & T & _)]; [destruct (No _ E)|eauto]. }
  destruct T as (c & T).
  destruct (trace_decoded p b s c t s' Hp Hb Hl R Hf E T) as (D1 & D2 & D3 & D4 & D5 & D6).
  destruct (hdr_values p s t s' Hp G (ri_layouts _ _ I) ltac:(lia) E D1 D2 D3) as (H1 & H2 & H3).
  assert (Bt : bytes (th_at s)) by (unfold th_at; rewrite (ri_data _ _ I); apply bytes_slice, Hb).
  assert (Be : bytes (te_at s)) by (unfold te_at; rewrite (ri_data _ _ I); apply bytes_slice, Hb).
  assert (Gv : hget (t_hdr t) "SAMP_NUM" = if byt (th_at s) 9 =? 0 then None else Some (VInt (smp_num s))).
  { unfold smp_num. destruct (Z.eqb_spec (byt (th_at s) 9) 0) as [Z0|N0].
    - rewrite (D3 Z0) by (cbn; tauto). reflexivity.
    - destruct (D2 N0) as (_ & _ & _ & -> & _). reflexivity. }
  assert (Ns : 0 <= smp_num s < 2 ^ 24).
  { unfold smp_num. destruct (_ =? _); [lia|]. pose proof (big_lt (te_at s) 7 3 Be) as B. change (256 ^ Z.of_nat 3) with (2 ^ 24) in B. exact B. }
  repeat (split; [assumption|]). split; [|repeat (split; [assumption|]); exists c; split; [exact T|exact D4]].
  split; [exact (trace_typed p s t s' Hp Pw G (ri_layouts _ _ I) Hf E)|].
  intros k z Hz. apply H1 in Hz. 
  assert (Dr : forall i n, (n <= 4)%nat -> - 2 ^ 63 <= SegdDecSpec.dec (th_at s) i n < 2 ^ 63) by (intros i n Hn; pose proof (dec_small (th_at s) i n Bt Hn); lia).
  assert (Br : forall l i n, bytes l -> (n <= 5)%nat -> - 2 ^ 63 <= big l i n < 2 ^ 63) by (intros l i n Hx Hn; pose proof (big_small l i n Hx Hn); lia).
  assert (Yr : forall l i, bytes l -> - 2 ^ 63 <= byt l i < 2 ^ 63) by (intros l i Hx; pose proof (byt_range l i Hx); lia).
  assert (Rr : forall k' i j, In (k, z) (receiver_int s k' i j) -> - 2 ^ 63 <= z < 2 ^ 63).
  { intros k' i j. unfold receiver_int. destruct (_ && _); [intros []|]. intros [Q|[]]. injection Q as _ <-. apply Br; [exact Be|lia]. }
  unfold integers_of in Hz. apply in_app_or in Hz as [Hz|Hz].
  - cbn [In] in Hz. destruct Hz as [Q|[Q|[Q|[Q|[Q|[Q|[]]]]]]]; injection Q as _ <-; fin Dr Br Yr.
    + destruct (big (th_at s) 17 3 =? 0); fin Dr Br Yr.
    + unfold set_num. destruct (big (th_at s) 15 2 =? 0); fin Dr Br Yr.
  - destruct (_ =? _); [destruct Hz|]. apply in_app_or in Hz as [Hz|Hz]; [eauto|]. apply in_app_or in Hz as [Hz|Hz]; [eauto|].
    apply in_app_or in Hz as [Hz|Hz].
    + cbn [In] in Hz. destruct Hz as [Q|[Q|[]]]; injection Q as _ <-; fin Dr Br Yr.
    + destruct (_ <? _); [|destruct Hz]. cbn [In] in Hz. destruct Hz as [Q|[]]. injection Q as _ <-. apply Yr. exact Be.
Qed.

Lemma number_for p b s t k z : seen p b s t -> number (t_hdr t) k z -> integer_for s k z.
Proof.
  intros (H1 & _) [E|[E ->]]; [left; apply H1, E|right]. split; [|reflexivity]. intros I. apply in_map_iff in I as ((k', z) & Q & I).
  cbn [fst] in Q. subst k'. apply H1 in I. congruence.
Qed.

Lemma Forall2_nth_l {A B} (P : A -> B -> Prop) l l' j a : Forall2 P l l' -> nth_error l j = Some a -> exists b, nth_error l' j = Some b /\ P a b.
Proof.
  intros F. revert j. induction F as [|x y l l' H F IH]; intros [|j] E; cbn [nth_error] in *; try discriminate; [|apply IH, E].
  injection E as <-. eauto.
Qed.

Lemma written_carries p o c fmt ls n area pos b s t : seen p b s t -> written_at p o c fmt ls n area pos t -> carries p o fmt ls n c pos b s.
Proof.
  intros S (W1 & W2 & _). split.
  - intros i nm l en Hi E I. specialize (W1 i Hi). rewrite E in W1. cbn [option_map snd block_at] in W1. destruct W1 as (W1 & _).
    destruct (W1 en I) as (z & N & St). exists z. split; [eapply number_for; eassumption|exact St].
  - destruct S as (_ & _ & _ & _ & _ & _ & _ & cs & T & S). exists cs. split; [exact T|]. intros m j w r Hm Rm Ew Hr Hz.
    specialize (S m Hm Rm). 
    assert (Q : exists d, nth_error (t_smp t) j = Some d /\ sample_of (g1_format_code (d_g1 s)) m w d).
    { apply (Forall2_nth_l _ _ _ _ _ S Ew). }
    destruct Q as (d & Ed & Sd). exists d. split; [apply Sd; [exact Hr|intros _; exact Hz]|]. apply W2, Ed.
Qed.

(** No SEG-D trace has a sampling interval. *)
Lemma seen_interval p b s t : seen p b s t -> hget (t_hdr t) "SAMP_INT" = None.
Proof.
  intros (H1 & H2 & _). destruct (hget (t_hdr t) "SAMP_INT") as [[z|d]|] eqn:E; [exfalso..|reflexivity].
  - apply H1 in E. unfold integers_of, receiver_int in E.
    repeat (first [apply in_app_or in E as [E|E] | destruct E as [E|E]; [discriminate|] | destruct E | match type of E with In _ (if ?c then _ else _) => destruct c end]).
  - apply H2 in E. unfold fixed_points in E.
    repeat (first [apply in_app_or in E as [E|E] | destruct E as [E|E]; [discriminate|] | destruct E | match type of E with In _ (if ?c then _ else _) => destruct c end]).
Qed.

(** ** The file *)

Lemma all_seen p b s l : p_left_first p = true -> pow_typed p -> bytes b -> len b < 2 ^ 63 -> old_rev b -> isegd_open p b [] = Ok s ->
  visits p s l -> Forall (fun x => plain_trace b (fst x)) l -> Forall (fun x => seen p b (fst x) (snd x)) l.
Proof.
  intros Hp Pw Hb Hl Hr Ho V F. pose proof (visits_states p b s l V (reader_open p b s Hr Ho) F) as S.
  rewrite Forall_forall in *. intros x I. destruct (S x I) as (R & P & s' & E). exact (read_seen p b _ _ s' Hp Pw Hb Hl R P E).
Qed.

Lemma area_seen p b own n fmt x : seen p b (fst x) (snd x) ->
  sample_area own n fmt (snd x) = (if own then smp_num (fst x) else n) * sample_width fmt.
Proof.
  intros S. unfold sample_area. destruct own; [|reflexivity]. f_equal. unfold given.
  destruct S as (_ & _ & _ & _ & -> & _). unfold smp_num. destruct (byt (th_at (fst x)) 9 =? 0); reflexivity.
Qed.

Lemma sizes_seen p b own n hb fmt l : Forall (fun x => seen p b (fst x) (snd x)) l ->
  sum (map (fun t => hb + sample_area own n fmt t) (map snd l)) = conv_sizes own n hb fmt l.
Proof.
  unfold conv_sizes. induction 1 as [|x l S F IH]; [reflexivity|]. unfold sum in *. cbn [map fold_right] in *. rewrite IH, (area_seen p b _ _ _ _ S). reflexivity.
Qed.

Lemma all_written_end p o c fmt ls n area : forall ts pos, all_written p o c fmt ls n area pos ts ->
  pos + sum (map (fun t => 240 * n + area t) ts) = len c.
Proof.
  induction ts as [|t ts IH]; intros pos H; cbn [all_written map sum fold_right] in *; [lia|]. destruct H as (_ & H). apply IH in H. unfold sum in *. lia.
Qed.

Lemma dflt_same w bh : bh_samp_per_tr (with_dflt w bh) = bh_samp_per_tr bh.
Proof. unfold with_dflt. destruct (_ =? 0); reflexivity. Qed.

Lemma converted p b w bh ls s l fuel c :
  p_left_first p = true -> pow_typed p -> sane_alloc p -> bytes b -> len b < 2 ^ 63 -> old_rev b -> isegd_open p b [] = Ok s ->
  visits p s l -> Forall (fun x => plain_trace b (fst x)) l ->
  safe_layouts ls -> len (given_texts w) <= 65536 -> bin_ok bh = true ->
  convert p b w bh ls fuel = Ok c ->
  exists o, order_asked (bh_endianness bh) = Some o /\
    let fmt := bh_format_code (with_dflt w bh) in let n := header_count w bh in
    let size := conv_sizes (own_count w bh) (bh_samp_per_tr bh mod 2 ^ 16) (240 * n) fmt in
    (forall l1 x l2, l = l1 ++ x :: l2 -> carries p o fmt ls n c (3600 + 3200 * len (ext_texts w) + size l1) b (fst x)) /\
    len c = 3600 + 3200 * len (ext_texts w) + size l.
Proof.
  intros Hp Pw HA Hb Hl Hr Ho V F HS Ln Hbin E.
  pose proof (all_seen p b s l Hp Pw Hb Hl Hr Ho V F) as S.
  unfold convert in E. rewrite Ho in E. cbn [bind] in E.
  destruct (w_open p w bh ls) as [o0|e|] eqn:Eo; cbn [bind] in E; try discriminate.
  destruct (conv_loop p fuel s o0) as [o1|e|] eqn:El; cbn [bind] in E; try discriminate. injection E as <-.
  pose proof (loop_writes p s l V _ _ _ El) as Hw.
  assert (Ty : Forall typed (map snd l)).
  { rewrite Forall_forall in *. intros t I. apply in_map_iff in I as (x & <- & I). apply (S x I). }
  destruct (C60_written_traces p w bh ls _ o0 o1 HA HS Ln Hbin Ty Eo Hw) as (hd & o & Fh & Or & A). cbv zeta in *.
  exists o. split; [exact Or|].
  assert (Eh : hd = with_dflt w bh).
  { destruct Fh as [Fh|(_ & t & ts' & n & v & si & Et & _ & _ & Ei & _)]; [exact Fh|exfalso].
    destruct l as [|x l']; [discriminate|]. cbn [map] in Et. injection Et as <- _. inversion S as [|? ? S1 _]; subst.
    rewrite (seen_interval _ _ _ _ S1) in Ei. discriminate. }
  subst hd. rewrite dflt_same in A. split.
  - intros l1 x l2 ->. rewrite map_app in A. cbn [map] in A. apply all_written_at in A.
    apply Forall_app in S as (S1 & S2). inversion S2 as [|? ? S3 _]; subst.
    rewrite (sizes_seen p b) in A by exact S1. eapply written_carries; eassumption.
  - apply all_written_end in A. rewrite (sizes_seen p b) in A by exact S. symmetry. exact A.
Qed.

(** ** Success *)

Lemma wr_f_ok p e t ov : t <> Ibm -> (forall d, ov <> Some (VDbl d)) -> is_ok (wr_field p e t ov) = true.
Proof.
  intros T N. unfold wr_field. destruct ov as [[z|d]|]; [|destruct (N d eq_refl)|]; cbn [bind get_int]; destruct t; try reflexivity; contradiction.
Qed.

Lemma block_ok p e b s t l : safe_layout l -> seen p b s t ->
  (forall en, In en l -> ~ In (e_name en) (fixed_points s) /\ e_type en <> Ibm) -> exists blk, hdr_block p e l (t_hdr t) = Ok blk.
Proof.
  intros Sl S St. assert (G : is_ok (wr_fields p e l (t_hdr t) (zeros TR_HEADER_SIZE)) = true).
  { apply wr_fields_ok; [apply Sl| |reflexivity]. intros en I. destruct (St en I) as (N & T). apply wr_f_ok; [exact T|].
    intros d E. apply N. destruct S as (_ & S & _). exact (S _ _ E). }
  unfold hdr_block. destruct (wr_fields _ _ _ _ _) as [blk| |]; try discriminate. eauto.
Qed.

Lemma additional_ok p e h n : forall ls f, (forall nm l, In (nm, l) ls -> exists blk, hdr_block p e l h = Ok blk) ->
  exists f', write_additional p e ls h n f = Ok f'.
Proof.
  induction n as [|n IH]; intros ls f H; cbn [write_additional]; [eauto|]. destruct ls as [|[nm l] ls].
  - apply IH. intros ? ? [].
  - destruct (H nm l (or_introl eq_refl)) as (blk & ->). cbn [bind]. apply IH. intros nm' l' I. apply (H nm'). right. exact I.
Qed.

Lemma enc_len p e fmt w : fmt = 5 \/ fmt = 6 -> sample_writer p e fmt = Ok w -> forall ds, exists encs, mapM w ds = Ok encs /\
  len (concat encs) = len ds * sample_width fmt.
Proof.
  intros Hf Ew. induction ds as [|d ds IH]; [exists []; split; reflexivity|]. destruct IH as (encs & E & L). cbn [mapM].
  assert (Q : exists x, w d = Ok x /\ len x = sample_width fmt).
  { destruct Hf as [-> | ->]; cbn [sample_writer] in Ew; injection Ew as <-; eexists; (split; [reflexivity|]);
      unfold wr_f32, wr_f64, len; rewrite wr_length; reflexivity. }
  destruct Q as (x & -> & Lx). cbn [bind]. rewrite E. cbn [bind]. eexists. split; [reflexivity|]. cbn [concat]. rewrite len_app, L, len_cons. lia.
Qed.

Lemma write_seen p b ls s t o : sane_alloc p -> 2 ^ 27 <= p_max_alloc p -> safe_layouts ls -> ls <> [] -> seen p b s t -> storable ls s ->
  o_min o = MNone -> o_maps o = ls -> o_good p o -> bh_format_code (o_bh o) = 5 \/ bh_format_code (o_bh o) = 6 ->
  (if o_var o then byt (th_at s) 9 <> 0 else smp_num s * o_bps o <= len (o_sbuf o)) -> at_end (o_file o) ->
  exists o', write_trace p o t = Ok o' /\ same_cfg o o' /\ o_bh o' = o_bh o /\ at_end (o_file o') /\ (o_var o = false -> len (o_sbuf o') = len (o_sbuf o)).
Proof.
  intros HA Ha Sf Nn S St Mn Mp G Hf Rm Ae.
  destruct G as ((wr & Wr) & Bp & _).
  assert (Ep : o_bps o = sample_width (bh_format_code (o_bh o)) /\ 1 <= o_bps o <= 8).
  { destruct Hf as [Q|Q]; rewrite Q in *; cbn in Bp |- *; injection Bp as <-; split; [reflexivity|lia|reflexivity|lia]. }
  destruct Ep as (Ep & B8).
  destruct ls as [|[nm l] ls]; [congruence|].
  assert (Bk : forall nm' l', In (nm', l') ((nm, l) :: ls) -> exists blk, hdr_block p (o_endian o) l' (t_hdr t) = Ok blk).
  { intros nm' l' I. apply (block_ok p (o_endian o) b s t); [exact (Sf nm' l' I)|exact S|]. intros en Ie. exact (St nm' l' en I Ie). }
  destruct (Bk nm l (or_introl eq_refl)) as (blk & Eb).
  destruct (enc_len p (o_endian o) _ wr Hf Wr (t_smp t)) as (encs & Em & Le).
  pose proof S as (_ & _ & _ & _ & Sn & Ls & Rs & _). rewrite Ls, <- Ep in Le.
  assert (Pr : 0 <= smp_num s * o_bps o <= 2 ^ 27) by (change (2 ^ 27) with (2 ^ 24 * 8); split; nia). destruct HA as (_ & HA).
  assert (V : exists sb1, (if o_var o then var_buf p (t_hdr t) (o_bps o) (o_sbuf o) else Ok (o_sbuf o)) = Ok sb1 /\ smp_num s * o_bps o <= len sb1 /\
     (o_var o = false -> sb1 = o_sbuf o)).
  { destruct (o_var o).
    - unfold var_buf, get_req. rewrite Sn. destruct (Z.eqb_spec (byt (th_at s) 9) 0) as [Q|_]; [contradiction|]. cbn [bind get_int].
      rewrite sarith_ok by (unfold in_i; change (64 - 1) with 63; lia). cbn [bind]. cbv zeta. rewrite wrapu_small by lia.
      destruct (Z.eqb_spec (smp_num s * o_bps o) (len (o_sbuf o))) as [Q|Q]; [exists (o_sbuf o); split; [reflexivity|]; split; [lia|discriminate]|].
      destruct (resize_buf p (smp_num s * o_bps o) (o_sbuf o)) as [sb| |] eqn:Er.
      + exists sb. split; [reflexivity|]. apply resize_buf_inv in Er as (Er & _). rewrite wrapu_small in Er by lia. split; [lia|discriminate].
      + unfold resize_buf, resize_to in Er. cbv zeta in Er. rewrite wrapu_small in Er by lia.
        replace (smp_num s * o_bps o <=? p_max_alloc p) with true in Er by lia. discriminate.
      + unfold resize_buf, resize_to in Er. cbv zeta in Er. rewrite wrapu_small in Er by lia.
        replace (smp_num s * o_bps o <=? p_max_alloc p) with true in Er by lia. discriminate.
    - exists (o_sbuf o). auto. }
  destruct V as (sb1 & V & Lv & Vs).
  assert (Fs : exists sb2, fill_samples p (o_endian o) (bh_format_code (o_bh o)) (t_smp t) sb1 = Ok sb2).
  { unfold fill_samples. rewrite Wr. cbn [bind]. rewrite Em. cbn [bind]. rewrite upd_ok by lia. eauto. }
  destruct Fs as (sb2 & Fs).
  assert (Bd : exists o', write_body p o t = Ok o').
  { unfold write_body, write_trace_header. rewrite Mp, Eb. cbn [bind tl].
    assert (Q : exists f2, (if o_add o then write_additional p (o_endian o) ls (t_hdr t) (Z.to_nat (bh_max_num_add_tr_headers (o_bh o) - 1)) (fwrite blk (o_file o))
       else Ok (fwrite blk (o_file o))) = Ok f2).
    { destruct (o_add o); [|eauto]. apply additional_ok. intros nm' l' I. apply (Bk nm'). right. exact I. }
    destruct Q as (f2 & ->). cbn [bind]. rewrite V. cbn [bind]. rewrite Fs. cbn [bind]. eauto. }
  destruct Bd as (o' & Bd). exists o'. rewrite write_trace_body, Mn. cbn [bind]. split; [exact Bd|].
  apply write_body_inv in Bd as (r & (hb & ab & _ & _ & _ & _ & sb3 & V3 & F3) & D & A & C & Bh); [|exact Ae].
  split; [exact C|]. split; [exact Bh|]. split; [exact A|]. intros Q. rewrite Q in V3. subst sb3.
  apply fill_samples_inv in F3 as (w' & encs' & _ & _ & _ & L3 & _). exact L3.
Qed.

Lemma write_all_seen p b ls : sane_alloc p -> 2 ^ 27 <= p_max_alloc p -> safe_layouts ls -> ls <> [] ->
  forall l o, Forall (fun x => seen p b (fst x) (snd x)) l -> Forall (fun x => storable ls (fst x)) l ->
  o_min o = MNone -> o_maps o = ls -> o_good p o -> bh_format_code (o_bh o) = 5 \/ bh_format_code (o_bh o) = 6 ->
  Forall (fun x => if o_var o then byt (th_at (fst x)) 9 <> 0 else smp_num (fst x) * o_bps o <= len (o_sbuf o)) l -> at_end (o_file o) ->
  exists o', write_traces p o (map snd l) = Ok o' /\ same_cfg o o' /\ o_bh o' = o_bh o /\ at_end (o_file o') /\ (o_var o = false -> len (o_sbuf o') = len (o_sbuf o)).
Proof.
  intros HA Ha Sf Nn. induction l as [|x l IH]; intros o S St Mn Mp G Hf Rm Ae; cbn [map write_traces].
  { exists o. split; [reflexivity|]. split; [apply same_cfg_refl|]. auto. }
  inversion S as [|? ? S1 S2]; subst. inversion St as [|? ? T1 T2]; subst. inversion Rm as [|? ? R1 R2]; subst.
  destruct (write_seen p b (o_maps o) (fst x) (snd x) o HA Ha Sf Nn S1 T1 Mn eq_refl G Hf R1 Ae) as (o1 & -> & C & Bh & A1 & Lb). cbn [bind].
  pose proof C as (C1 & C2 & C3 & C4 & C5 & C6 & C7 & C8 & C9).
  destruct (IH o1) as (o2 & W & C' & Bh' & A' & Lb'); try congruence.
  - unfold o_good. rewrite Bh, C4, C5. exact G.
  - rewrite C9, C5. clear - R2 Lb. induction R2 as [|y l R R2 IH]; constructor; [|exact IH]. destruct (o_var o); [exact R|]. rewrite Lb by reflexivity. exact R.
  - exists o2. split; [exact W|]. split; [eapply same_cfg_trans; eassumption|]. split; [congruence|]. split; [exact A'|].
    intros Q. rewrite Lb' by congruence. auto.
Qed.

Lemma open_conv p w bh ls o : len (given_texts w) <= 65536 -> bin_ok bh = true -> ~ blank w bh -> w_open p w bh ls = Ok o ->
  bh_format_code (with_dflt w bh) = 5 \/ bh_format_code (with_dflt w bh) = 6 ->
  o_min o = MNone /\ o_maps o = ls /\ o_good p o /\ (bh_format_code (o_bh o) = 5 \/ bh_format_code (o_bh o) = 6) /\ at_end (o_file o) /\
  o_var o = own_count w bh /\ (o_var o = false -> len (o_sbuf o) = bh_samp_per_tr bh mod 2 ^ 16 * o_bps o) /\ 1 <= o_bps o <= 8.
Proof.
  intros Ln Hb Nb Ho Hf. destruct (w_open_bin p w bh ls o Ho Ln) as (t0 & ext & Rd & Bl & _).
  destruct (header_in_file p w bh ls [] o o Ln Hb Ho eq_refl) as (hd & od & Fh & _ & _ & _ & _ & _ & X).
  destruct Fh as [->|(Q & _)]; [|contradiction]. apply (f_equal bh_format_code) in X. cbn [set_ext_text_headers_num bh_format_code] in X.
  destruct (w_open_inv p w bh ls o Ho Ln) as (G & _ & t1 & tr & b1 & Rd1 & _ & _ & _ & _ & Mp & _ & _ & _ & Va & Md).
  assert (Mn : o_min o = MNone).
  { destruct (o_min o) eqn:Q; [reflexivity|exfalso; apply Nb, Bl; discriminate..]. }
  rewrite <- X in Hf.
  assert (B8 : 1 <= o_bps o <= 8).
  { destruct G as (_ & Bp & _). destruct Hf as [Q|Q]; rewrite Q in Bp; cbn in Bp; injection Bp as <-; lia. }
  repeat (split; [assumption|]). split; [apply Rd|]. split; [exact Va|]. split; [|exact B8].
  intros Q. destruct Md as [(M & _)|[(_ & _ & M)|(_ & M & _)]]; [contradiction| |congruence].
  apply resize_buf_inv in M as (M & _). rewrite M.
  assert (0 <= wrapu 16 (bh_samp_per_tr bh) < 2 ^ 16) by (apply wrapu_bound; lia).
  rewrite wrapu_small by (change (2 ^ 64) with (2 ^ 16 * 2 ^ 48); nia). reflexivity.
Qed.

Lemma room_rel w bh o s : o_var o = own_count w bh -> (o_var o = false -> len (o_sbuf o) = bh_samp_per_tr bh mod 2 ^ 16 * o_bps o) ->
  1 <= o_bps o -> room w bh s <-> (if o_var o then byt (th_at s) 9 <> 0 else smp_num s * o_bps o <= len (o_sbuf o)).
Proof.
  intros V L B. unfold room. rewrite <- V. destruct (o_var o); [tauto|]. rewrite L by reflexivity. split; nia.
Qed.

Lemma converts p b w bh ls s l fuel o :
  p_left_first p = true -> pow_typed p -> sane_alloc p -> 2 ^ 27 <= p_max_alloc p ->
  bytes b -> len b < 2 ^ 63 -> old_rev b -> isegd_open p b [] = Ok s ->
  visits p s l -> Forall (fun x => plain_trace b (fst x)) l ->
  safe_layouts ls -> ls <> [] -> len (given_texts w) <= 65536 -> bin_ok bh = true -> ~ blank w bh ->
  bh_format_code (with_dflt w bh) = 5 \/ bh_format_code (with_dflt w bh) = 6 ->
  w_open p w bh ls = Ok o -> Forall (fun x => storable ls (fst x) /\ room w bh (fst x)) l -> (List.length l <= fuel)%nat ->
  exists c, convert p b w bh ls fuel = Ok c.
Proof.
  intros Hp Pw HA Ha Hb Hl Hr Ho V F HS Nn Ln Hbin Nb Hf Eo St Lf.
  pose proof (all_seen p b s l Hp Pw Hb Hl Hr Ho V F) as S.
  destruct (open_conv p w bh ls o Ln Hbin Nb Eo Hf) as (O1 & O2 & O3 & O4 & O5 & O6 & O7 & O8).
  unfold convert. rewrite Ho. cbn [bind]. rewrite Eo. cbn [bind]. rewrite (loop_is p s l V) by exact Lf.
  destruct (write_all_seen p b ls HA Ha HS Nn l o S) as (o' & -> & _); auto.
  - rewrite Forall_forall in *. intros x I. apply St, I.
  - rewrite Forall_forall in *. intros x I. apply (room_rel w bh o); [assumption..|lia|]. apply St, I.
  - cbn [bind]. eauto.
Qed.

Lemma write_no_room p b ls s t o : sane_alloc p -> safe_layouts ls -> ls <> [] -> seen p b s t -> storable ls s ->
  o_min o = MNone -> o_maps o = ls -> o_good p o -> bh_format_code (o_bh o) = 5 \/ bh_format_code (o_bh o) = 6 ->
  ~ (if o_var o then byt (th_at s) 9 <> 0 else smp_num s * o_bps o <= len (o_sbuf o)) ->
  write_trace p o t = UB.
Proof.
  intros HA Sf Nn S St Mn Mp G Hf Rm.
  destruct G as ((wr & Wr) & Bp & _).
  assert (Ep : o_bps o = sample_width (bh_format_code (o_bh o))).
  { destruct Hf as [Q|Q]; rewrite Q in *; cbn in Bp |- *; injection Bp as <-; reflexivity. }
  destruct ls as [|[nm l] ls]; [congruence|].
  assert (Bk : forall nm' l', In (nm', l') ((nm, l) :: ls) -> exists blk, hdr_block p (o_endian o) l' (t_hdr t) = Ok blk).
  { intros nm' l' I. apply (block_ok p (o_endian o) b s t); [exact (Sf nm' l' I)|exact S|]. intros en Ie. exact (St nm' l' en I Ie). }
  destruct (Bk nm l (or_introl eq_refl)) as (blk & Eb).
  destruct (enc_len p (o_endian o) _ wr Hf Wr (t_smp t)) as (encs & Em & Le).
  pose proof S as (_ & _ & _ & _ & Sn & Ls & Rs & _). rewrite Ls, <- Ep in Le.
  rewrite write_trace_body, Mn. cbn [bind]. unfold write_body, write_trace_header. rewrite Mp, Eb. cbn [bind tl].
  assert (Q : exists f2, (if o_add o then write_additional p (o_endian o) ls (t_hdr t) (Z.to_nat (bh_max_num_add_tr_headers (o_bh o) - 1)) (fwrite blk (o_file o))
     else Ok (fwrite blk (o_file o))) = Ok f2).
  { destruct (o_add o); [|eauto]. apply additional_ok. intros nm' l' I. apply (Bk nm'). right. exact I. }
  destruct Q as (f2 & ->). cbn [bind]. destruct (o_var o).
  - assert (Z0 : byt (th_at s) 9 = 0) by lia. rewrite Z0 in Sn. unfold var_buf, get_req. rewrite Sn. reflexivity.
  - cbn [bind]. unfold fill_samples. rewrite Wr. cbn [bind]. rewrite Em. cbn [bind]. unfold upd.
    replace (0 + len (concat encs) <=? len (o_sbuf o)) with false by lia. rewrite andb_false_r. reflexivity.
Qed.

Lemma write_app p : forall ts1 ts2 o o1, write_traces p o ts1 = Ok o1 -> write_traces p o (ts1 ++ ts2) = write_traces p o1 ts2.
Proof.
  induction ts1 as [|t ts1 IH]; intros ts2 o o1 E; cbn [write_traces app] in *; [congruence|].
  destruct (write_trace p o t) as [o2| |]; cbn [bind] in *; try discriminate. apply IH, E.
Qed.

Lemma no_room p b w bh ls s l1 x l2 fuel o :
  p_left_first p = true -> pow_typed p -> sane_alloc p -> 2 ^ 27 <= p_max_alloc p ->
  bytes b -> len b < 2 ^ 63 -> old_rev b -> isegd_open p b [] = Ok s ->
  visits p s (l1 ++ x :: l2) -> Forall (fun x => plain_trace b (fst x)) (l1 ++ x :: l2) ->
  safe_layouts ls -> ls <> [] -> len (given_texts w) <= 65536 -> bin_ok bh = true -> ~ blank w bh ->
  bh_format_code (with_dflt w bh) = 5 \/ bh_format_code (with_dflt w bh) = 6 ->
  w_open p w bh ls = Ok o -> Forall (fun x => storable ls (fst x) /\ room w bh (fst x)) l1 -> storable ls (fst x) -> ~ room w bh (fst x) ->
  (List.length (l1 ++ x :: l2) <= fuel)%nat ->
  convert p b w bh ls fuel = UB.
Proof.
  intros Hp Pw HA Ha Hb Hl Hr Ho V F HS Nn Ln Hbin Nb Hf Eo St Sx Rx Lf.
  pose proof (all_seen p b s _ Hp Pw Hb Hl Hr Ho V F) as S. apply Forall_app in S as (S1 & S2). inversion S2 as [|? ? S3 _]; subst.
  destruct (open_conv p w bh ls o Ln Hbin Nb Eo Hf) as (O1 & O2 & O3 & O4 & O5 & O6 & O7 & O8).
  unfold convert. rewrite Ho. cbn [bind]. rewrite Eo. cbn [bind]. rewrite (loop_is p s _ V) by exact Lf.
  destruct (write_all_seen p b ls HA Ha HS Nn l1 o S1) as (o' & W & C & Bh & A & Lb); auto.
  - rewrite Forall_forall in *. intros y I. apply St, I.
  - rewrite Forall_forall in *. intros y I. apply (room_rel w bh o); [assumption..|lia|]. apply St, I.
  - rewrite map_app. cbn [map]. rewrite (write_app p _ _ _ _ W). cbn [write_traces].
    pose proof C as (C1 & C2 & C3 & C4 & C5 & C6 & C7 & C8 & C9).
    rewrite (write_no_room p b ls (fst x) (snd x) o'); auto; try congruence.
    + unfold o_good. rewrite Bh, C4, C5. exact O3.
    + intros Q. apply Rx. apply (room_rel w bh o'); [congruence| |lia|exact Q]. intros Q1. rewrite Lb, C5 by congruence. apply O7. congruence.
Qed.

(** Headers that cannot be stored. *)
Lemma fields_refused p e h : forall l blk, (exists en d, In en l /\ hget h (e_name en) = Some (VDbl d)) ->
  forall blk', wr_fields p e l h blk <> Ok blk'.
Proof.
  induction l as [|a l IH]; intros blk (en & d & I & E) blk' Q; [destruct I|]. cbn [wr_fields] in Q.
  destruct (wr_field p e (e_type a) (hget h (e_name a))) as [x| |] eqn:Ex; cbn [bind] in Q; try discriminate.
  destruct (upd blk (e_off a) x); cbn [bind] in Q; try discriminate.
  destruct I as [->|I]; [|exact (IH _ ltac:(eauto) _ Q)]. rewrite E in Ex. discriminate.
Qed.

Lemma not_storable p b w bh ls nm lay rest s x l fuel en :
  p_left_first p = true -> pow_typed p ->
  bytes b -> len b < 2 ^ 63 -> old_rev b -> isegd_open p b [] = Ok s ->
  visits p s l -> Forall (fun x => plain_trace b (fst x)) l -> In x l ->
  ls = (nm, lay) :: rest -> len (given_texts w) <= 65536 -> In en lay -> In (e_name en) (fixed_points (fst x)) -> forall c, convert p b w bh ls fuel <> Ok c.
Proof.
  intros Hp Pw Hb Hl Hr Ho V F Ix El Ln Ie If c E.
  pose proof (all_seen p b s _ Hp Pw Hb Hl Hr Ho V F) as S.
  unfold convert in E. rewrite Ho in E. cbn [bind] in E.
  destruct (w_open p w bh ls) as [o0|e|] eqn:Eo; cbn [bind] in E; try discriminate.
  destruct (conv_loop p fuel s o0) as [o1|e|] eqn:Ec; cbn [bind] in E; try discriminate. clear E.
  pose proof (loop_writes p s l V _ _ _ Ec) as Hw.
  destruct (w_open_inv p w bh ls o0 Eo Ln) as (_ & _ & t1 & tr & b1 & Rd1 & _ & _ & _ & _ & Mp & _).
  destruct Rd1 as (_ & _ & Ae & _).
  clear - S Ix Hw Mp El Ie If.
  assert (Q : forall o t o', write_trace p o t = Ok o' -> o_maps o' = o_maps o).
  { clear. intros o t o' E. rewrite write_trace_body in E. 
    assert (B : forall o, write_body p o t = Ok o' -> o_maps o' = o_maps o).
    { clear. intros o E. unfold write_body in E. repeat (apply bind_ok in E as (? & _ & E)). injection E as <-. reflexivity. }
    destruct (o_min o) eqn:Em; cbn [bind] in E; [apply B, E|..];
      apply bind_ok in E as (o2 & E2 & E); apply B in E; rewrite E; unfold set_min in E2;
      (destruct (negb _); [injection E2 as <-; reflexivity|]);
      repeat first [apply bind_ok in E2 as (? & _ & E2) | match type of E2 with (if ?c then _ else _) = _ => destruct c; [discriminate|] end | progress cbv zeta in E2];
      injection E2 as <-; reflexivity. }
  revert o0 Mp Hw. induction S as [|y l Sy S IH]; intros o0 Mp Hw; [destruct Ix|]. cbn [map write_traces] in Hw.
  destruct (write_trace p o0 (snd y)) as [o2| |] eqn:Ew; cbn [bind] in Hw; try discriminate.
  destruct Ix as [->|Ix]; [|apply (IH Ix o2); [rewrite (Q _ _ _ Ew); exact Mp|exact Hw]].
  destruct Sy as (_ & _ & S3 & _). destruct (S3 _ If) as (d & Ed).
  rewrite write_trace_body in Ew. apply bind_ok in Ew as (o3 & E3 & Ew).
  assert (M3 : o_maps o3 = o_maps o0).
  { destruct (o_min o0); [injection E3 as <-; reflexivity|..];
      unfold set_min in E3; (destruct (negb _); [injection E3 as <-; reflexivity|]);
      repeat first [apply bind_ok in E3 as (? & _ & E3) | match type of E3 with (if ?c then _ else _) = _ => destruct c; [discriminate|] end | progress cbv zeta in E3];
      injection E3 as <-; reflexivity. }
  unfold write_body, write_trace_header in Ew. rewrite M3, Mp, El in Ew. apply bind_ok in Ew as (f1 & Ew & _).
  apply bind_ok in Ew as (blk & Ew & _). unfold hdr_block in Ew. eapply fields_refused; [|exact Ew]. eauto.
Qed.

(** ** The default layout *)
Lemma state_bytes p b s : p_left_first p = true -> bytes b -> len b < 2 ^ 63 -> reader p b s -> bytes (th_at s) /\ bytes (te_at s).
Proof.
  intros Hp Hb Hl R. pose proof (reader_invariant p b s Hp Hb Hl R) as I.
  unfold th_at, te_at. rewrite (ri_data _ _ I). split; apply bytes_slice, Hb.
Qed.

Ltac in_ints E :=
  repeat match type of E with
  | In _ (_ ++ _) => apply in_app_or in E as [E|E]
  | In _ (if ?c then _ else _) => destruct c eqn:?
  | In _ [] => destruct E
  | In _ (_ :: _) => destruct E as [E|E]; [try discriminate|]
  end.
Lemma ffid_only s z : integer_for s "FFID" z -> z = if big (th_at s) 17 3 =? 0 then dec (th_at s) 0 4 else big (th_at s) 17 3.
Proof.
  intros [E|[E _]]; [|destruct E; left; reflexivity]. unfold integers_of, receiver_int in E. in_ints E; congruence.
Qed.
Lemma chan_only s z : integer_for s "CHAN" z -> z = dec (th_at s) 8 4.
Proof.
  intros [E|[E _]]; [|destruct E; do 3 right; left; reflexivity]. unfold integers_of, receiver_int in E. in_ints E; congruence.
Qed.
Lemma samp_num_only s z : integer_for s "SAMP_NUM" z -> z = smp_num s.
Proof.
  unfold smp_num. intros [E|[E ->]].
  - unfold integers_of, receiver_int in E. in_ints E; try congruence.
  - destruct (byt (th_at s) 9 =? 0) eqn:Q; [reflexivity|]. destruct E. unfold integers_of. rewrite Q.
    rewrite !map_app, !in_app_iff. right. right. right. left. right. left. reflexivity.
Qed.

Lemma default_conv : forall p b w bh s l1 x l2 fuel c,
  p_left_first p = true -> pow_typed p -> sane_alloc p -> convertible p b w bh default_trace_header s (l1 ++ x :: l2) ->
  convert p b w bh default_trace_header fuel = Ok c ->
  exists o, order_asked (bh_endianness bh) = Some o /\
    let pos := 3600 + 3200 * len (ext_texts w) + conv_sizes (own_count w bh) (bh_samp_per_tr bh mod 2 ^ 16) (240 * header_count w bh)
                 (bh_format_code (with_dflt w bh)) l1 in
    let th := th_at (fst x) in
    unsg c o (pos + 9) (pos + 12) = (if big th 17 3 =? 0 then dec th 0 4 else big th 17 3) /\
    unsg c o (pos + 13) (pos + 16) = dec th 8 4 /\
    unsg c o (pos + 115) (pos + 116) = smp_num (fst x) mod 2 ^ 16.
Proof.
  intros p b w bh s l1 x l2 fuel c Hp Pw HA C E.
  destruct (converted p b w bh default_trace_header s (l1 ++ x :: l2) fuel c Hp Pw HA) as (o & Or & K & _); try apply C; [exact E|]. cbv zeta in *.
  exists o. split; [exact Or|]. destruct (K l1 x l2 eq_refl) as (H & _). clear K.
  set (pos := 3600 + _ + _) in *. clearbody pos.
  assert (Bt : bytes (th_at (fst x)) /\ bytes (te_at (fst x))).
  { destruct C as (Hb & Hl & Hr & Ho & V & F & _). pose proof (visits_states p b s _ V (reader_open p b s Hr Ho) F) as S.
    apply Forall_app in S as (_ & S). inversion S as [|? ? (R & _) _]; subst. exact (state_bytes p b _ Hp Hb Hl R). }
  destruct Bt as (Bt & Be).
  assert (N : 0 <= 0 < header_count w bh) by (clear; destruct w; cbn [header_count]; lia).
  assert (G : forall k off t z, In (off, (k, t)) (snd (hd ("", []) default_trace_header)) ->
    (forall z', integer_for (fst x) k z' -> z' = z) -> (match t with I16 | I32 => True | _ => False end) ->
    unsg c o (pos + off + 1) (pos + off + width t) = as_unsigned (Z.to_nat (width t)) z).
  { intros k off t z I U T. destruct (H 0 (fst (hd ("", []) default_trace_header)) (snd (hd ("", []) default_trace_header)) (off, (k, t)) N eq_refl I) as (z' & Iz & St).
    cbn [e_name e_type e_off fst snd] in *. apply U in Iz. subst z'. destruct St as (_ & _ & St). unfold unsg, span.
    replace (pos + 240 * 0 + off) with (pos + off) in St by lia.
    replace (pos + off + 1 - 1) with (pos + off) by lia. replace (pos + off + width t - (pos + off + 1) + 1) with (width t) by lia.
    destruct t; try contradiction; exact St. }
  pose proof (fun i n => dec_small (th_at (fst x)) i n Bt) as D. pose proof (fun i n => big_small (th_at (fst x)) i n Bt) as Bg.
  pose proof (big_lt (th_at (fst x)) 17 3 Bt) as B3. change (256 ^ Z.of_nat 3) with (2 ^ 24) in B3.
  split; [|split].
  - replace (pos + 9) with (pos + 8 + 1) by lia. replace (pos + 12) with (pos + 8 + width I32) by (cbn [width]; lia). rewrite (G "FFID" 8 I32 _ ltac:(cbn; tauto) (ffid_only (fst x)) I). 
    change (Z.to_nat (width I32)) with 4%nat. apply Z.mod_small. change (256 ^ Z.of_nat 4) with (2 ^ 32).
    destruct (_ =? _); [apply D; lia|lia].
  - replace (pos + 13) with (pos + 12 + 1) by lia. replace (pos + 16) with (pos + 12 + width I32) by (cbn [width]; lia). rewrite (G "CHAN" 12 I32 _ ltac:(cbn; tauto) (chan_only (fst x)) I).
    change (Z.to_nat (width I32)) with 4%nat. apply Z.mod_small. change (256 ^ Z.of_nat 4) with (2 ^ 32). apply D; lia.
  - replace (pos + 115) with (pos + 114 + 1) by lia. replace (pos + 116) with (pos + 114 + width I16) by (cbn [width]; lia). rewrite (G "SAMP_NUM" 114 I16 _ ltac:(cbn; tauto) (samp_num_only (fst x)) I). reflexivity.
Qed.

(** ** Exact samples *)
Lemma rne32_same v : is_flt v -> flt_finite v = true -> rne32 (flt_val v) = flt_val v /\ (Rabs (rne32 (flt_val v)) < powerRZ 2 128)%R.
Proof.
  intros D F. pose proof (f_dec_valid v D) as V. pose proof (f_dec_val v D F) as Ev.
  assert (G : rne32 (flt_val v) = flt_val v).
  { rewrite <- Ev. unfold rne32. assert (Prec_gt_0 24) as HP by exact prec24. apply round_generic; [apply valid_rnd_N|]. apply (sf_generic 24 128 _ V). }
  split; [exact G|]. rewrite G, <- Ev, pw_powerRZ. apply (sf_lt_emax 24 128 _ V).
Qed.

Lemma exact_sample p o fmt d x v bs : holds d x -> stored_sample p o fmt d bs -> is_flt v -> flt_finite v = true -> flt_val v = x ->
  (fmt = 5 -> flt_finite (uval o bs) = true /\ flt_val (uval o bs) = x) /\ (fmt = 6 -> holds (uval o bs) x).
Proof.
  intros H (_ & _ & S) D F E. split; intros ->.
  - destruct S as (_ & S & _). destruct (S x H) as (S1 & _). subst x. destruct (rne32_same v D F) as (Q & L). destruct (S1 L) as (A & B & _).
    rewrite Q in B. split; assumption.
  - rewrite S. exact H.
Qed.
