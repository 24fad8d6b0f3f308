(** Reading a SEG-D file of which only a beginning is there (C109). *)
From Coq Require Import Lia.
From Verif Require Import BaseFacts Platform Fp TraceHdr SegyTypes SegyCodec ISegy OSegy SegdTypes SegdSpec ISegd OSegd StepX OSegdX Procs CtorX SegdFileFacts SegdIoFacts SegdFileProps DRefuseFacts CtorFacts DiskDSpec.
Local Open Scope Z_scope.

Section Cut.
Context (c : list Z) (q : Z) (Hq : 0 <= q <= len c).
Definition cc : list Z := firstn (Z.to_nat q) c.
Lemma len_cc : len cc = q.
Proof. unfold cc, len in *. rewrite firstn_length. lia. Qed.

(** A step of a reader on the complete file, from [pos], and on the beginning. *)
Definition near {A} (st : bool) (pos : Z) (fu cu : outcome (A * file)) : Prop :=
  forall a f', fu = Ok (a, f') -> exists pos', f' = mkFile c pos' /\ pos <= pos' /\
    ((cu = Ok (a, mkFile cc pos') /\ (st = true -> pos' <= q \/ pos' = pos)) \/ (q < pos' /\ cu = Throw EIO)).
Lemma near_bind {A B} st pos (fu cu : outcome (A * file)) (k l : A * file -> outcome (B * file)) : near st pos fu cu ->
  (forall a pos', pos <= pos' -> near st pos' (k (a, mkFile c pos')) (l (a, mkFile cc pos'))) -> near st pos (bind fu k) (bind cu l).
Proof.
  intros N K b f' H. destruct fu as [[a f]|e|]; cbn [bind] in H; [|discriminate..].
  destruct (N a f eq_refl) as (p1 & -> & L1 & O1). destruct (K a p1 L1 b f' H) as (p2 & -> & L2 & O2). exists p2. split; [reflexivity|]. split; [lia|].
  destruct O1 as [(-> & T1)|(Q & ->)]; [|right; split; [lia|reflexivity]]. cbn [bind]. destruct O2 as [(E & T2)|O2]; [|right; exact O2].
  left. split; [exact E|]. intro S. specialize (T1 S). specialize (T2 S). lia.
Qed.
Lemma near_pure {A B} st pos (o : outcome A) (k l : A -> outcome (B * file)) :
  (forall a, o = Ok a -> near st pos (k a) (l a)) -> near st pos (bind o k) (bind o l).
Proof. intros K b f' H. destruct o as [a|e|]; cbn [bind] in *; [|discriminate..]. exact (K a eq_refl b f' H). Qed.
Lemma near_ret {A} st pos (a : A) : near st pos (Ok (a, mkFile c pos)) (Ok (a, mkFile cc pos)).
Proof. intros b f' H. injection H as <- <-. exists pos. split; [reflexivity|]. split; [lia|]. left. split; [reflexivity|auto]. Qed.
Lemma near_none {A} st pos (o o' : outcome (A * file)) : (forall x, o <> Ok x) -> near st pos o o'.
Proof. intros H a f E. destruct (H _ E). Qed.
Lemma near_fread st n pos : 0 <= n -> 0 <= pos -> near st pos (fread n (mkFile c pos)) (fread n (mkFile cc pos)).
Proof.
  intros Hn Hp a f'. unfold fread. destruct (Z.eqb_spec n 0) as [->|N0].
  - apply near_ret.
  - cbn [fpos fdata]. rewrite len_cc. destruct (Z.leb_spec (pos + n) (len c)); [|discriminate]. intro H0. injection H0 as <- <-.
    exists (pos + n). split; [reflexivity|]. split; [lia|]. destruct (Z.leb_spec (pos + n) q).
    + left. split; [|auto]. unfold cc, slice. do 2 f_equal. rewrite skipn_firstn_comm, firstn_firstn. f_equal. lia.
    + right. auto.
Qed.
Lemma near_seek off pos : 0 <= off -> forall {B} (k l : file -> outcome (B * file)),
  (forall pos', pos <= pos' -> near false pos' (k (mkFile c pos')) (l (mkFile cc pos'))) ->
  near false pos (bind (fseek_cur off (mkFile c pos)) k) (bind (fseek_cur off (mkFile cc pos)) l).
Proof.
  intros Ho B k l K b f' H. unfold fseek_cur, fseek in *. cbn [fpos fdata] in *. destruct ((0 <=? pos + off) && _); cbn [bind] in *; [|discriminate].
  destruct (K (pos + off) ltac:(lia) b f' H) as (p2 & -> & L2 & O2). exists p2. split; [reflexivity|]. split; [lia|].
  destruct O2 as [(E & _)|O2]; [left; split; [exact E|discriminate]|right; exact O2].
Qed.

(** ** Headers *)
Lemma near_gN p n : forall pos m, 0 <= pos -> near false pos (rd_gN_blocks p n (mkFile c pos) m) (rd_gN_blocks p n (mkFile cc pos) m).
Proof.
  induction n as [|n IH]; intros pos m P; cbn [rd_gN_blocks]; [apply near_ret|]. apply near_bind; [apply near_fread; [unfold GEN_HDR_SIZE; lia|exact P]|].
  intros b p1 L. apply near_pure. intros [h ?] _. apply IH. lia.
Qed.
Lemma near_r3 p n : forall pos m, 0 <= pos -> near false pos (rd_r3_blocks p n (mkFile c pos) m) (rd_r3_blocks p n (mkFile cc pos) m).
Proof.
  induction n as [|n IH]; intros pos m P; cbn [rd_r3_blocks]; [apply near_ret|]. apply near_bind; [apply near_fread; [unfold GEN_HDR_SIZE; lia|exact P]|].
  intros b p1 L. apply near_pure. intros m1 _. apply IH. lia.
Qed.
(** The reader of the beginning. *)
Definition cutd (s : isegd) : isegd :=
  mkD (mkFile cc (fpos (d_file s))) (d_g1 s) (d_g2 s) (d_g3 s) (d_blocks s) (d_sets s) (d_extd s) (d_extl s) (d_layouts s) q (d_chans s) (d_read s).
Lemma near_gen p s : fdata (d_file s) = c -> 0 <= fpos (d_file s) ->
  near false (fpos (d_file s)) (read_general_headers p s) (read_general_headers p (cutd s)).
Proof.
  intros Ec P. unfold read_general_headers. cbn [cutd d_file d_g2 d_g3 d_blocks].
  replace (d_file s) with (mkFile c (fpos (d_file s))) at 2 by (rewrite <- Ec; destruct (d_file s); reflexivity). generalize dependent (fpos (d_file s)). clear Ec. intros pos P.
  assert (G : 0 <= GEN_HDR_SIZE) by (unfold GEN_HDR_SIZE; lia).
  apply near_bind; [apply near_fread; [exact G|exact P]|]. intros b p1 L1. apply near_pure. intros [g1 ?] _.
  destruct (_ =? 0); [apply near_ret|]. apply near_bind; [apply near_fread; [exact G|lia]|]. intros b2 p2 L2. apply near_pure. intros [[major minor] ?] _.
  destruct (major <? 3).
  - apply near_pure. intros [g2 ?] _. apply near_bind; [apply near_gN; lia|]. intros m p3 L3. apply near_ret.
  - apply near_pure. intros [g2 ?] _. apply near_bind; [apply near_fread; [exact G|lia]|]. intros b3 p3 L3. apply near_pure. intros [g3 ?] _.
    apply near_bind; [apply near_r3; lia|]. intros m p4 L4. apply near_ret.
Qed.
Lemma near_set p r3 pos : 0 <= pos -> near false pos (read_ch_set_hdr p r3 (mkFile c pos)) (read_ch_set_hdr p r3 (mkFile cc pos)).
Proof.
  intro P. unfold read_ch_set_hdr. apply near_bind; [apply near_fread; [destruct r3; vm_compute; discriminate|exact P]|].
  intros b p1 L. apply near_pure. intros [x ?] _. apply near_ret.
Qed.
Lemma near_sets p r3 n : forall pos, 0 <= pos -> near false pos (read_ch_sets p r3 n (mkFile c pos)) (read_ch_sets p r3 n (mkFile cc pos)).
Proof.
  induction n as [|n IH]; intros pos P; cbn [read_ch_sets]; [apply near_ret|]. apply near_bind; [apply near_set, P|]. intros x p1 L.
  apply near_bind; [apply IH; lia|]. intros xs p2 L2. apply near_ret.
Qed.
Lemma near_scans p r3 m skew n : 0 <= skew -> forall pos, 0 <= pos ->
  near false pos (read_scan_types p r3 m skew n (mkFile c pos)) (read_scan_types p r3 m skew n (mkFile cc pos)).
Proof.
  intro Hs. induction n as [|n IH]; intros pos P; cbn [read_scan_types]; [apply near_ret|]. apply near_bind; [apply near_sets, P|]. intros x p1 L.
  apply near_seek; [unfold SKEW_BLOCK_SIZE; lia|]. intros p2 L2.
  apply near_bind; [apply IH; lia|]. intros xs p3 L3. apply near_ret.
Qed.
Lemma near_blks n : forall pos, 0 <= pos -> near false pos (read_blks n (mkFile c pos)) (read_blks n (mkFile cc pos)).
Proof.
  induction n as [|n IH]; intros pos P; cbn [read_blks]; [apply near_ret|]. apply near_bind; [apply near_fread; lia|]. intros x p1 L.
  apply near_bind; [apply IH; lia|]. intros xs p2 L2. apply near_ret.
Qed.
Lemma cut_headers p s s1 : fdata (d_file s) = c -> 0 <= fpos (d_file s) -> read_headers_before_traces p s = Ok s1 ->
  fdata (d_file s1) = c /\ fpos (d_file s) <= fpos (d_file s1) /\ d_read s1 = 0 /\
  (read_headers_before_traces p (cutd s) = Ok (cutd s1) \/ (q < fpos (d_file s1) /\ read_headers_before_traces p (cutd s) = Throw EIO)).
Proof.
  intros Ec P H.
  set (body := fun (s : isegd) =>
    let* (g, f1) := read_general_headers p s in
    let '(g1, g2, g3, m) := g in
    let* _ := d_sample_reader p (g1_format_code g1) in
    let* (sets, f2) := read_scan_types p (is_rev3 g1 g2) (Z.to_nat (nsets_of g1 g2)) (skew_of g1 g2) (Z.to_nat (g1_scan_types g1)) f1 in
    let* _ := resize_to p (24 * extended_of g1 g2) in
    let* (extd, f3) := read_blks (Z.to_nat (extended_of g1 g2)) f2 in
    let* _ := resize_to p (24 * external_of g1 g2) in
    let* (extl, f4) := read_blks (Z.to_nat (external_of g1 g2)) f3 in
    Ok ((g1, g2, g3, m, sets, extd, extl), f4)).
  set (fin := fun (s : isegd) (x : gh1 * gh2 * gh3 * blkmap * list (list chset) * list (list Z) * list (list Z) * file) =>
    let '(g1, g2, g3, m, sets, extd, extl, f4) := x in
    mkD f4 g1 g2 g3 m sets extd extl (d_layouts s) (d_eod s) (sum_channels sets) 0).
  assert (E : forall s, read_headers_before_traces p s = (let* x := body s in Ok (fin s x))).
  { intro s0. unfold read_headers_before_traces, body. destruct (read_general_headers p s0) as [[[[[g1 g2] g3] m] f1]| |]; cbn [bind]; try reflexivity.
    destruct (d_sample_reader p _); cbn [bind]; try reflexivity. destruct (read_scan_types _ _ _ _ _ _) as [[sets f2]| |]; cbn [bind]; try reflexivity.
    destruct (resize_to p _); cbn [bind]; try reflexivity. destruct (read_blks _ f2) as [[extd f3]| |]; cbn [bind]; try reflexivity.
    destruct (resize_to p _); cbn [bind]; try reflexivity. destruct (read_blks _ f3) as [[extl f4]| |]; cbn [bind]; reflexivity. }
  assert (N : near false (fpos (d_file s)) (body s) (body (cutd s))).
  { unfold body. apply near_bind; [apply near_gen; assumption|]. intros [[[g1 g2] g3] m] p1 L1. apply near_pure. intros _ _.
    assert (Sk : 0 <= skew_of g1 g2) by (apply wrapu_bound; lia).
    apply near_bind; [apply near_scans; [exact Sk|lia]|]. intros sets p2 L2. apply near_pure. intros _ _.
    apply near_bind; [apply near_blks; lia|]. intros extd p3 L3. apply near_pure. intros _ _.
    apply near_bind; [apply near_blks; lia|]. intros extl p4 L4. apply near_ret. }
  rewrite E in H. rewrite E. destruct (body s) as [[x f']| |] eqn:Eb; cbn [bind] in H; [|discriminate..]. injection H as <-.
  destruct (N x f' eq_refl) as (p' & -> & L & O). destruct x as [[[[[[g1 g2] g3] m] sets] extd] extl]. cbn [fin d_file fdata fpos d_read].
  split; [reflexivity|]. split; [exact L|]. split; [reflexivity|]. destruct O as [(-> & _)|(Q & ->)]; cbn [bind]; [left; reflexivity|right; auto].
Qed.

(** ** Traces *)
Definition body (p : platform) (s : isegd) (f : file) : outcome (trace * file) :=
  let* (buf, f1) := fread TRACE_HEADER_SIZE f in
  let* (h0, _) := rd_trace_header p buf in
  let* (h, f2) := read_trace_header_ext p s h0 f1 in
  let* (smp, f3) := read_trace_samples p s h f2 in
  Ok (mkTrace h smp, f3).
Lemma read_body p s : d_read_trace p s = (let* (t, f3) := body p s (d_file s) in
  if d_chans s =? wrapu 64 (d_read s + 1)
  then let* s2 := (if has_record (d_set s f3 [] 0 0) then read_headers_before_traces p (d_set s f3 [] 0 0) else Ok (d_set s f3 [] 0 0)) in Ok (t, s2)
  else Ok (t, d_set s f3 (d_sets s) (d_chans s) (wrapu 64 (d_read s + 1)))).
Proof.
  unfold d_read_trace, body. destruct (fread _ _) as [[buf f1]| |]; cbn [bind]; try reflexivity.
  destruct (rd_trace_header p buf) as [[h0 ?]| |]; cbn [bind]; try reflexivity.
  destruct (read_trace_header_ext p s h0 f1) as [[h f2]| |]; cbn [bind]; try reflexivity.
  destruct (read_trace_samples p s h f2) as [[smp f3]| |]; cbn [bind]; reflexivity.
Qed.
Lemma near_exts p major ls n : forall i pos h, 0 <= pos -> near true pos (rd_exts p major ls n i (mkFile c pos) h) (rd_exts p major ls n i (mkFile cc pos) h).
Proof.
  induction n as [|n IH]; intros i pos h P; cbn [rd_exts]; [apply near_ret|]. apply near_bind; [apply near_fread; [vm_compute; discriminate|exact P]|].
  intros b p1 L. apply near_pure. intros h1 _. apply IH. lia.
Qed.
Lemma near_body p s pos : 0 <= pos -> near true pos (body p s (mkFile c pos)) (body p (cutd s) (mkFile cc pos)) /\
  (forall x, body p s (mkFile c pos) = Ok x -> pos < fpos (snd x)).
Proof.
  intro P.
  assert (R : forall buf pos, 0 <= pos -> near true pos
    (let* (h0, _) := rd_trace_header p buf in let* (h, f2) := read_trace_header_ext p s h0 (mkFile c pos) in let* (smp, f3) := read_trace_samples p s h f2 in Ok (mkTrace h smp, f3))
    (let* (h0, _) := rd_trace_header p buf in let* (h, f2) := read_trace_header_ext p (cutd s) h0 (mkFile cc pos) in let* (smp, f3) := read_trace_samples p (cutd s) h f2 in Ok (mkTrace h smp, f3))).
  { clear pos P. intros buf pos P. apply near_pure. intros [h0 ?] _. apply near_bind.
    { unfold read_trace_header_ext. destruct (hidx h0 _) as [v h1]. apply near_pure. intros n _. apply near_exts, P. }
    intros h p2 L2. apply near_bind; [|intros smp p3 L3; apply near_ret].
    unfold read_trace_samples. apply near_pure. intros x _. apply near_pure. intros n _. apply near_pure. intros [bits rs] _. apply near_pure. intros _ _.
    apply near_bind; [apply near_fread; [apply Z.div_pos; [apply wrapu_bound|]; lia|lia]|]. intros b p3 L3. apply near_pure. intros _ _. apply near_pure. intros [smp ?] _. apply near_ret. }
  unfold body. split.
  - apply near_bind; [apply near_fread; [vm_compute; discriminate|exact P]|]. intros b p1 L1. apply R. lia.
  - intros [t f] H. unfold fread in H at 1. change (TRACE_HEADER_SIZE =? 0) with false in H. cbv iota in H. cbn [fpos fdata] in H.
    destruct (_ <=? len c); cbn [bind] in H; [|discriminate]. destruct (R _ (pos + TRACE_HEADER_SIZE) ltac:(unfold TRACE_HEADER_SIZE; lia) t f H) as (p' & -> & L & _).
    cbn [snd fpos]. unfold TRACE_HEADER_SIZE in L. lia.
Qed.

Lemma cut_body p s t p3 : fdata (d_file s) = c -> 0 <= fpos (d_file s) -> body p s (d_file s) = Ok (t, mkFile c p3) ->
  (q < p3 -> d_read_trace p (cutd s) = Throw EIO) /\
  (p3 <= q -> d_chans s <> wrapu 64 (d_read s + 1) -> forall s1, d_read_trace p s = Ok (t, s1) -> d_read_trace p (cutd s) = Ok (t, cutd s1)).
Proof.
  intros Ec P E. destruct (near_body p s (fpos (d_file s)) P) as (N & Mv).
  replace (mkFile c (fpos (d_file s))) with (d_file s) in N, Mv by (rewrite <- Ec; destruct (d_file s); reflexivity).
  specialize (Mv _ E). cbn [snd fpos] in Mv. destruct (N _ _ E) as (p' & E' & L & O). injection E' as <-.
  rewrite !read_body. change (d_file (cutd s)) with (mkFile cc (fpos (d_file s))). split.
  - intro Q. destruct O as [(_ & O)|(_ & ->)]; [specialize (O eq_refl); lia|reflexivity].
  - intros Q Ch s1. destruct O as [(-> & _)|(O & _)]; [|lia]. rewrite E. cbn [bind]. change (d_chans (cutd s)) with (d_chans s). change (d_read (cutd s)) with (d_read s).
    destruct (Z.eqb_spec (d_chans s) (wrapu 64 (d_read s + 1))); [congruence|]. intro H. injection H as <-. reflexivity.
Qed.
End Cut.

(** ** A record *)
Lemma here_pos D q l : here D q l -> q = len D - len l.
Proof. intros (a & -> & ->). rewrite len_app. lia. Qed.
Lemma body_chans p s s' f : d_g1 s = d_g1 s' -> d_g2 s = d_g2 s' -> d_layouts s = d_layouts s' -> d_sets s = d_sets s' -> body p s f = body p s' f.
Proof. intros E1 E2 E3 E4. unfold body, read_trace_header_ext, read_trace_samples, curr_ch_set. rewrite E1, E2, E3, E4. reflexivity. Qed.
Lemma record_body p D s r k t x l : plat_ok p -> rec_good p r -> in_rec D s r k (trc_bytes x ++ l) -> trace_in r t x ->
  exists q', here D q' l /\ body p s (d_file s) = Ok (mkTrace (trace_hdr_seen x) (t_smp t), mkFile D q').
Proof.
  intros (Hp & Hf & Ha) G I T. pose proof (in_rec_isst _ _ _ _ _ _ I G) as Is. destruct G as (G1 & G2 & G3 & G4).
  destruct I as (q0 & I1 & I2 & _). set (s0 := d_set s (d_file s) (d_sets s) 0 0).
  destruct (read_trace_body p s0 r t x D q0 l Hp Ha G1 G3 G4 Is T I1 I2) as (q' & Q & E). exists q'. split; [exact Q|].
  rewrite read_body in E. change (d_file s0) with (d_file s) in E. change (d_chans s0) with 0 in E. change (d_read s0) with 0 in E.
  change (0 =? wrapu 64 (0 + 1)) with false in E. cbv iota in E.
  rewrite (body_chans p s s0); try reflexivity. destruct (body p s0 (d_file s)) as [[t' f3]| |]; cbn [bind] in E; [|discriminate..].
  injection E as E1 E2. rewrite E1, E2. reflexivity.
Qed.

Lemma cut_traces p r D q : plat_ok p -> 0 <= q < len D -> forall tcs s k, at_rec p D s r k tcs [] ->
  exists j sj, (j < List.length tcs)%nat /\ d_take p j (cutd D q s) = Ok (tc_seen (firstn j tcs), sj) /\ d_has_trace sj = true /\ d_read_trace p sj = Throw EIO /\
    (j <> 0%nat -> fpos (d_file s) + len (tc_bytes (firstn j tcs)) <= q) /\ q < fpos (d_file s) + len (tc_bytes (firstn (S j) tcs)).
Proof.
  intros Hp Hq tcs. induction tcs as [|[t x] tcs IH]; intros s k A.
  { destruct A as (_ & _ & _ & _ & N & _). congruence. }
  pose proof (at_rec_more _ _ _ _ _ _ _ A) as (M & _). pose proof A as (G & F & Hk & B & _ & Hb & I). inversion F as [|? ? F1 F2]; subst.
  unfold tc_bytes in I. cbn [map concat snd] in I. rewrite <- app_assoc in I. fold (tc_bytes tcs) in I.
  destruct (record_body p D s r k t x _ Hp G I F1) as (q' & Q & Eb).
  pose proof I as (q0 & I1 & I2 & _). pose proof (here_pos _ _ _ I2) as P0. pose proof (here_pos _ _ _ Q) as P1. rewrite len_app in P0.
  assert (P2 : 0 <= q0) by (destruct I2 as (a & _ & ->); apply len_nonneg).
  assert (Hq' : 0 <= q <= len D) by lia.
  destruct (cut_body D q Hq' p s _ q' ltac:(rewrite I1; reflexivity) ltac:(rewrite I1; exact P2) Eb) as (C1 & C2).
  assert (T1 : forall n, tc_bytes (firstn (S n) ((t, x) :: tcs)) = trc_bytes x ++ tc_bytes (firstn n tcs)) by reflexivity.
  rewrite I1. cbn [fat fpos].
  destruct (Z.lt_ge_cases q q') as [L|L].
  - exists 0%nat, (cutd D q s). split; [cbn [List.length]; lia|]. split; [reflexivity|]. split; [exact M|]. split; [exact (C1 L)|]. split; [congruence|].
    rewrite T1. cbn [firstn]. rewrite len_app. change (len (tc_bytes [])) with 0. lia.
  - assert (N : tcs <> []).
    { intro E. subst tcs. rewrite app_nil_r in P1. change (len (tc_bytes [])) with 0 in P1. lia. }
    assert (Ln : len tcs > 0) by (destruct tcs; [congruence|rewrite len_cons; pose proof (len_nonneg tcs); lia]). rewrite len_cons in Hk.
    destruct (step_in p D s r k t x _ Hp G I F1 B ltac:(lia) ltac:(lia)) as (s1 & E1 & I' & _).
    assert (Ch : d_chans s <> wrapu 64 (d_read s + 1)).
    { destruct I as (? & _ & _ & _ & _ & _ & _ & _ & _ & _ & -> & ->). rewrite wrapu_small by lia. lia. }
    specialize (C2 L Ch s1 E1).
    destruct (IH s1 (k + 1)) as (j & sj & J1 & J2 & J3 & J4 & J5 & J6).
    { split; [exact G|]. split; [exact F2|]. split; [lia|]. split; [lia|]. split; [exact N|]. split; [exact Hb|exact I']. }
    assert (E3 : fpos (d_file s1) = q').
    { destruct I' as (q1 & -> & H1 & _). cbn [fat fpos]. rewrite (here_pos _ _ _ H1). rewrite P1. reflexivity. }
    rewrite E3 in *. exists (S j), sj. split; [cbn [List.length]; lia|]. split.
    { cbn [d_take]. rewrite C2. cbn [bind]. rewrite J2. reflexivity. }
    split; [exact J3|]. split; [exact J4|]. rewrite !T1, !len_app. split; [|lia].
    intros _. destruct (Nat.eq_dec j 0) as [->|Nj]; [|specialize (J5 Nj); lia]. cbn [firstn]. change (len (tc_bytes [])) with 0. lia.
Qed.

(** The reader of a beginning of the record. *)
Lemma tc_ends_mono tcs : forall i j, (i <= j)%nat -> len (tc_bytes (firstn i tcs)) <= len (tc_bytes (firstn j tcs)).
Proof.
  intros i j L. replace i with (Nat.min i j) by lia. rewrite <- firstn_firstn.
  rewrite <- (firstn_skipn i (firstn j tcs)) at 2. unfold tc_bytes. rewrite map_app, concat_app, len_app. pose proof (len_nonneg (concat (map (fun x => trc_bytes (snd x)) (skipn i (firstn j tcs))))). lia.
Qed.
Lemma cut_record p r tcs q : plat_ok p -> p_chans0 p = 0 -> rec_good p r -> in_order (map fst3 (r_N r)) ->
  Forall (fun h => block_fields (gN_block_num (fst3 h)) = None) (r_N r) ->
  Forall (tc_in r) tcs -> len tcs = r_chans r -> tcs <> [] -> len (fr_bytes (r, tcs)) < 2 ^ 63 -> 0 <= q <= len (fr_bytes (r, tcs)) ->
  record_cut p r tcs (firstn (Z.to_nat q) (fr_bytes (r, tcs))).
Proof.
  intros Hp Hc G Ho Bf F Ln N LD Hq. set (D := fr_bytes (r, tcs)) in *.
  assert (El : len D = ends r tcs (List.length tcs)).
  { unfold ends, D, fr_bytes. cbn [fst snd]. rewrite firstn_all, len_app. reflexivity. }
  assert (Lc : len (firstn (Z.to_nat q) D) = q) by (unfold len in *; rewrite firstn_length; lia).
  unfold record_cut. rewrite Lc. split; [lia|].
  destruct (record_round_trip p r (map fst3 (r_N r)) tcs Hp Hc G Ho (Permutation.Permutation_refl _) Bf F Ln LD)
    as (w & w' & d0 & ts' & d1 & _ & _ & Ed & E0 & _ & _ & _ & _ & _ & _ & E1 & S1 & _ & _). fold D in Ed. rewrite Ed in E0.
  assert (A0 : at_rec p D d0 r 0 tcs [] /\ fpos (d_file d0) = len (rec_hdr r)).
  { assert (Bl : r_chans r < 2 ^ 63).
    { rewrite <- Ln. assert (K : 20 * len tcs <= len (tc_bytes tcs)).
      { clear - F p. induction F as [|[t c] tcs H F IH]; [vm_compute; discriminate|].
        unfold tc_bytes. cbn [map concat snd]. rewrite len_app, len_cons. fold (tc_bytes tcs). pose proof (trc_len r t c p H). lia. }
      pose proof (len_nonneg tcs). pose proof (len_nonneg (rec_hdr r)). unfold D, fr_bytes in LD. cbn [fst snd] in LD. rewrite len_app in LD. lia. }
    assert (Fx : Forall (fr_ok p) (@cons fr (r, tcs) (@nil fr))).
    { constructor; [|constructor]. split; [exact G|]. split; [exact F|]. split; [exact Ln|]. split; [exact N|]. rewrite <- Ln in Bl. exact Bl. }
    assert (EqD : concat (map fr_bytes (@cons fr (r, tcs) (@nil fr))) = D) by (cbn [map concat]; apply app_nil_r).
    destruct (open_recs p (r, tcs) [] Hp Fx) as (d & E & A & _); [rewrite EqD; exact LD|]. rewrite EqD in E, A. rewrite E0 in E. injection E as <-.
    cbn [fst snd map concat] in A. split; [exact A|]. destruct A as (_ & _ & _ & _ & _ & _ & (q0 & -> & H1 & _)). cbn [fat fpos].
    rewrite (here_pos _ _ _ H1), app_nil_r. unfold D, fr_bytes. cbn [fst snd]. rewrite len_app. lia. }
  destruct A0 as (A0 & P0).
  assert (Cut : q < len D -> (isegd_open p (firstn (Z.to_nat q) D) [] = Ok (cutd D q d0) \/ (q < len (rec_hdr r) /\ isegd_open p (firstn (Z.to_nat q) D) [] = Throw EIO)) /\
    exists j, (j < List.length tcs)%nat /\ (j <> 0%nat -> ends r tcs j <= q) /\ q < ends r tcs (S j) /\
      (isegd_open p (firstn (Z.to_nat q) D) [] = Ok (cutd D q d0) -> gives p (firstn (Z.to_nat q) D) tcs j)).
  { intro Lq. unfold isegd_open in E0.
    destruct (cut_headers D q Hq p (mkD (open_in D) gh1_zero gh2_zero gh3_zero [] [] [] [] [] (len D) 0 0) d0 eq_refl ltac:(cbn; lia) E0) as (_ & _ & _ & O).
    assert (Ei : isegd_open p (firstn (Z.to_nat q) D) [] = read_headers_before_traces p (cutd D q (mkD (open_in D) gh1_zero gh2_zero gh3_zero [] [] [] [] [] (len D) 0 0))).
    { unfold isegd_open, cutd. cbn [d_file open_in fpos d_g1 d_g2 d_g3 d_blocks d_sets d_extd d_extl d_layouts d_chans d_read]. rewrite Lc. reflexivity. }
    rewrite Ei, <- P0. split; [exact O|].
    destruct (cut_traces p r D q Hp ltac:(lia) tcs d0 0 A0) as (j & sj & J1 & J2 & J3 & J4 & J5 & J6). rewrite P0 in J5, J6.
    exists j. split; [exact J1|]. split; [exact J5|]. split; [exact J6|]. intro E. rewrite <- Ei in E.
    exists (cutd D q d0), (tc_seen (firstn j tcs)), sj. split; [exact E|]. split; [exact J2|]. split; [|auto].
    apply (same_seen r). rewrite <- (firstn_skipn j tcs) in F. apply Forall_app in F. apply F. }
  split; [|split].
  - intro L. destruct Cut as (O & j & J1 & J2 & J3 & J4). { unfold ends in El. pose proof (len_nonneg (tc_bytes (firstn (List.length tcs) tcs))). lia. }
    destruct O as [O|(_ & O)]; [right|left; exact O]. destruct (Nat.eq_dec j 0) as [->|Nj]; [exact (J4 O)|]. specialize (J2 Nj). unfold ends in J2.
    pose proof (len_nonneg (tc_bytes (firstn j tcs))). lia.
  - intros k Lk (L1 & L2).
    assert (Lq : q < len D).
    { rewrite El. unfold ends in *. pose proof (tc_ends_mono tcs (S k) (List.length tcs) ltac:(lia)). lia. }
    destruct (Cut Lq) as (O & j & J1 & J2 & J3 & J4). destruct O as [O|(O & _)].
    + assert (j = k); [|subst; exact (J4 O)]. unfold ends in *. destruct (Nat.lt_trichotomy j k) as [K|[K|K]]; [|exact K|].
      * pose proof (tc_ends_mono tcs (S j) k ltac:(lia)). lia.
      * pose proof (tc_ends_mono tcs (S k) j ltac:(lia)). specialize (J2 ltac:(lia)). lia.
    + unfold ends in L1. pose proof (len_nonneg (tc_bytes (firstn k tcs))). lia.
  - intro L. rewrite firstn_all2 by (unfold len in *; lia). exists d0, ts', d1. auto.
Qed.

(** The program that writes the record. *)
Lemma attempt_all p ts : forall s s', d_write_all p s ts = Ok s' -> d_attempt p s ts = Ok (map (fun _ => true) ts, s').
Proof.
  induction ts as [|t ts IH]; intros s s' H; cbn [d_write_all d_attempt map] in *; [injection H as <-; reflexivity|].
  pose proof (write_run p t s) as R. destruct (d_write_trace p s t) as [s1| |]; cbn [bind] in H; [|discriminate..].
  rewrite R, (IH s1 s' H). reflexivity.
Qed.
Lemma record_endless p r hs tcs : plat_ok p -> p_chans0 p = 0 -> rec_good p r ->
  in_order (map fst3 (r_N r)) -> Permutation.Permutation hs (map fst3 (r_N r)) ->
  Forall (fun h => block_fields (gN_block_num (fst3 h)) = None) (r_N r) ->
  Forall (tc_in r) tcs -> len tcs = r_chans r -> len (fr_bytes (r, tcs)) < 2 ^ 63 ->
  on_endless p (record_args r hs) (map fst tcs) = Ok (Some (map (fun _ => true) (map fst tcs)), fr_bytes (r, tcs)).
Proof.
  intros Hp Hc G Ho Pm Bf F Ln LD.
  destruct (record_round_trip p r hs tcs Hp Hc G Ho Pm Bf F Ln LD) as (w & w' & d0 & ts' & d1 & Eo & Ew & Ed & _).
  unfold on_endless. destruct (segd_described p (record_args r hs)) as (D1 & D2). destruct (x_segd p (record_args r hs) empty_file) as [o f]. cbn [fst] in D1. subst o.
  change (args_open p (record_args r hs)) with (osegd_open p (r_g1 r) (r_g2 r) (map (map fst3) (r_sets r)) (map AN hs) (r_extd r) (r_extl r) []). rewrite Eo.
  rewrite (attempt_all p _ w w' Ew). cbn [bind]. rewrite Ed. reflexivity.
Qed.
