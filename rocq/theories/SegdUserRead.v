(** Reading traces with layouts of the trace header extensions. *)
From Coq Require Import Reals.
From Verif Require Import BaseFacts Bcd BcdSpec BcdFacts BcdFacts2 Platform CodecSpec CodecFacts Fp FpSpec FpReal SampleReal
  TraceHdr HdrFacts SegyTypes SegyCodec ISegy LayoutSpec LayoutFacts SegdTypes SegdSpec SegdDecSpec SegdTrcSpec SegdReadSpec SegdExtSpec
  SegdUserSpec Sercel ISegd OpenFacts ReadFacts2 NibFacts FixFacts SegdHdrFacts SegdTrcFacts SegdFileFacts SegdDecFacts SegdOpenFacts
  SegdOpenProps SegdRecFacts SegdExtFacts SegdExtProps SegdTrcRead SegdReadProps.
Local Open Scope Z_scope.

(** ** The header *)

Lemma th_only p b : p_left_first p = true -> bytes b -> List.length b = 20%nat ->
  exists h c, rd_trace_header p b = Ok (h, c) /\ th_of b h /\ forall k, ~ In k th_words -> hget h k = None.
Proof.
  intros Hp Hb L. destruct (th_dec p b Hp Hb L) as (h & c & E & H). exists h, c. split; [exact E|]. split; [exact H|].
  assert (X : exists h' c', rd_trace_header p b = Ok (h', c') /\ forall k, ~ In k th_words -> hget h' k = None).
  { change b with (skipn 0 b) at 1. eexists _, _. split.
    - unfold rd_trace_header. repeat dstep. reflexivity.
    - intros k Hk. cbn [In th_words] in Hk.
      assert (N : forall x, In x th_words -> String.eqb k x = false).
      { intros x Hx. apply String.eqb_neq. intros ->. apply Hk. exact Hx. }
      destruct (big b 15 2 =? 0), (big b 17 3 =? 0); repeat rewrite hget_hset; cbn [hget];
      rewrite !N by (cbn; tauto); reflexivity. }
  destruct X as (h' & c' & E' & H'). rewrite E in E'. injection E' as <- _. exact H'.
Qed.

Lemma exts_most p mj ls n : ls <> [] -> forall i f h r, rd_exts p mj ls n i f h = Ok r -> (n = 0 \/ i + n <= List.length ls)%nat.
Proof.
  intros Ne. induction n as [|n IH]; intros i f h r E; cbn [rd_exts] in E; [left; reflexivity|right].
  apply bind_ok in E as ([blk f1] & _ & E). apply bind_ok in E as (h1 & E1 & E).
  destruct ls as [|l0 ls']; [congruence|]. destruct (nth_error (l0 :: ls') i) eqn:En; [|discriminate].
  assert (i < List.length (l0 :: ls'))%nat by (apply nth_error_Some; congruence).
  destruct (IH _ _ _ _ E); lia.
Qed.

Definition user_hdr (ls : ext_layouts) (s : isegd) (h : hdr) : Prop :=
  byt (th_at s) 9 <= len ls /\ th_of (th_at s) h /\ user_fields ls (byt (th_at s) 9) (fdata (d_file s)) (fpos (d_file s) + 20) h.

Lemma named ls j l k : nth_error ls j = Some l -> In k (names l) -> In k (concat (map names ls)).
Proof. intros E H. apply in_concat. exists (names l). split; [apply in_map; eapply nth_error_In, E|exact H]. Qed.

Lemma user_trace p s ls : p_left_first p = true -> good_file (d_file s) -> d_layouts s = ls -> trace_layouts ls ->
  byt (th_at s) 9 <= len ls -> hdr_read p s (user_hdr ls s).
Proof.
  intros Hp G Hl TL Nl. unfold hdr_read.
  unfold d_read_trace. set (D := fdata (d_file s)). set (q := fpos (d_file s)).
  assert (G' := G). destruct G' as (Gb & Gp & Gl). fold D in Gb, Gl. fold q in Gp.
  destruct (reads_freadn (d_file s) 20 ltac:(lia) G) as (U1 & S1 & C1). fold D q in S1, C1.
  change TRACE_HEADER_SIZE with 20.
  assert (Te : q + 20 <= smp_at s).
  { unfold smp_at. fold q.
    assert (0 <= byt (th_at s) 9) by (apply byt_range; unfold th_at; apply bytes_slice, Gb). lia. }
  destruct (fread 20 (d_file s)) as [[buf f1]|e|] eqn:Ef1;
    [|left; split; [eexists; reflexivity|destruct (Z.ltb_spec (len D) (smp_at s)) as [?|?]; [assumption|];
      destruct C1 as [? C1]; [lia|discriminate]]|congruence].
  destruct (S1 _ _ eq_refl) as (D1 & P1 & B1 & Bb1 & L1). clear U1 S1 C1. cbn [bind].
  assert (L1' : List.length buf = 20%nat) by (unfold len in L1; lia).
  assert (Eb : th_at s = buf) by (unfold th_at; fold D q; congruence).
  rewrite Eb in *.
  destruct (th_only p buf Hp Bb1 L1') as (h0 & c0 & E0 & H0 & X0). rewrite E0. cbn [bind].
  assert (K5 : hget h0 "TR_HDR_EXT" = Some (VInt (byt buf 9))) by (apply H0).
  set (n := byt buf 9) in *. assert (Hn : 0 <= n < 256) by (apply byt_range, Bb1).
  rewrite (ext_count s p h0 f1 n K5 Hn).
  assert (G1 : good_file f1).
  { unfold good_file. rewrite D1, P1. fold D. split; [exact Gb|]. split; [lia|exact Gl]. }
  rewrite Hl. destruct (exts_user p (g2_major (d_g2 s)) ls (Z.to_nat n) 0 f1 h0 G1) as (U2 & S2 & C2).
  { unfold len in Nl. lia. }
  { intros j l _ El. apply (tl_blocks _ TL). eapply nth_error_In, El. }
  rewrite Z2Nat.id in S2, C2 by lia.
  assert (Te2 : smp_at s = q + 20 + 32 * n) by (unfold smp_at; rewrite Eb; reflexivity).
  destruct (rd_exts p (g2_major (d_g2 s)) ls (Z.to_nat n) 0 f1 h0) as [[h f2]|e|] eqn:Ex;
    [|left; split; [eexists; reflexivity|destruct (Z.ltb_spec (len D) (smp_at s)) as [?|?]; [assumption|];
      destruct C2 as [? C2]; [rewrite D1, P1; fold D q; lia|discriminate]]|congruence].
  destruct (S2 _ _ eq_refl) as (D2 & P2 & R1 & R2). clear U2 S2 C2. cbn [bind].
  rewrite D1, P1 in R2. fold D q in R2.
  assert (H1 : th_of buf h).
  { assert (K : forall k, In k th_words -> hget h k = hget h0 k).
    { intros k Hk. apply R1. intros j l _ El Hin. apply (tl_words _ TL k Hk). exact (named _ _ _ _ El Hin). }
    unfold th_of in *. rewrite !K by (cbn; tauto). exact H0. }
  destruct H1 as (T1 & T2 & T3 & T4). pose proof (conj T1 (conj T2 (conj T3 T4))) as H1.
  assert (Lf : smp_at s <= len D).
  { assert (If1 : fpos f1 <= len (fdata f1)).
    { clear - Ef1. unfold fread in Ef1. change (20 =? 0) with false in Ef1. cbv iota in Ef1.
      destruct (Z.leb_spec (fpos (d_file s) + 20) (len (fdata (d_file s)))); [|discriminate]. injection Ef1 as <- <-. exact H. }
    pose proof (exts_in _ _ _ _ _ _ _ _ _ Ex If1) as Qi. rewrite D2, D1 in Qi. fold D in Qi. lia. }
  assert (UF : user_fields ls n D (q + 20) h).
  { split.
    - intros j l en Hj El Hen Nu. destruct (nodup_concat names _ _ _ (tl_names _ TL) El) as [N1 N2].
      rewrite (R2 j l en ltac:(lia) El Hen Nu N1).
      + eexists. split; [reflexivity|]. destruct (proj1 (tl_blocks _ TL l (nth_error_In _ _ El)) en Hen). pose proof (width_pos (e_type en)).
        apply fval_value; [exact Hp|apply bytes_slice, Gb|]. rewrite slice_length by lia. reflexivity.
      + intros j' l' Hj' El'. apply (N2 _ j'); [apply in_map, Hen|lia|exact El'].
    - intros k Hk Hj. rewrite R1; [apply X0, Hk|]. intros j l Hj' El. apply (Hj j l); [lia|exact El]. }
  right. exists h, f2. split; [reflexivity|]. split; [congruence|]. split; [lia|]. split; [exact Lf|].
  split; [unfold user_hdr; rewrite Eb; auto|].
  split; [unfold curr_ch_set, hidx; rewrite T2, T3; reflexivity|].
  unfold samp_num_of, smp_num. rewrite Eb. fold n. destruct UF as [UF1 UF2]. destruct (Z.eqb_spec n 0) as [Z0|Nz].
  - split; [|lia]. intros c Zc. rewrite (UF2 "SAMP_NUM"%string); [rewrite Zc; reflexivity| |lia].
    cbn. intuition discriminate.
  - destruct (tl_count _ TL) as (l & r & El & Hc).
    destruct (UF1 0%nat l (7, ("SAMP_NUM"%string, U24)) ltac:(lia) ltac:(rewrite El; reflexivity) Hc ltac:(discriminate)) as (v & Ev & Fv).
    change (e_name (7, ("SAMP_NUM"%string, U24))) with "SAMP_NUM"%string in Ev.
    cbn [e_type snd fst e_off width field_value] in Fv. specialize (Fv _ eq_refl).
    rewrite Ev, Fv. cbn [get_int bind]. unfold te_at. fold D q.
    assert (Eq : big (slice (q + 20 + 32 * Z.of_nat 0 + 7) 3 D) 0 3 = big (slice (q + 20) 32 D) 7 3).
    { replace (q + 20 + 32 * Z.of_nat 0 + 7) with (q + 20 + 7) by lia.
      rewrite <- (slice_in D (q + 20) 32 7 3) by lia. unfold big, slice.
      change (Z.to_nat 3) with 3%nat. change (Z.to_nat 7) with 7%nat. cbn [skipn]. rewrite firstn_firstn. reflexivity. }
    change (Z.to_nat 3) with 3%nat. rewrite Eq.
    assert (R : 0 <= big (slice (q + 20) 32 D) 7 3 < 2 ^ 24) by (apply big_3, bytes_slice, Gb).
    unfold as_unsigned. change (256 ^ Z.of_nat 3) with (2 ^ 24). rewrite Z.mod_small by exact R.
    rewrite wrapu_small by lia. split; [reflexivity|lia].
Qed.

(** What happens up to the extension blocks. *)
Lemma th_read p s : p_left_first p = true -> good_file (d_file s) -> fpos (d_file s) + 20 <= len (fdata (d_file s)) ->
  exists h0, hget h0 "TR_HDR_EXT" = Some (VInt (byt (th_at s) 9)) /\
  d_read_trace p s = (let* (h, f2) := rd_exts p (g2_major (d_g2 s)) (d_layouts s) (Z.to_nat (byt (th_at s) 9)) 0
                         (mkFile (fdata (d_file s)) (fpos (d_file s) + 20)) h0 in
                      let* (smp, f3) := read_trace_samples p s h f2 in finish p s h smp f3).
Proof.
  intros Hp G L. unfold d_read_trace. change TRACE_HEADER_SIZE with 20.
  unfold fread. change (20 =? 0) with false. cbv iota. destruct (Z.leb_spec (fpos (d_file s) + 20) (len (fdata (d_file s)))); [|lia].
  cbn [bind].
  destruct (th_only p (th_at s) Hp) as (h0 & c0 & E0 & H0 & X0).
  { apply bytes_slice, G. }
  { assert (0 <= fpos (d_file s)) by apply G.
    assert (K : len (th_at s) = 20) by (unfold th_at; apply slice_length; lia). unfold len in K. lia. }
  change (slice (fpos (d_file s)) 20 (fdata (d_file s))) with (th_at s). rewrite E0. cbn [bind].
  exists h0. split; [apply H0|].
  rewrite (ext_count s p h0 _ (byt (th_at s) 9)); [reflexivity|apply H0|apply byt_range, bytes_slice, G].
Qed.

Lemma user_most p s r : p_left_first p = true -> good_file (d_file s) -> d_layouts s <> [] -> d_read_trace p s = Ok r ->
  byt (th_at s) 9 <= len (d_layouts s).
Proof.
  intros Hp G Ne E.
  assert (L : fpos (d_file s) + 20 <= len (fdata (d_file s))).
  { clear - E. unfold d_read_trace in E. apply bind_ok in E as ([x y] & E & _). change TRACE_HEADER_SIZE with 20 in E.
    unfold fread in E. change (20 =? 0) with false in E. cbv iota in E. destruct (Z.leb_spec (fpos (d_file s) + 20) (len (fdata (d_file s)))); [lia|discriminate]. }
  destruct (th_read p s Hp G L) as (h0 & _ & E'). rewrite E' in E. apply bind_ok in E as ([h f2] & E & _).
  apply exts_most in E; [|exact Ne]. unfold len in *.
  assert (0 <= byt (th_at s) 9) by (apply byt_range, bytes_slice, G). lia.
Qed.

Lemma layouts_ne ls : trace_layouts ls -> ls <> [].
Proof. intros T. destruct (tl_count _ T) as (l & r & -> & _). discriminate. Qed.

Lemma with_invariant p b ls s : p_left_first p = true -> bytes b -> len b < 2 ^ 63 -> trace_layouts ls ->
  reader_with p b ls s -> reader_inv_with ls b s.
Proof.
  intros Hp Hb Hl TL R. induction R as [s Ho E|s t s' R IH E Ho].
  - apply (open_inv p); assumption.
  - pose proof (inv_good b s Hb Hl IH) as G.
    assert (Nl : byt (th_at s) 9 <= len ls).
    { rewrite <- (ri_layouts _ _ IH). apply (user_most p s (t, s')); auto. rewrite (ri_layouts _ _ IH). apply layouts_ne, TL. }
    pose proof (user_trace p s ls Hp G (ri_layouts _ _ IH) TL Nl) as Hd.
    destruct (step p b s _ Hp Hb Hl IH Hd) as [No|(c & k & Q & T & [[[e X] _]|(h & ys & f3 & X & D3 & P3 & _)])].
    + destruct (No _ E).
    + congruence.
    + rewrite X in E. apply (finish_inv p b s _ _ _ _ _ Hp Hb Hl IH ltac:(rewrite D3; apply IH) P3 Ho E).
Qed.

Lemma with_hdr p b ls s : p_left_first p = true -> bytes b -> len b < 2 ^ 63 -> trace_layouts ls ->
  reader_with p b ls s -> byt (th_at s) 9 <= len ls -> reader_inv_with ls b s /\ hdr_read p s (user_hdr ls s).
Proof.
  intros Hp Hb Hl TL R Nl. pose proof (with_invariant p b ls s Hp Hb Hl TL R) as I. split; [exact I|].
  apply user_trace; auto; [exact (inv_good b s Hb Hl I)|apply I].
Qed.

Lemma with_decoded p b ls s c t s' : p_left_first p = true -> bytes b -> len b < 2 ^ 63 -> trace_layouts ls ->
  reader_with p b ls s -> In (g1_format_code (d_g1 s)) good_formats -> d_read_trace p s = Ok (t, s') -> in_table s c ->
  byt (th_at s) 9 <= len ls /\
  th_of (th_at s) (t_hdr t) /\ user_fields ls (byt (th_at s) 9) b (fpos (d_file s) + 20) (t_hdr t) /\
  (forall m, holds (c_descale c) (IZR m) -> -31 <= m <= 31 ->
   Forall2 (sample_of (g1_format_code (d_g1 s)) m)
     (words (skipn (Z.to_nat (smp_at s)) b) (sample_bytes (g1_format_code (d_g1 s))) (Z.to_nat (smp_num s))) (t_smp t)) /\
  len (t_smp t) = smp_num s /\
  (~ last_trace s -> fdata (d_file s') = b /\ fpos (d_file s') = trace_end s /\ d_read s' = (d_read s + 1) mod 2 ^ 64) /\
  trace_end s <= len b.
Proof.
  intros Hp Hb Hl TL R Hf E T. pose proof (with_invariant p b ls s Hp Hb Hl TL R) as I.
  pose proof (inv_good b s Hb Hl I) as G.
  assert (Nl : byt (th_at s) 9 <= len ls).
  { rewrite <- (ri_layouts _ _ I). apply (user_most p s (t, s')); auto. rewrite (ri_layouts _ _ I). apply layouts_ne, TL. }
  pose proof (user_trace p s ls Hp G (ri_layouts _ _ I) TL Nl) as Hd.
  destruct (trace_decoded_w p b s c t s' _ Hp Hb Hl I Hd Hf E T) as ((H1 & H2 & H3) & X).
  rewrite (ri_data _ _ I) in H3. auto.
Qed.

Lemma with_complete p b ls s c : p_left_first p = true -> bytes b -> len b < 2 ^ 63 -> trace_layouts ls -> reader_with p b ls s ->
  byt (th_at s) 9 <= len ls -> In (g1_format_code (d_g1 s)) safe_formats -> in_table s c ->
  ((last_trace s -> old_rev (skipn (Z.to_nat (trace_end s)) b)) -> d_read_trace p s <> UB) /\
  (~ last_trace s \/ trace_end s = len b -> trace_end s <= len b -> 2 ^ 27 <= p_max_alloc p ->
   exists t s', d_read_trace p s = Ok (t, s')).
Proof.
  intros Hp Hb Hl TL R Nl Hf T. destruct (with_hdr p b ls s Hp Hb Hl TL R Nl) as [I Hd]. split.
  - exact (trace_not_ub_w p b s c _ Hp Hb Hl I Hd Hf T).
  - exact (trace_complete_w p b s c _ Hp Hb Hl I Hd Hf T).
Qed.

(** Too few layouts. *)
Lemma exts_short p mj ls : ls <> [] -> (forall l, In l ls -> block_layout l) -> forall n i f h, good_file f ->
  (List.length ls < i + n)%nat -> (i <= List.length ls)%nat ->
  fpos f + 32 * (Z.of_nat (List.length ls - i) + 1) <= len (fdata f) -> rd_exts p mj ls n i f h = UB.
Proof.
  intros Ne Hl. induction n as [|n IH]; intros i f h G Hn Hi Hf; [lia|]. cbn [rd_exts].
  destruct (reads_freadn f 32 ltac:(lia) G) as (U & S & C). change TRACE_HEADER_EXT_SIZE with 32.
  destruct (fread 32 f) as [[blk f1]|e|] eqn:Ef; [|destruct C as [? C]; [lia|discriminate]|reflexivity].
  destruct (S _ _ eq_refl) as (D1 & P1 & B1 & Bb & L1). cbn [bind].
  destruct ls as [|l0 ls'] eqn:Els; [congruence|]. rewrite <- Els in *.
  destruct (nth_error ls i) as [l|] eqn:En; [|reflexivity].
  assert (Hi' : (i < List.length ls)%nat) by (apply nth_error_Some; congruence).
  pose proof (Hl l (nth_error_In _ _ En)) as Sl. pose proof (u64s_bound l Sl) as Ub.
  destruct (rd_ext_fields_ok p blk l ltac:(unfold len in *; lia) (proj1 Sl) blk h ltac:(lia)) as (h1 & E & _).
  rewrite E. cbn [bind]. apply IH.
  - destruct G as (G1 & G2 & G3). split; [rewrite D1; exact G1|]. split; [lia|rewrite D1; exact G3].
  - lia.
  - lia.
  - rewrite D1, P1. lia.
Qed.

Lemma with_short p b ls s : p_left_first p = true -> bytes b -> len b < 2 ^ 63 -> trace_layouts ls -> reader_with p b ls s ->
  len ls < byt (th_at s) 9 -> smp_at s <= len b -> d_read_trace p s = UB.
Proof.
  intros Hp Hb Hl TL R Nl L. pose proof (with_invariant p b ls s Hp Hb Hl TL R) as I. pose proof (inv_good b s Hb Hl I) as G.
  unfold smp_at in L. pose proof (len_nonneg ls).
  destruct (th_read p s Hp G) as (h0 & _ & E); [rewrite (ri_data _ _ I); lia|].
  rewrite E, (ri_layouts _ _ I), exts_short; [reflexivity| | | | | |].
  - apply layouts_ne, TL.
  - apply TL.
  - destruct G as (G1 & G2 & G3). split; [exact G1|]. split; [cbn; lia|exact G3].
  - unfold len in Nl. lia.
  - lia.
  - cbn [fpos fdata]. rewrite (ri_data _ _ I). unfold len in *. lia.
Qed.

(** ** The layouts of the library *)

Definition entry_in (en : entry) : bool := (0 <=? e_off en) && (e_off en + width (e_type en) <=? 32).
Definition apartb (a b : entry) : bool := (e_off a + width (e_type a) <=? e_off b) || (e_off b + width (e_type b) <=? e_off a).
Fixpoint blockb (l : layout) : bool :=
  match l with [] => true | a :: r => entry_in a && forallb (apartb a) r && blockb r end.
Lemma blockb_ok l : blockb l = true -> block_layout l.
Proof.
  intros H. assert (K : (forall en, In en l -> entry_in en = true) /\ forall i j a b, (i < j)%nat -> nth_error l i = Some a -> nth_error l j = Some b -> apartb a b = true).
  { induction l as [|x l IH]; [split; [intros ? []|intros i j a b _ Ha; destruct i; discriminate]|].
    cbn [blockb] in H. apply andb_true_iff in H as [H H3]. apply andb_true_iff in H as [H1 H2]. destruct (IH H3) as [K1 K2].
    rewrite forallb_forall in H2. split; [intros en [<-|K]; auto|].
    intros i j a b Hij Ha Hb. destruct j as [|j]; [lia|]. destruct i as [|i]; cbn [nth_error] in Ha, Hb.
    - injection Ha as <-. apply H2. eapply nth_error_In, Hb.
    - apply (K2 i j); auto. lia. }
  destruct K as [K1 K2]. split.
  - intros en Hen. specialize (K1 en Hen). unfold entry_in in K1. lia.
  - intros i j a b Ha Hb Nij. unfold apart. destruct (Nat.lt_total i j) as [L|[L|L]]; [|congruence|].
    + specialize (K2 i j a b L Ha Hb). unfold apartb in K2. lia.
    + specialize (K2 j i b a L Hb Ha). unfold apartb in K2. lia.
Qed.

Fixpoint nodupb (l : list string) : bool :=
  match l with [] => true | x :: r => negb (existsb (String.eqb x) r) && nodupb r end.
Lemma nodupb_ok l : nodupb l = true -> NoDup l.
Proof.
  induction l as [|x l IH]; intros H; [constructor|]. cbn [nodupb] in H. apply andb_true_iff in H as [H1 H2].
  constructor; [|apply IH, H2]. intros K. rewrite negb_true_iff in H1.
  assert (existsb (String.eqb x) l = true); [|congruence]. apply existsb_exists. exists x. split; [exact K|apply String.eqb_refl].
Qed.

Definition sercel : list ext_layouts := [sercel_428xl; sercel_428; sercel_408].
Definition plain (t : vtype) : bool := match t with U64 | Ibm => false | _ => true end.
Definition tablesb (ls : ext_layouts) : bool :=
  forallb blockb ls && nodupb (concat (map names ls)) &&
  forallb (fun k => negb (existsb (String.eqb k) (concat (map names ls)))) th_words &&
  forallb (forallb (fun en => plain (e_type en))) ls.

Lemma tables ls : In ls sercel -> trace_layouts ls /\ len ls = 7 /\
  (forall l en, In l ls -> In en l -> e_type en <> U64 /\ e_type en <> Ibm).
Proof.
  intros H. assert (B : tablesb ls = true /\ len ls = 7 /\ exists l r, ls = l :: r /\ In (7, ("SAMP_NUM"%string, U24)) l).
  { destruct H as [<-|[<-|[<-|[]]]]; (split; [vm_compute; reflexivity|]; split; [reflexivity|]; eexists _, _; split; [reflexivity|]; cbn; tauto). }
  destruct B as (B & L & C). unfold tablesb in B. rewrite !andb_true_iff in B. destruct B as (((B1 & B2) & B3) & B4).
  rewrite forallb_forall in B1, B3, B4. split; [constructor|split; [exact L|]].
  - intros l Hl. apply blockb_ok, B1, Hl.
  - apply nodupb_ok, B2.
  - intros k Hk Hin. specialize (B3 k Hk). rewrite negb_true_iff in B3.
    assert (existsb (String.eqb k) (concat (map names ls)) = true); [|congruence].
    apply existsb_exists. exists k. split; [exact Hin|apply String.eqb_refl].
  - exact C.
  - intros l en Hl Hen. specialize (B4 l Hl). rewrite forallb_forall in B4. specialize (B4 en Hen).
    split; intros E; rewrite E in B4; discriminate.
Qed.

(** The first block as in the standard. *)
Lemma nth_skipn_firstn (l : list Z) i : (i < List.length l)%nat -> firstn 1 (skipn i l) = [nth i l 0].
Proof.
  revert i; induction l as [|x l IH]; intros i H; [cbn in H; lia|]. destruct i as [|i]; [reflexivity|].
  cbn [skipn nth]. apply IH. cbn in H. lia.
Qed.

Lemma first_block p b ls s c t s' : p_left_first p = true -> bytes b -> len b < 2 ^ 63 -> In ls sercel ->
  reader_with p b ls s -> In (g1_format_code (d_g1 s)) good_formats -> d_read_trace p s = Ok (t, s') -> in_table s c ->
  byt (th_at s) 9 <> 0 ->
  te_of (te_at s) 0 (t_hdr t) /\ hget (t_hdr t) "SENSOR_TYPE" = Some (VInt (byt (te_at s) 20)).
Proof.
  intros Hp Hb Hl Hs R Hf E T Nz. destruct (tables ls Hs) as (TL & _ & _).
  pose proof (with_invariant p b ls s Hp Hb Hl TL R) as I.
  destruct (with_decoded p b ls s c t s' Hp Hb Hl TL R Hf E T) as (Nl & _ & (UF & _) & _).
  assert (Np : 0 < byt (th_at s) 9).
  { assert (0 <= byt (th_at s) 9); [|lia]. apply byt_range. unfold th_at. apply bytes_slice. rewrite (ri_data _ _ I). exact Hb. }
  assert (Bt : bytes (te_at s)) by (unfold te_at; apply bytes_slice; rewrite (ri_data _ _ I); exact Hb).
  pose proof (ri_pos _ _ I) as P0.
  assert (Fst : exists r, ls = [(0, ("R_LINE", U24)); (3, ("R_POINT", U24)); (6, ("R_POINT_IDX", U8)); (7, ("SAMP_NUM", U24));
     (20, ("SENSOR_TYPE", U8))]%string :: r).
  { destruct Hs as [<-|[<-|[<-|[]]]]; eexists; reflexivity. }
  destruct Fst as [r ->].
  assert (F : forall o nm ty (k : nat), In (o, (nm, ty)) [(0, ("R_LINE", U24)); (3, ("R_POINT", U24)); (6, ("R_POINT_IDX", U8)); (7, ("SAMP_NUM", U24));
     (20, ("SENSOR_TYPE", U8))]%string -> k = Z.to_nat (width ty) -> (k = 1 \/ k = 3)%nat ->
     int_field ty = Some (as_unsigned k) -> hget (t_hdr t) nm = Some (VInt (big (te_at s) (Z.to_nat o) k))).
  { intros o nm ty k Hin Hk Hk3 Hif.
    assert (Ho : 0 <= o /\ o + width ty <= 32).
    { cbn [In] in Hin. repeat (destruct Hin as [Hin|Hin]; [injection Hin as <- <- <-; cbn; lia|]). destruct Hin. }
    assert (Nu : ty <> U64) by (intros ->; cbn in Hk; lia).
    destruct (UF 0%nat _ (o, (nm, ty)) ltac:(lia) eq_refl Hin Nu) as (v & Ev & Fv).
    cbn [e_type e_off e_name fst snd] in *. rewrite Ev. f_equal.
    assert (Fi : v = VInt (as_unsigned k (big (slice (fpos (d_file s) + 20 + 32 * Z.of_nat 0 + o) (width ty) b) 0 k))).
    { destruct ty; try discriminate Hif; unfold field_value in Fv; specialize (Fv _ Hif); rewrite <- Hk in Fv; exact Fv. }
    rewrite Fi. f_equal.
    assert (Eq : big (slice (fpos (d_file s) + 20 + 32 * Z.of_nat 0 + o) (width ty) b) 0 k = big (te_at s) (Z.to_nat o) k).
    { replace (fpos (d_file s) + 20 + 32 * Z.of_nat 0 + o) with (fpos (d_file s) + 20 + o) by lia.
      unfold te_at. rewrite (ri_data _ _ I). pose proof (width_pos ty).
      rewrite <- (slice_in b (fpos (d_file s) + 20) 32 o (width ty)) by lia. unfold big. cbn [skipn].
      unfold slice at 1. rewrite firstn_firstn, Hk, Nat.min_id. reflexivity. }
    rewrite Eq. unfold as_unsigned. apply Z.mod_small. split; [apply big_pos, Bt|].
    apply big_lt, Bt. }
  assert (B1 : forall i, (i < 32)%nat -> big (te_at s) i 1 = byt (te_at s) i).
  { intros i Hi. assert (Lt : (i < List.length (te_at s))%nat).
    { assert (L : fpos (d_file s) + 20 + 32 <= len b).
      { assert (Lb : trace_end s <= len b) by (apply (with_decoded p b _ s c t s' Hp Hb Hl TL R Hf E T)).
        pose proof (end_pos b s Hb I). unfold trace_end, smp_at in Lb.
        assert (0 <= smp_num s); [|nia]. unfold smp_num. destruct (_ =? _); [lia|]. apply big_pos, Bt. }
      assert (K : len (te_at s) = 32) by (unfold te_at; rewrite (ri_data _ _ I); apply slice_length; lia).
      unfold len in K. lia. }
    unfold big, byt. rewrite (nth_skipn_firstn (te_at s) i Lt). cbn [fold_left]. lia. }
  split.
  - unfold te_of, receiver_num. change (1 <? 0) with false. cbn [andb].
    split; [apply (F 0 _ U24 3%nat); cbn; auto|]. split; [apply (F 3 _ U24 3%nat); cbn; auto|].
    split; [rewrite <- B1 by lia; apply (F 6 _ U8 1%nat); cbn; auto|].
    split; [apply (F 7 _ U24 3%nat); cbn; auto 6|]. lia.
  - rewrite <- B1 by lia. apply (F 20 _ U8 1%nat); cbn; auto 7.
Qed.
