(** Concrete SEG-D records that meet the hypotheses of the theorems. *)
From Coq Require Import Reals Lra.
From Verif Require Import BaseFacts Bcd BcdSpec Platform CodecSpec Fp FpSpec FpReal SampleReal TraceHdr
  SegyTypes SegyCodec ISegy OSegy SegdTypes SegdSpec ISegd OSegd FixFacts SegdTrcFacts SegdFileFacts SegdIoFacts.
Local Open Scope Z_scope.

Definition segd_plat : platform :=
  mkPlatform true gcc_d2u (fun _ => Some 65) (2 ^ 40) true true 0 Z.log2 (fun _ => 0) no_exp.

Definition ex_g1 : gh1 :=
  mkG1 123 8058 120 19 2 200 12 34 56 20 1234 345678 (i2d 2) 1 16 8 51 1 2 1 1 1.
Definition ex_g2 : gh2 := mkG2 70000 0 1 1 0 2 1 0 0 0 0 0 2 7.
Definition ex_gN : ghN := mkGN 70000 (fix16 1001 32768) (fix16 2002 16384) 1 2 3 (-90) 3 1.
Definition ex_cs (n ch : Z) : chset :=
  mkC 1 n 1 0 2000 (i2d 1) ch 1 4 250 72 3 12 50 60 0 n 1 1 1 0 2 None.
Definition ex_block : list Z := List.map Z.of_nat (seq 1 32).

Definition ex_rec : srec :=
  mkSR ex_g1 32 4 ex_g2 [(ex_gN, 1001 * 2 ^ 16 + 32768, 2002 * 2 ^ 16 + 16384)]
       [[(ex_cs 1 1, 1024, 0); (ex_cs 2 2, 1024, 0)]] [ex_block] [ex_block].

Definition ex_hdr (n c : Z) : hdr :=
  [("FFID", VInt 70000); ("SCAN_TYPE_NUM", VInt 1); ("CH_SET_NUM", VInt n); ("CHAN", VInt c);
   ("FIRST_TIMING_WORD", VDbl (i2d 3)); ("TR_HDR_EXT", VInt 2); ("SAMP_NUM", VInt 3);
   ("R_LINE", VDbl (fix16 7 32768)); ("R_POINT", VInt 15)]%string.
Definition ex_trace (n c : Z) : trace := mkTrace (ex_hdr n c) [i2d 2; i2d 4; i2d (-6)].
Definition ex_cont (n c : Z) : strc :=
  mkST (mkTH 70000 1 n c (3 * 2 ^ 8) 2 0 0 0) (mkTE (7 * 2 ^ 16 + 32768) (15 * 2 ^ 16) 0 3 0)
       (map (fun v => be_bytes 4 (d2f (i2d v))) [1; 2; -3]).
Definition ex_traces : list (trace * strc) :=
  [(ex_trace 1 1, ex_cont 1 1); (ex_trace 2 2, ex_cont 2 2); (ex_trace 2 3, ex_cont 2 3)].

Lemma fixp_i2d k n : Z.abs k <= 2 ^ 53 -> 0 <= n -> fixp (i2d k) (k * 2 ^ n) n.
Proof. intros H Hn. apply (fixp_scale (i2d k) k 0 n); [apply fixp_int; exact H|exact Hn]. Qed.

Ltac closed := repeat split; try (vm_compute; reflexivity); try (vm_compute; discriminate).

Lemma ex_rec_ok : srec_ok ex_rec.
Proof.
  assert (C : forall n c, 0 <= n < 10 -> 0 <= c < 10 -> chset_range (ex_cs n c) 1024 0).
  { intros n c Hn Hc. unfold chset_range, below, ex_cs. cbn [c_scan_type c_number c_start c_end c_descale
      c_channels c_type c_subscans c_gain c_alias_freq c_alias_slope c_low_freq c_low_slope c_notch1 c_notch2
      c_notch3 c_ext_num c_ext_flag c_hdr_ext c_vert_stack c_streamer c_array].
    change (10 ^ Z.of_nat 2) with 100. change (10 ^ Z.of_nat 4) with 10000. change (10 ^ Z.of_nat 1) with 10.
    assert (fixp (i2d 1) 1024 10) by (apply (fixp_i2d 1 10); lia).
    repeat split; try lia; try assumption; apply H. }
  unfold srec_ok. cbn [r_g1 r_k r_e r_g2 r_N r_sets r_extd r_extl ex_rec].
  split.
  { unfold gh1_range, below. repeat match goal with |- (fixp _ _ _) => apply (fixp_i2d 2 4); lia
      | |- _ /\ _ => split end; try (vm_compute; reflexivity); try (vm_compute; discriminate).
  }
  split; [closed|]. split; [closed|]. split.
  { constructor; [|constructor]. unfold fst3. cbn [fst snd]. unfold ghN_range.
    assert (F1 : fixp (gN_line ex_gN) (1001 * 2 ^ 16 + 32768) 16) by (apply fix16_fixp; lia).
    assert (F2 : fixp (gN_point ex_gN) (2002 * 2 ^ 16 + 16384) 16) by (apply fix16_fixp; lia).
    repeat match goal with |- fixp _ _ _ => assumption | |- _ /\ _ => split end;
      try (vm_compute; reflexivity); try (vm_compute; discriminate). }
  split; [reflexivity|]. split.
  { constructor; [|constructor]. constructor; [apply C; lia|]. constructor; [apply C; lia|constructor]. }
  split; [reflexivity|]. split; [reflexivity|]. split; [constructor; [reflexivity|constructor]|].
  assert (B : List.length ex_block = 32%nat /\ bytes ex_block).
  { split; [reflexivity|]. apply Forall_forall. intros x Hx. apply in_map_iff in Hx as (y & <- & Hy).
    apply in_seq in Hy. unfold is_byte. lia. }
  split; [constructor; [exact B|constructor]|]. split; [left; split; reflexivity|].
  split; [constructor; [exact B|constructor]|]. left; split; reflexivity.
Qed.

Lemma ex_rec_good : rec_good segd_plat ex_rec.
Proof.
  split; [exact ex_rec_ok|]. split; [reflexivity|]. split; [left; reflexivity|].
  unfold good_formats. cbn. tauto.
Qed.

Lemma ex_word v : In v [1; 2; -3] ->
  exists y, scaled (i2d (v * 2)) 1 y /\ sample_word 8058 y (be_bytes 4 (d2f (i2d v))).
Proof.
  intros H. exists (i2d v).
  assert (B : Z.abs v <= 2 ^ 53 /\ Z.abs (v * 2) <= 2 ^ 53) by (cbn [In] in H; lia).
  destruct (i2d_holds v (proj1 B)) as [H1 _]. destruct (i2d_holds (v * 2) (proj2 B)) as [H2 _].
  split.
  - exists (IZR v). split; [exact H1|]. split.
    + replace (IZR v * powerRZ 2 1)%R with (IZR (v * 2)); [exact H2|]. rewrite mult_IZR. rewrite powerRZ_1. reflexivity.
    + cbn [In] in H. destruct H as [<-|[<-|[<-|[]]]]; vm_compute; reflexivity.
  - exists (d2f (i2d v)). split; [|reflexivity].
    assert (E : f2d (d2f (i2d v)) = i2d v /\ is_flt (d2f (i2d v)) /\ flt_finite (d2f (i2d v)) = true /\
                ieee_neg 52 11 (i2d v) = ieee_neg 23 8 (d2f (i2d v))).
    { cbn [In] in H. destruct H as [<-|[<-|[<-|[]]]]; closed. }
    destruct E as (E1 & E2 & E3 & E4). split; [exact E2|]. split; [exact E3|]. split; [|exact E4].
    rewrite <- E1 at 1. apply f2d_finite; assumption.
Qed.

Lemma ex_trace_in n c : 1 <= n <= 2 -> 1 <= c <= 3 -> trace_in ex_rec (ex_trace n c) (ex_cont n c).
Proof.
  intros Hn Hc. unfold trace_in.
  cbn [t_hdr ex_trace s_th s_te s_words ex_cont t_smp].
  split.
  { unfold th_carries, ex_hdr. cbn [th_ffid th_scan th_set th_chan th_ftw th_ext th_skew th_edit th_tbw].
    split; [left; reflexivity|]. split; [left; reflexivity|]. split; [reflexivity|]. split; [left; reflexivity|].
    split; [left; exists (i2d 3); split; [reflexivity|]; apply fixp_i2d; lia|].
    split; [left; reflexivity|]. split; [right; split; reflexivity|]. split; right; split; reflexivity. }
  split.
  { unfold th_range, below. cbn [th_ffid th_scan th_set th_chan th_ftw th_ext th_skew th_edit th_tbw].
    change (10 ^ Z.of_nat 2) with 100. repeat split; lia. }
  split; [cbn; lia|]. split.
  { unfold te_carries, ex_hdr. cbn [te_line te_point te_idx te_samp te_sensor].
    split; [left; eexists; split; [reflexivity|apply fix16_fixp; lia]|].
    split; [right; left; exists 15; split; reflexivity|].
    split; [right; split; reflexivity|]. split; [left; reflexivity|]. right; split; reflexivity. }
  split; [unfold te_range; cbn [te_line te_point te_idx te_samp te_sensor]; lia|].
  split; [reflexivity|].
  exists [(ex_cs 1 1, 1024, 0); (ex_cs 2 2, 1024, 0)], (ex_cs n n, 1024, 0), 1.
  split; [split; [cbn; lia|reflexivity]|]. split.
  { assert (n = 1 \/ n = 2) as [->| ->] by lia; (split; [cbn; lia|reflexivity]). }
  split; [apply (fixp_i2d 1 10); lia|].
  change (g1_format_code (r_g1 ex_rec)) with 8058.
  constructor; [apply (ex_word 1); cbn; tauto|].
  constructor; [apply (ex_word 2); cbn; tauto|].
  constructor; [apply (ex_word (-3)); cbn; tauto|constructor].
Qed.

Lemma ex_fr_ok : fr_ok segd_plat (ex_rec, ex_traces).
Proof.
  split; [exact ex_rec_good|]. split.
  { repeat (constructor; [apply ex_trace_in; lia|]). constructor. }
  split; [reflexivity|]. split; [discriminate|]. reflexivity.
Qed.

Lemma ex_plat_ok : plat_ok segd_plat.
Proof. repeat split. vm_compute. discriminate. Qed.
