(** Counts of SEG-D headers and traces. *)
From Verif Require Import BaseFacts Bcd BcdSpec BcdFacts Platform CodecSpec CodecFacts Fp TraceHdr SegyTypes SegyCodec
  ISegy OSegy SegdTypes SegdSpec ISegd OSegd OpenFacts ReadFacts2 NibFacts SegdHdrFacts SegdFileFacts SegdSmpFacts SegdIoFacts.
Local Open Scope Z_scope.

(** ** The writer's trace counter *)

Lemma write_trace_count p s t s' : d_write_trace p s t = Ok s' ->
  od_written s <> od_chans s /\ od_chans s' = od_chans s /\ od_written s' = wrapu 64 (od_written s + 1).
Proof.
  unfold d_write_trace. destruct (Z.eqb_spec (od_written s) (od_chans s)) as [E|N]; [discriminate|].
  intros H. split; [exact N|].
  destruct (put_block _ _ _) as [f1| |]; cbn [bind] in H; try discriminate H.
  destruct (opt_int _ _) as [n| |]; cbn [bind] in H; try discriminate H.
  destruct (write_exts _ _ _ _ _ _ _) as [f2| |]; cbn [bind] in H; try discriminate H.
  destruct (d_sample_writer _ _) as [[b w]| |]; cbn [bind] in H; try discriminate H.
  destruct (o_samp_buf _ _ _ _) as [buf| |]; cbn [bind] in H; try discriminate H.
  destruct (o_ch_set _ _) as [c| |]; cbn [bind] in H; try discriminate H.
  destruct (write_smps _ _ _ _ _) as [[q dc]| |]; cbn [bind] in H; try discriminate H.
  injection H as <-. split; reflexivity.
Qed.

Lemma write_all_count p n : 0 <= n < 2 ^ 64 -> forall ts s s', d_write_all p s ts = Ok s' ->
  od_chans s = n -> 0 <= od_written s <= n ->
  od_chans s' = n /\ od_written s' = od_written s + len ts /\ od_written s + len ts <= n.
Proof.
  intros Hn. induction ts as [|t ts IH]; intros s s' H C W; cbn [d_write_all] in H.
  - injection H as <-. change (len (@nil trace)) with 0. lia.
  - destruct (d_write_trace p s t) as [s1| |] eqn:E; cbn [bind] in H; try discriminate H.
    destruct (write_trace_count _ _ _ _ E) as (N & C1 & W1).
    rewrite wrapu_small in W1 by lia. rewrite len_cons.
    destruct (IH s1 s' H) as (A & B & D); [congruence|lia|]. lia.
Qed.

Lemma open_inv p g1 g2 sets adds extd extl ls s :
  osegd_open p g1 g2 sets adds extd extl ls = Ok s ->
  len sets = wrapu 64 (g1_scan_types g1) /\ Forall (fun cs => len cs = o_nsets g1 g2) sets /\
  od_chans s = wrapu 64 (p_chans0 p + fold_right Z.add 0 (map c_channels (concat sets))) /\ od_written s = 0.
Proof.
  unfold osegd_open. intros H.
  destruct (SegdTypes.add_blocks _ _) as [m| |]; cbn [bind] in H; try discriminate H.
  destruct (Z.eqb_spec (len sets) (wrapu 64 (g1_scan_types g1))) as [E|N]; cbn [negb] in H; [|discriminate H].
  destruct (d_sample_writer _ _) as [w| |]; cbn [bind] in H; try discriminate H.
  destruct (put_block _ _ empty_file) as [f1| |]; cbn [bind] in H; try discriminate H.
  destruct (put_block _ _ f1) as [f2| |]; cbn [bind] in H; try discriminate H.
  destruct (write_gNs _ _ _) as [f3| |]; cbn [bind] in H; try discriminate H.
  destruct (write_scan_types _ _ _ _ _) as [f4| |] eqn:Es; cbn [bind] in H; try discriminate H.
  destruct (write_blks _ _ f4) as [f5| |]; cbn [bind] in H; try discriminate H.
  destruct (write_blks _ _ f5) as [f6| |]; cbn [bind] in H; try discriminate H.
  injection H as <-. split; [exact E|]. split; [|split; reflexivity].
  clear - Es. revert f3 Es. induction sets as [|cs sets IH]; intros f3 Es; [constructor|].
  cbn [write_scan_types] in Es. destruct (Z.eqb_spec (len cs) (o_nsets g1 g2)); cbn [negb] in Es; [|discriminate Es].
  destruct (write_ch_sets _ _ _ _ _) as [f| |]; cbn [bind] in Es; try discriminate Es.
  constructor; [assumption|]. exact (IH _ Es).
Qed.

(** Tables that do not agree with the general header. *)
Lemma write_scan_types_bad p g1 g2 sets : g2_major g2 < 3 ->
  Forall (Forall (fun c => chset_range (fst3 c) (snd (fst c)) (snd c))) sets ->
  Exists (fun cs => len cs <> o_nsets g1 g2) sets -> forall d,
  write_scan_types p g1 g2 (map (map fst3) sets) (fend d) = Throw ESedaman.
Proof.
  intros M. induction sets as [|cs sets IH]; intros F E d; [inversion E|]. cbn [map write_scan_types].
  rewrite len_map. destruct (Z.eqb_spec (len cs) (o_nsets g1 g2)) as [L|L]; cbn [negb]; [|reflexivity].
  inversion F as [|? ? F1 F2]; subst. rewrite (write_ch_sets_ok p g1 g2 cs M d F1). cbn [bind].
  rewrite write_zero_blocks_ok. apply IH; [exact F2|]. inversion E; [contradiction|assumption].
Qed.

Lemma open_mismatch p g1 k e g2 N hs sets extd extl ls : gh1_range g1 k e -> gh2_range g2 -> g2_major g2 < 3 ->
  Forall (fun h => ghN_range (fst3 h) (snd (fst h)) (snd h)) N ->
  ascending (map fst3 N) -> Forall (fun h => block_fields (gN_block_num (fst3 h)) = None) N ->
  Permutation.Permutation hs (map fst3 N) ->
  Forall (Forall (fun c => chset_range (fst3 c) (snd (fst c)) (snd c))) sets ->
  fmt_known p (g1_format_code g1) ->
  (len sets <> g1_scan_types g1 \/ Exists (fun cs => len cs <> g1_channel_sets g1) sets) ->
  osegd_open p g1 g2 (map (map fst3) sets) (map AN hs) extd extl ls = Throw ESedaman.
Proof.
  intros R1 R2 M RN' A BF P RS (b & w & Hw) Bad.
  unfold osegd_open. rewrite (add_blocks_any (map fst3 N) hs A P).
  2:{ rewrite Forall_map. exact BF. }
  cbn [bind]. rewrite len_map.
  pose proof R1 as R1'. unfold gh1_range in R1'. decompose [and] R1'. clear R1'.
  rewrite wrapu_small by lia.
  destruct (Z.eqb_spec (len sets) (g1_scan_types g1)) as [Eq|Ne]; cbn [negb]; [|reflexivity].
  destruct Bad as [Bad|Bad]; [contradiction|]. rewrite Hw. cbn [bind].
  change empty_file with (fend []).
  rewrite (put_block_fend GEN_HDR_SIZE _ _ [] (gh1_WN p g1 g2 k e R1)) by (rewrite gh1_layout_len; vm_compute; lia).
  cbn [bind].
  rewrite (put_block_fend GEN_HDR_SIZE _ _ _ (gh2_WN g2 R2)) by (rewrite gh2_layout_len; vm_compute; lia).
  cbn [bind]. rewrite (write_gNs_ok p _ _ RN'). cbn [bind].
  rewrite (write_scan_types_bad p g1 g2 sets M RS); [reflexivity|].
  apply Exists_exists in Bad as (cs & I & L). apply Exists_exists. exists cs. split; [exact I|].
  unfold o_nsets. unfold below in *. change (10 ^ Z.of_nat 2) with 100 in *.
  replace (g1_channel_sets g1 =? 1665) with false by lia. rewrite wrapu_small by lia. exact L.
Qed.

Lemma channel_limit : forall p g1 g2 sets adds extd extl ls s n,
  p_chans0 p = 0 ->
  osegd_open p g1 g2 sets adds extd extl ls = Ok s ->
  n = fold_right Z.add 0 (map c_channels (concat sets)) -> 0 <= n < 2 ^ 64 ->
  (0 <= g1_scan_types g1 < 2 ^ 31 -> len sets = g1_scan_types g1) /\
  (0 <= g1_channel_sets g1 < 1665 -> Forall (fun cs => len cs = g1_channel_sets g1) sets) /\
  forall ts s', d_write_all p s ts = Ok s' ->
    len ts <= n /\ (len ts = n -> forall t, d_write_trace p s' t = Throw ESedaman).
Proof.
  intros p g1 g2 sets adds extd extl ls s n P0 H En Hn.
  destruct (open_inv _ _ _ _ _ _ _ _ _ H) as (L & F & C & W). rewrite P0, <- En, Z.add_0_l, wrapu_small in C by lia.
  split; [intros R; rewrite L; apply wrapu_small; lia|]. split.
  { intros R. apply Forall_impl with (2 := F). intros cs ->. unfold o_nsets.
    replace (g1_channel_sets g1 =? 1665) with false by lia. apply wrapu_small. lia. }
  intros ts s' E. destruct (write_all_count p n Hn ts s s' E C ltac:(lia)) as (C' & W' & B).
  split; [lia|]. intros K t. unfold d_write_trace. rewrite C', W', W. rewrite Z.add_0_l, K, Z.eqb_refl. reflexivity.
Qed.

Lemma r_chans_bound r : srec_ok r -> 0 <= r_chans r < 2 ^ 60.
Proof.
  intros (R1 & _ & _ & _ & _ & RS & Sn & Sl & RL & _).
  assert (C : 0 <= g1_channel_sets (r_g1 r) < 100).
  { unfold gh1_range, below in R1. change (10 ^ Z.of_nat 2) with 100 in R1. tauto. }
  unfold r_chans.
  assert (K : forall l, Forall (Forall (fun c => chset_range (fst3 c) (snd (fst c)) (snd c))) l ->
    Forall (fun cs => len cs = g1_channel_sets (r_g1 r)) l ->
    0 <= fold_right Z.add 0 (map (fun c => c_channels (fst3 c)) (concat l)) <= 1000000 * len l).
  { induction l as [|cs l IH]; intros F L; [vm_compute; split; discriminate|].
    inversion F as [|? ? F1 F2]; inversion L as [|? ? L1 L2]; subst.
    cbn [concat]. rewrite map_app, fold_right_app, len_cons. specialize (IH F2 L2).
    set (z := fold_right _ _ (map _ (concat l))) in *.
    assert (Q : forall m, 0 <= z <= m ->
      0 <= fold_right Z.add z (map (fun c => c_channels (fst3 c)) cs) <= m + 10000 * len cs).
    { intros m. clear - F1. induction F1 as [|c cs H F IH]; intros Hz; cbn [map fold_right].
      - change (len (@nil (chset * Z * Z))) with 0. lia.
      - rewrite len_cons. specialize (IH Hz). unfold chset_range, below in H.
        change (10 ^ Z.of_nat 4) with 10000 in H.
        assert (0 <= c_channels (fst3 c) < 10000) by tauto. lia. }
    specialize (Q _ IH). lia. }
  specialize (K _ RS RL). lia.
Qed.

Lemma accepts_declared : forall p r hs tcs,
  plat_ok p -> p_chans0 p = 0 -> rec_good p r ->
  in_order (map fst3 (r_N r)) -> Permutation.Permutation hs (map fst3 (r_N r)) ->
  Forall (fun h => block_fields (gN_block_num (fst3 h)) = None) (r_N r) ->
  Forall (tc_in r) tcs -> len tcs <= r_chans r ->
  exists s s',
    osegd_open p (r_g1 r) (r_g2 r) (map (map fst3) (r_sets r)) (map AN hs) (r_extd r) (r_extl r) [] = Ok s /\
    d_write_all p s (map fst tcs) = Ok s'.
Proof.
  intros p r hs tcs Pk P0 Rg O Pm BF T L. pose proof Rg as (Rk & M & Cv & Fm). pose proof Pk as (Pl & Pf & Pa).
  pose proof (osegd_open_ok p r hs [] Rk (good_known p r Rg) (in_order_ascending _ O) BF Pm) as E.
  rewrite P0, Z.add_0_l in E. pose proof (r_chans_bound r Rk) as Bc. rewrite wrapu_small in E by lia.
  rewrite E. eexists. set (s := mkOD _ _ _ _ _ _ _ _ _ _ _ _).
  destruct (write_all_ok p r Pl Pf Pa Rk M Cv Fm (map fst tcs) (map snd tcs) s (rec_hdr r)) as (s' & E' & _).
  { repeat split. }
  { clear - T. induction T as [|x l H F IH]; cbn [map]; constructor; [exact H|exact IH]. }
  { reflexivity. }
  { cbn. lia. }
  { unfold s. cbn [od_written od_chans]. rewrite len_map. lia. }
  { unfold s. cbn [od_chans]. lia. }
  exists s'. split; [reflexivity|exact E'].
Qed.

Lemma mismatch_refused : forall p g1 k e g2 N hs sets extd extl ls,
  gh1_range g1 k e -> gh2_range g2 -> g2_major g2 < 3 ->
  Forall (fun h => ghN_range (fst3 h) (snd (fst h)) (snd h)) N ->
  in_order (map fst3 N) -> Permutation.Permutation hs (map fst3 N) ->
  Forall (fun h => block_fields (gN_block_num (fst3 h)) = None) N ->
  Forall (Forall (fun c => chset_range (fst3 c) (snd (fst c)) (snd c))) sets ->
  In (g1_format_code g1) [8015; 8022; 8024; 8036; 8038; 8042; 8044; 8048; 8058; 8080; 9036; 9038; 9058; 9080] ->
  (len sets <> g1_scan_types g1 \/ Exists (fun cs => len cs <> g1_channel_sets g1) sets) ->
  osegd_open p g1 g2 (map (map fst3) sets) (map AN hs) extd extl ls = Throw ESedaman.
Proof.
  intros p g1 k e g2 N hs sets extd extl ls R1 R2 M RN' O P BF RS I Bad.
  apply (open_mismatch p g1 k e g2 N); try assumption; [apply in_order_ascending; exact O|].
  unfold fmt_known. cbn [In] in I.
  repeat (destruct I as [I|I]; [rewrite <- I; eexists _, _; reflexivity|]). destruct I.
Qed.

Lemma scan_types_checked p g1 g2 : forall sets f f', write_scan_types p g1 g2 sets f = Ok f' ->
  Forall (fun cs => len cs = o_nsets g1 g2) sets.
Proof.
  induction sets as [|cs sets IH]; intros f f' H; [constructor|]. cbn [write_scan_types] in H.
  destruct (len cs =? o_nsets g1 g2) eqn:E; cbn [negb] in H; [|discriminate]. apply Z.eqb_eq in E.
  apply bind_ok in H as (f1 & _ & H). constructor; [exact E|]. exact (IH _ _ H).
Qed.
Lemma accepted_tables p g1 g2 sets adds extd extl ls o : osegd_open p g1 g2 sets adds extd extl ls = Ok o ->
  len sets = g1_scan_types g1 mod 2 ^ 64 /\
  Forall (fun cs => len cs = (if g1_channel_sets g1 =? 1665 then g2_channel_sets g2 else g1_channel_sets g1) mod 2 ^ 16) sets.
Proof.
  intros H. unfold osegd_open in H. apply bind_ok in H as (m & _ & H).
  destruct (len sets =? wrapu 64 (g1_scan_types g1)) eqn:E; cbn [negb] in H; [|discriminate]. apply Z.eqb_eq in E.
  apply bind_ok in H as (w & _ & H). apply bind_ok in H as (f1 & _ & H). apply bind_ok in H as (f2 & _ & H).
  apply bind_ok in H as (f3 & _ & H). apply bind_ok in H as (f4 & H4 & _). split; [exact E|].
  exact (scan_types_checked _ _ _ _ _ _ H4).
Qed.
