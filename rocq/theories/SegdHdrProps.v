(** Proofs of the properties of single SEG-D blocks. *)
From Coq Require Import Reals.
From Verif Require Import BaseFacts Bcd BcdSpec Platform CodecSpec Fp FpSpec TraceHdr SegyTypes SegyCodec ISegy OSegy
  SegdTypes SegdSpec SegdDecSpec ISegd OSegd FixFacts NibFacts SegdHdrFacts SegdTrcFacts SegdFileFacts SegdIoFacts
  SegdDecFacts.
Local Open Scope Z_scope.

Lemma block_round_trip {A} (w : W) (r : P A) ns v n : WN [] w ns -> RN [] r ns v -> (List.length ns <= 2 * n)%nat ->
  wrun w (zeros (Z.of_nat n)) = Ok (blk n ns) /\ exists c, r (blk n ns) = Ok (v, c).
Proof.
  intros HW HR L. split; [|exact (RN_blk r w ns v n HW HR L)].
  unfold zeros. rewrite Nat2Z.id. exact (proj1 (blk_run w ns n HW L)).
Qed.

Lemma gh1_round_trip p g k e g2 : gh1_range g k e ->
  let ext := negb (g1_add_blocks g =? 0) && negb (g2_record_len g2 =? 0) in
  wrun (gh1_writer p g g2) (zeros 32) = Ok (blk 32 (gh1_layout g ext k e)) /\
  exists c, rd_gh1 (blk 32 (gh1_layout g ext k e)) = Ok (gh1_seen g ext, c).
Proof.
  intros R ext. apply (block_round_trip _ _ _ _ 32); [apply gh1_WN, R|apply gh1_RN, R|].
  rewrite gh1_layout_len. lia.
Qed.

Lemma gh2_round_trip p g o : p_left_first p = true -> gh2_range g ->
  wrun (gh2_writer g) (zeros 32) = Ok (blk 32 (gh2_layout g)) /\
  (exists c, rd_rev (blk 32 (gh2_layout g)) = Ok ((g2_major g, g2_minor g), c)) /\
  exists c, rd_gh2_rev2 p (g2_major g) (g2_minor g) o (blk 32 (gh2_layout g)) = Ok (gh2_seen g o, c).
Proof.
  intros Hp R.
  destruct (block_round_trip (gh2_writer g) (rd_gh2_rev2 p (g2_major g) (g2_minor g) o) _ _ 32 (gh2_WN g R) (gh2_RN p g o Hp R))
    as [E1 E2]; [rewrite gh2_layout_len; lia|].
  split; [exact E1|]. split; [|exact E2].
  destruct (blk_run _ _ 32 (gh2_WN _ R)) as (_ & B & _ & N); [rewrite gh2_layout_len; lia|].
  destruct (gh2_rev_RN g R) as (r & El & RNr). clear E1 E2. revert B N. generalize (blk 32 (gh2_layout g)). intros b B N.
  rewrite El, <- app_assoc in N.
  exact (RN_run _ _ _ _ _ RNr B N).
Qed.

Lemma ghN_round_trip p h kl kp : p_left_first p = true -> ghN_range h kl kp ->
  wrun (ghN_writer p h) (zeros 32) = Ok (blk 32 (ghN_layout h kl kp)) /\
  exists c, rd_ghN p (blk 32 (ghN_layout h kl kp)) = Ok (h, c).
Proof.
  intros Hp R. apply (block_round_trip _ _ _ _ 32); [apply ghN_WN, R|apply ghN_RN; assumption|].
  rewrite ghN_layout_len. lia.
Qed.

Lemma chset_round_trip p c k e : chset_range c k e ->
  wrun (chset_writer p c) (zeros 32) = Ok (blk 32 (chset_layout c k e)) /\
  exists r, rd_chset p (blk 32 (chset_layout c k e)) = Ok (chset_seen c, r).
Proof.
  intros R. apply (block_round_trip _ _ _ _ 32); [apply chset_WN, R|apply chset_RN, R|].
  rewrite chset_layout_len. lia.
Qed.

Lemma th_round_trip p h t : p_left_first p = true -> th_carries h t -> th_range t ->
  wrun (trace_header_writer p h) (zeros 20) = Ok (blk 20 (th_layout t)) /\
  exists h' r, rd_trace_header p (blk 20 (th_layout t)) = Ok (h', r) /\ th_shows h' t /\
    forall k, hget h' k <> None ->
      In k ["FFID"; "SCAN_TYPE_NUM"; "CH_SET_NUM"; "CHAN"; "FIRST_TIMING_WORD"; "TR_HDR_EXT";
            "SAMPLE_SKEW"; "TRACE_EDIT"; "TIME_BREAK_WIN"]%string.
Proof.
  intros Hp C R.
  destruct (block_round_trip (trace_header_writer p h) (rd_trace_header p) _ _ 20 (th_WN p h t C R) (th_RN p t Hp R))
    as [E1 (r & E2)]; [rewrite th_layout_len; lia|].
  split; [exact E1|]. exists (th_hdr t), r. split; [exact E2|]. split; [apply th_hdr_shows, R|].
  intros k. unfold th_hdr. cbn [hget].
  repeat match goal with |- context [String.eqb ?a ?b] => destruct (String.eqb_spec a b) as [->|]; [cbn; tauto|] end.
  intros H. exfalso. apply H. reflexivity.
Qed.
