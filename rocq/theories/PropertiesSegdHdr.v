(** C36 to C39 and C74 to C76: single SEG-D header blocks. *)
From Coq Require Import Reals.
From Verif Require Import BaseFacts Bcd BcdSpec Platform CodecSpec Fp FpSpec TraceHdr SegyTypes SegyCodec ISegy OSegy
  SegdTypes SegdSpec SegdDecSpec ISegd OSegd SegdDecFacts SegdHdrProps SegdExamples.
Local Open Scope Z_scope.

(** A platform on which out-of-range conversions are undefined, as in the
    language standard. *)
Definition strict_plat : platform :=
  mkPlatform true strict_d2u (fun _ => Some 65) (2 ^ 40) true true 0 Z.log2 (fun _ => 0) no_exp.

(** ** C36: general header 1 *)

(** The writer stores exactly the half bytes of the standard's table and the
    reader decodes them to the same values; numbers beyond the decimal digits
    are stored as FF.. and read as the decimal value of these digits (165,
    1665, 16665).

    Partial: a base scan interval below 8 ms, scans per block a power of two
    up to 2^15, at most 99 channel sets and skew blocks (refuted outside). *)
Theorem C36_general_header1_partial : forall p g k e g2, gh1_range g k e ->
  let ext := negb (g1_add_blocks g =? 0) && negb (g2_record_len g2 =? 0) in
  wrun (gh1_writer p g g2) (zeros 32) = Ok (blk 32 (gh1_layout g ext k e)) /\
  exists c, rd_gh1 (blk 32 (gh1_layout g ext k e)) = Ok (gh1_seen g ext, c).
Proof. exact gh1_round_trip. Qed.
Print Assumptions C36_general_header1_partial.

(** C74.  The reader on arbitrary bytes: field by field the value of its bytes. *)
Theorem C74_general_header1 : forall b, bytes b -> List.length b = 32%nat ->
  exists g c, rd_gh1 b = Ok (g, c) /\ gh1_of b g.
Proof. exact gh1_dec. Qed.
Print Assumptions C74_general_header1.

Example C36_case :
  gh1_range ex_g1 32 4 /\
  wrun (gh1_writer strict_plat ex_g1 ex_g2) (zeros 32) =
    Ok [0x01; 0x23; 0x80; 0x58; 0x00; 0x00; 0x00; 0x00; 0x01; 0x20; 0x19; 0x22; 0x00; 0x12; 0x34; 0x56;
        0x20; 0x12; 0x34; 0x34; 0x56; 0x78; 0x20; 0x14; 0x01; 0x80; 0x51; 0x01; 0x02; 0x01; 0x01; 0x01].
Proof. split; [apply ex_rec_ok|vm_compute; reflexivity]. Qed.

(** The base scan interval, the scans per block and the channel sets that come
    back. *)
Definition g1_with (bsi spb sets : Z) : gh1 :=
  mkG1 123 8058 120 19 2 200 12 34 56 20 1234 345678 bsi 1 spb 8 51 1 sets 1 1 1.
Definition g1_back (p : platform) (g : gh1) : outcome (Z * Z * Z) :=
  let* b := wrun (gh1_writer p g ex_g2) (zeros 32) in
  let* (g', _) := rd_gh1 b in
  Ok (g1_base_scan_int g', g1_scans_per_block g', g1_channel_sets g').

(** C36, refuted outside these bounds: a base scan interval of 8 ms is
    converted to a signed char, which is undefined; 3 scans per block come back
    as 2; 123 channel sets come back as 23. *)
Theorem C36_general_header1_refuted :
  g1_back strict_plat (g1_with (i2d 2) 16 2) = Ok (i2d 2, 16, 2) /\
  g1_back strict_plat (g1_with (i2d 8) 16 2) = UB /\
  (forall p, p = strict_plat \/ p = segd_plat ->
     g1_back p (g1_with (i2d 2) 3 2) = Ok (i2d 2, 2, 2) /\
     g1_back p (g1_with (i2d 2) 16 123) = Ok (i2d 2, 16, 23)).
Proof.
  split; [vm_compute; reflexivity|]. split; [vm_compute; reflexivity|].
  intros p [-> | ->]; split; vm_compute; reflexivity.
Qed.
Print Assumptions C36_general_header1_refuted.

(** A block with the file number, the number of channel sets and of extended
    blocks in the escape. *)
Definition esc_block : list Z :=
  [0xff; 0xff; 0x80; 0x58; 0x00; 0x00; 0x00; 0x00; 0x01; 0x20; 0x19; 0x22; 0x00; 0x12; 0x34; 0x56;
   0x20; 0x12; 0x34; 0x34; 0x56; 0x78; 0x20; 0x14; 0x01; 0x80; 0x51; 0x01; 0xff; 0x01; 0xff; 0x01].
Example C74_case :
  (let* (g, _) := rd_gh1 esc_block in Ok (g1_file_number g, g1_format_code g, g1_day g, g1_hour g, g1_channel_sets g, g1_extended_blocks g)) =
    Ok (16665, 8058, 200, 12, 165, 165) /\
  dec esc_block 0 4 = 16665 /\ dec esc_block 4 4 = 8058 /\
  (let* (h, _) := rd_ghN strict_plat ([0x01; 0x11; 0x70; 0; 0x83; 0xe9; 0x80; 0; 0; 0x07; 0xd2; 0x40; 0; 1; 2; 3; 0xff; 0xa6; 3; 1] ++ repeat 0 12) in
   Ok (gN_file_number h, gN_block_num h)) = Ok (70000, 3).
Proof. repeat (split; [vm_compute; reflexivity|]). vm_compute. reflexivity. Qed.

(** ** C37: general headers 2 and N *)

(** Partial: the members of general header 2 that only revision 3 has are not
    stored (they keep the reader's previous values). *)
Theorem C37_general_header2_partial : forall p g o, p_left_first p = true -> gh2_range g ->
  wrun (gh2_writer g) (zeros 32) = Ok (blk 32 (gh2_layout g)) /\
  (exists c, rd_rev (blk 32 (gh2_layout g)) = Ok ((g2_major g, g2_minor g), c)) /\
  exists c, rd_gh2_rev2 p (g2_major g) (g2_minor g) o (blk 32 (gh2_layout g)) = Ok (gh2_seen g o, c).
Proof. exact gh2_round_trip. Qed.
Print Assumptions C37_general_header2_partial.

(** Partial: source line and point numbers that are not negative and below
    2^23.  C42 has any number of such blocks in a file. *)
Theorem C37_general_headerN_partial : forall p h kl kp, p_left_first p = true -> ghN_range h kl kp ->
  wrun (ghN_writer p h) (zeros 32) = Ok (blk 32 (ghN_layout h kl kp)) /\
  exists c, rd_ghN p (blk 32 (ghN_layout h kl kp)) = Ok (h, c).
Proof. exact ghN_round_trip. Qed.
Print Assumptions C37_general_headerN_partial.

(** C74.  The same for general header 2 of revision below 3. *)
Theorem C74_general_header2 : forall p o b, p_left_first p = true -> bytes b -> List.length b = 32%nat ->
  exists g c, rd_gh2_rev2 p (byt b 10) (byt b 11) o b = Ok (g, c) /\ gh2_of b g /\
    g2_skew_blocks g = g2_skew_blocks o.
Proof. exact gh2_dec. Qed.
Print Assumptions C74_general_header2.

(** C74.  And for every further general header. *)
Theorem C74_general_headerN : forall p b, p_left_first p = true -> bytes b -> List.length b = 32%nat ->
  exists h c, rd_ghN p b = Ok (h, c) /\ ghN_of b h.
Proof. exact ghN_dec. Qed.
Print Assumptions C74_general_headerN.

Example C37_case :
  gh2_range ex_g2 /\ ghN_range ex_gN (1001 * 2 ^ 16 + 32768) (2002 * 2 ^ 16 + 16384) /\
  wrun (gh2_writer ex_g2) (zeros 32) =
    Ok ([0x01; 0x11; 0x70; 0; 0; 0; 1; 0; 1; 0; 2; 1; 0; 0; 0; 0; 0; 0; 2; 0; 0; 7] ++ repeat 0 10) /\
  wrun (ghN_writer strict_plat ex_gN) (zeros 32) =
    Ok ([0x01; 0x11; 0x70; 0; 0x03; 0xe9; 0x80; 0; 0; 0x07; 0xd2; 0x40; 0; 1; 2; 3; 0xff; 0xa6; 3; 1] ++ repeat 0 12).
Proof.
  pose proof ex_rec_ok as (_ & R2 & _ & RN' & _). split; [exact R2|]. split.
  - cbn [r_N ex_rec] in RN'. inversion RN' as [|? ? H _]. exact H.
  - split; vm_compute; reflexivity.
Qed.

(** C37, refuted for negative numbers: the conversion to an unsigned integer is
    undefined; as gcc compiles it, -1.5 comes back as -1. *)
Definition gN_with (line : Z) : ghN := mkGN 1 line (i2d 7) 1 2 3 0 3 1.
Definition gN_back (p : platform) (h : ghN) : outcome Z :=
  let* b := wrun (ghN_writer p h) (zeros 32) in
  let* (h', _) := rd_ghN p b in Ok (gN_line h').
Theorem C37_general_headerN_refuted :
  gN_back strict_plat (gN_with (i2d (-2))) = UB /\
  gN_back segd_plat (gN_with (i2d (-2))) = Ok (i2d (-2)) /\
  gN_back strict_plat (gN_with (d_div (i2d (-3)) (i2d 2))) = UB /\
  gN_back segd_plat (gN_with (d_div (i2d (-3)) (i2d 2))) = Ok (i2d (-1)).
Proof. repeat split; vm_compute; reflexivity. Qed.
Print Assumptions C37_general_headerN_refuted.

(** ** C38: channel set header *)

(** Partial: start and end times even, a descale exponent that is not negative
    and below 32 in units of 2^-10, a number of subscans that is a power of two
    up to 2^9, an extension flag below 8. *)
Theorem C38_channel_set_partial : forall p c k e, chset_range c k e ->
  wrun (chset_writer p c) (zeros 32) = Ok (blk 32 (chset_layout c k e)) /\
  exists r, rd_chset p (blk 32 (chset_layout c k e)) = Ok (chset_seen c, r).
Proof. exact chset_round_trip. Qed.
Print Assumptions C38_channel_set_partial.

(** C75.  The reader on arbitrary bytes.

    Partial: the extension flag only below 8. *)
Theorem C75_channel_set_partial : forall p b, bytes b -> List.length b = 32%nat ->
  exists v c, rd_chset p b = Ok (v, c) /\ chset_of b v /\ c_number_of_samples v = Some 0.
Proof. exact chset_dec. Qed.
Print Assumptions C75_channel_set_partial.

(** C75, refuted for the others: they are shown as 248 to 255. *)
Theorem C75_extension_flag_refuted : forall p b, bytes b -> List.length b = 32%nat -> 8 <= nib b 56 ->
  exists v c, rd_chset p b = Ok (v, c) /\ c_ext_flag v = 240 + nib b 56.
Proof. exact chset_flag. Qed.
Print Assumptions C75_extension_flag_refuted.

(** A descriptor of 120 channels with an extension flag of 9. *)
Definition set_block (flag : Z) : list Z :=
  [0x01; 0x02; 0; 0; 0x03; 0xe8; 0x04; 0x80; 0x01; 0x20; 0x10; 0x14; 0x02; 0x50; 0x00; 0x72; 0x00; 0x03;
   0x00; 0x12; 0x00; 0x50; 0x00; 0x60; 0; 0; 1; 0x2c; 16 * flag + 2; 1; 0; 2].
Definition set_shown (b : list Z) : outcome (Z * Z * Z * Z * Z * Z) :=
  let* (c, _) := rd_chset strict_plat b in
  Ok (c_number c, c_end c, c_channels c, c_subscans c, c_ext_num c, c_ext_flag c).
Example C75_case : List.length (set_block 3) = 32%nat /\
  set_shown (set_block 3) = Ok (2, 2000, 120, 2, 300, 3) /\ set_shown (set_block 9) = Ok (2, 2000, 120, 2, 300, 249).
Proof. split; [reflexivity|]. split; vm_compute; reflexivity. Qed.

Example C38_case :
  chset_range (ex_cs 1 3) 1024 0 /\
  wrun (chset_writer strict_plat (ex_cs 1 3)) (zeros 32) =
    Ok [0x01; 0x01; 0; 0; 0x03; 0xe8; 0x04; 0x00; 0x00; 0x03; 0x10; 0x04; 0x02; 0x50; 0x00; 0x72; 0x00; 0x03;
        0x00; 0x12; 0x00; 0x50; 0x00; 0x60; 0; 0; 0; 1; 0x11; 1; 0; 2].
Proof.
  split; [|vm_compute; reflexivity].
  unfold chset_range, below, ex_cs. cbn [c_scan_type c_number c_start c_end c_descale
      c_channels c_type c_subscans c_gain c_alias_freq c_alias_slope c_low_freq c_low_slope c_notch1 c_notch2
      c_notch3 c_ext_num c_ext_flag c_hdr_ext c_vert_stack c_streamer c_array].
  assert (F : fixp (i2d 1) 1024 10) by (apply (fixp_i2d 1 10); lia).
  change (10 ^ Z.of_nat 2) with 100. change (10 ^ Z.of_nat 4) with 10000. change (10 ^ Z.of_nat 1) with 10.
  repeat match goal with |- fixp _ _ _ => exact F | |- _ /\ _ => split end; try lia; reflexivity.
Qed.

(** C38, refuted outside: an odd start time loses a millisecond; a negative
    descale exponent is an undefined conversion and, as gcc compiles it, -1
    comes back as -31; an extension flag of 8 comes back as 248; 3 subscans
    come back as 2. *)
Definition cs_with (start sub flag descale : Z) : chset :=
  mkC 1 1 1 start 2000 descale 3 sub 4 250 72 3 12 50 60 0 1 flag 1 1 0 2 None.
Definition cs_back (p : platform) (c : chset) : outcome (Z * Z * Z * Z) :=
  let* b := wrun (chset_writer p c) (zeros 32) in
  let* (c', _) := rd_chset p b in
  Ok (c_start c', c_subscans c', c_ext_flag c', c_descale c').
Theorem C38_channel_set_refuted :
  cs_back strict_plat (cs_with 4 1 1 (i2d 1)) = Ok (4, 1, 1, i2d 1) /\
  cs_back strict_plat (cs_with 3 1 1 (i2d 1)) = Ok (2, 1, 1, i2d 1) /\
  cs_back strict_plat (cs_with 4 3 1 (i2d 1)) = Ok (4, 2, 1, i2d 1) /\
  cs_back strict_plat (cs_with 4 1 8 (i2d 1)) = Ok (4, 1, 248, i2d 1) /\
  cs_back strict_plat (cs_with 4 1 1 (i2d (-1))) = UB /\
  cs_back segd_plat (cs_with 4 1 1 (i2d (-1))) = Ok (4, 1, 1, i2d (-31)).
Proof. repeat split; vm_compute; reflexivity. Qed.
Print Assumptions C38_channel_set_refuted.

(** ** C39: demux trace header *)

(** The escapes of the file number and of the channel set number are undone
    from the extended fields.

    Partial: a sample skew below half a sample; a trace number above 9999 comes
    back as 16665 ([unesc]); the channel set number must be present. *)
Theorem C39_trace_header_partial : forall p h t, p_left_first p = true -> th_carries h t -> th_range t ->
  wrun (trace_header_writer p h) (zeros 20) = Ok (blk 20 (th_layout t)) /\
  exists h' r, rd_trace_header p (blk 20 (th_layout t)) = Ok (h', r) /\ th_shows h' t /\
    forall k, hget h' k <> None ->
      In k ["FFID"; "SCAN_TYPE_NUM"; "CH_SET_NUM"; "CHAN"; "FIRST_TIMING_WORD"; "TR_HDR_EXT";
            "SAMPLE_SKEW"; "TRACE_EDIT"; "TIME_BREAK_WIN"]%string.
Proof. exact th_round_trip. Qed.
Print Assumptions C39_trace_header_partial.

(** C76.  The reader on arbitrary bytes. *)
Theorem C76_trace_header : forall p b, p_left_first p = true -> bytes b -> List.length b = 20%nat ->
  exists h c, rd_trace_header p b = Ok (h, c) /\ th_of b h.
Proof. exact th_dec. Qed.
Print Assumptions C76_trace_header.

Definition th_ex (chan : Z) (skew : value) : hdr :=
  [("FFID", VInt 70000); ("SCAN_TYPE_NUM", VInt 1); ("CH_SET_NUM", VInt 300); ("CHAN", VInt chan);
   ("FIRST_TIMING_WORD", VDbl (i2d 3)); ("TR_HDR_EXT", VInt 2); ("SAMPLE_SKEW", skew)]%string.
Example C39_case :
  th_carries (th_ex 12 (VDbl (d_div (i2d 1) (i2d 4)))) (mkTH 70000 1 300 12 (3 * 2 ^ 8) 2 64 0 0) /\
  th_range (mkTH 70000 1 300 12 (3 * 2 ^ 8) 2 64 0 0) /\
  wrun (trace_header_writer strict_plat (th_ex 12 (VDbl (d_div (i2d 1) (i2d 4))))) (zeros 20) =
    Ok [0xff; 0xff; 0x01; 0xff; 0x00; 0x12; 0; 3; 0; 2; 64; 0; 0; 0; 0; 0x01; 0x2c; 0x01; 0x11; 0x70].
Proof.
  split; [|split; [|vm_compute; reflexivity]].
  - unfold th_carries, th_ex. cbn [th_ffid th_scan th_set th_chan th_ftw th_ext th_skew th_edit th_tbw].
    split; [left; reflexivity|]. split; [left; reflexivity|]. split; [reflexivity|]. split; [left; reflexivity|].
    split; [left; exists (i2d 3); split; [reflexivity|]; apply fixp_i2d; lia|].
    split; [left; reflexivity|]. split; [left; eexists; split; [reflexivity|]|].
    { replace (d_div (i2d 1) (i2d 4)) with (d_div (i2d 64) (d_pow2 8)) by (vm_compute; reflexivity).
      apply FixFacts.fixp_div; lia. }
    split; right; split; reflexivity.
  - unfold th_range, below. cbn [th_ffid th_scan th_set th_chan th_ftw th_ext th_skew th_edit th_tbw].
    change (10 ^ Z.of_nat 2) with 100. lia.
Qed.

(** C39, refuted outside: half a sample of skew is converted to a signed char,
    which is undefined; trace number 10000 comes back as 16665; a skew given as
    an integer throws; a header without channel set number is undefined. *)
Definition th_back (p : platform) (h : hdr) : outcome (option value * option value) :=
  let* b := wrun (trace_header_writer p h) (zeros 20) in
  let* (h', _) := rd_trace_header p b in
  Ok (hget h' "CHAN", hget h' "SAMPLE_SKEW").
Theorem C39_trace_header_refuted :
  th_back strict_plat (th_ex 12 (VDbl (d_div (i2d 1) (i2d 4)))) =
    Ok (Some (VInt 12), Some (VDbl (d_div (i2d 1) (i2d 4)))) /\
  th_back strict_plat (th_ex 12 (VDbl (d_div (i2d 1) (i2d 2)))) = UB /\
  th_back strict_plat (th_ex 10000 (VDbl 0)) = Ok (Some (VInt 16665), Some (VDbl 0)) /\
  th_back strict_plat (th_ex 12 (VInt 0)) = Throw EVariant /\
  th_back strict_plat [("FFID", VInt 1); ("CHAN", VInt 1)]%string = UB.
Proof. repeat split; vm_compute; reflexivity. Qed.
Print Assumptions C39_trace_header_refuted.
