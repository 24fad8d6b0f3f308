(** C50: reading the traces of a SEG-D file opened with layouts of the trace
    header extensions, in particular with the three layouts that the library
    offers for Sercel systems.  [reader_with p b ls s]: [s] is the state of a
    reader of the file [b], opened with the layouts [ls], after any number of
    traces; [trace_layouts ls]: disjoint fields inside the blocks, distinct
    names that are not words of the trace header, SAMP_NUM at its standard
    place; [user_fields]: what a header shows of the blocks. *)
From Coq Require Import Reals Lra.
From Verif Require Import BaseFacts Platform CodecSpec Fp FpSpec FpReal TraceHdr SegyTypes ISegy LayoutSpec
  SegdTypes SegdSpec SegdDecSpec SegdTrcSpec SegdReadSpec SegdExtSpec SegdUserSpec Sercel ISegd OSegd FixFacts SegdDecFacts SegdTrcRead SegdReadProps
  SegdUserRead SegdExamples SegdTrcExamples.
Local Open Scope Z_scope.

(** C85.  The layouts of the library: seven blocks each, fields inside their
    blocks and disjoint, no name twice, no name of the trace header taken, the
    number of samples at bytes 7 to 9 of the first block, and only types that
    are read and written correctly (no uint64_t, no IBM). *)
Theorem C85_sercel_layouts : forall ls, In ls [sercel_428xl; sercel_428; sercel_408] ->
  trace_layouts ls /\ len ls = 7 /\
  (forall l en, In l ls -> In en l -> e_type en <> U64 /\ e_type en <> Ibm).
Proof. exact tables. Qed.
Print Assumptions C85_sercel_layouts.

(** C50, decoding.  Any trace read from any file in one of seven formats: it
    has at most as many blocks as there are layouts; its header shows the words
    of the 20 header bytes, the field of every block where its layout has it,
    and nothing else; the samples are as without layouts (C41) and the reader
    has moved to the end of the trace.

    Partial: 8036, 8038, 8058, 8080, 9038, 9058, 9080 only; revision below 3;
    whole descale exponents; nothing is said of uint64_t fields, which the
    library's layouts do not have. *)
Theorem C50_decode_partial : forall p b ls s c t s',
  p_left_first p = true -> bytes b -> len b < 2 ^ 63 -> trace_layouts ls -> reader_with p b ls s ->
  In (g1_format_code (d_g1 s)) [8036; 8038; 8058; 8080; 9038; 9058; 9080] ->
  d_read_trace p s = Ok (t, s') -> in_table s c ->
  byt (th_at s) 9 <= len ls /\
  th_of (th_at s) (t_hdr t) /\ user_fields ls (byt (th_at s) 9) b (fpos (d_file s) + 20) (t_hdr t) /\
  (forall m, holds (c_descale c) (IZR m) -> -31 <= m <= 31 ->
   Forall2 (sample_of (g1_format_code (d_g1 s)) m)
     (words (skipn (Z.to_nat (smp_at s)) b) (sample_bytes (g1_format_code (d_g1 s))) (Z.to_nat (smp_num s))) (t_smp t)) /\
  len (t_smp t) = smp_num s /\
  (~ last_trace s -> fdata (d_file s') = b /\ fpos (d_file s') = trace_end s /\ d_read s' = (d_read s + 1) mod 2 ^ 64) /\
  trace_end s <= len b.
Proof. exact with_decoded. Qed.
Print Assumptions C50_decode_partial.

(** C50, safety.  A trace with at most as many blocks as layouts is read
    without undefined behaviour, and successfully if its bytes are in the file,
    memory can be had and no further record is to be opened.

    Partial: ten formats; the channel set of the trace is in the table. *)
Theorem C50_reads_partial : forall p b ls s c,
  p_left_first p = true -> bytes b -> len b < 2 ^ 63 -> trace_layouts ls -> reader_with p b ls s ->
  byt (th_at s) 9 <= len ls ->
  In (g1_format_code (d_g1 s)) [9036; 8022; 8042; 8036; 8038; 8058; 8080; 9038; 9058; 9080] -> in_table s c ->
  ((last_trace s -> old_rev (skipn (Z.to_nat (trace_end s)) b)) -> d_read_trace p s <> UB) /\
  (~ last_trace s \/ trace_end s = len b -> trace_end s <= len b -> 2 ^ 27 <= p_max_alloc p ->
   exists t s', d_read_trace p s = Ok (t, s')).
Proof. exact with_complete. Qed.
Print Assumptions C50_reads_partial.

(** C50.  With the layouts of the library the first block is read as the
    standard has it (and as without layouts in revision 0 and 1): receiver line
    and point, index, number of samples, sensor type. *)
Theorem C50_first_block_partial : forall p b ls s c t s',
  p_left_first p = true -> bytes b -> len b < 2 ^ 63 -> In ls [sercel_428xl; sercel_428; sercel_408] ->
  reader_with p b ls s -> In (g1_format_code (d_g1 s)) [8036; 8038; 8058; 8080; 9038; 9058; 9080] ->
  d_read_trace p s = Ok (t, s') -> in_table s c -> byt (th_at s) 9 <> 0 ->
  te_of (te_at s) 0 (t_hdr t) /\ hget (t_hdr t) "SENSOR_TYPE" = Some (VInt (byt (te_at s) 20)).
Proof. exact first_block. Qed.
Print Assumptions C50_first_block_partial.

(** A file of revision 2 with two traces of seven Sercel blocks and one of
    none; the reader after the first trace. *)
Definition sercel_blocks (n line : Z) : list Z :=
  [0; 0; line; 0; 0; 6; 1; 0; 0; n] ++ repeat 0 10 ++ [3] ++ repeat 0 11 ++
  [0x40; 0x08; 0; 0; 0; 0; 0; 0] ++ [0xc0; 0x08; 0; 0; 0; 0; 0; 0] ++ [0x3f; 0xc0; 0; 0] ++ [9] ++ repeat 0 7 ++ [0; 1; 0; 2] ++
  repeat 0 160.
Definition sercel_trace (k n line : Z) (ws : list Z) : list Z :=
  [0x00; 0x01; 0x01; 0x01; 0x00; 0x01; 0; 0; 0; k; 0; 0; 0; 0; 0; 0; 0; 0; 0; 0] ++
  firstn (Z.to_nat (32 * k)) (sercel_blocks n line) ++ ws.
Definition ex_sercel : list Z :=
  one_rec 0x80 0x58 3 (sercel_trace 7 2 5 wds ++ sercel_trace 2 1 8 (firstn 4 wds) ++ sercel_trace 0 0 0 []).
Definition opened_with (b : list Z) (ls : ext_layouts) : isegd :=
  match isegd_open segd_plat b ls with Ok s => s | _ => no_reader end.
Definition s0 : isegd := opened_with ex_sercel sercel_428xl.

Example C50_decode_case :
  bytes ex_sercel /\ reader_with segd_plat ex_sercel sercel_428xl s0 /\ in_table s0 (first_set s0) /\
  byt (th_at s0) 9 = 7 /\ holds (c_descale (first_set s0)) (IZR 1) /\ trace_end s0 <= len ex_sercel /\
  d_read_trace segd_plat s0 = Ok (got s0, after s0) /\ t_smp (got s0) = [i2d 2; i2d (-5)] /\
  hget (t_hdr (got s0)) "R_LINE" = Some (VInt 5) /\ hget (t_hdr (got s0)) "REC_X" = Some (VDbl (i2d 3)) /\
  hget (t_hdr (got s0)) "REC_Y" = Some (VDbl (i2d (-3))) /\ hget (t_hdr (got s0)) "TRACE_NUMBER" = Some (VInt 65538) /\
  reader_with segd_plat ex_sercel sercel_428xl (after s0) /\ hget (t_hdr (got (after s0))) "R_LINE" = Some (VInt 8) /\
  hget (t_hdr (got (after s0))) "TRC_MAX_TIME" = None /\ t_smp (got (after s0)) = [i2d 2] /\
  reader_with segd_plat ex_sercel sercel_428xl (after (after s0)) /\ last_trace (after (after s0)) /\
  hget (t_hdr (got (after (after s0)))) "R_LINE" = None /\ hget (t_hdr (got (after (after s0)))) "CHAN" = Some (VInt 1).
Proof.
  split; [byte_list|].
  assert (R0 : reader_with segd_plat ex_sercel sercel_428xl s0).
  { apply with_open; [right; vm_compute; reflexivity|vm_compute; reflexivity]. }
  split; [exact R0|]. split; [apply table_of; vm_compute; reflexivity|]. split; [vm_compute; reflexivity|].
  split; [replace (c_descale (first_set s0)) with (i2d 1) by (vm_compute; reflexivity); apply (i2d_holds 1); lia|].
  split; [vm_compute; discriminate|].
  do 6 (split; [vm_compute; reflexivity|]).
  assert (R1 : reader_with segd_plat ex_sercel sercel_428xl (after s0)).
  { apply (with_next _ _ _ s0 (got s0)); [exact R0|vm_compute; reflexivity|]. intros H. vm_compute in H. discriminate. }
  split; [exact R1|]. do 3 (split; [vm_compute; reflexivity|]).
  split; [|split; [vm_compute; reflexivity|]; split; vm_compute; reflexivity].
  apply (with_next _ _ _ (after s0) (got (after s0))); [exact R1|vm_compute; reflexivity|]. intros H. vm_compute in H. discriminate.
Qed.

(** C50, refuted without the bound on the number of blocks.  The number of
    blocks is a byte of the file.  If it is larger than the number of layouts
    and the blocks are in the file, reading the trace is undefined behaviour,
    in every state of every reader; with the library's layouts there are such
    files. *)
Theorem C50_more_blocks_refuted :
  (forall p b ls s, p_left_first p = true -> bytes b -> len b < 2 ^ 63 -> trace_layouts ls -> reader_with p b ls s ->
     len ls < byt (th_at s) 9 -> smp_at s <= len b -> d_read_trace p s = UB) /\
  (forall ls, In ls [sercel_428xl; sercel_428; sercel_408] ->
     exists b s, bytes b /\ reader_with segd_plat b ls s /\ byt (th_at s) 9 = 8 /\ smp_at s <= len b /\
       d_read_trace segd_plat s = UB).
Proof.
  split; [exact with_short|]. intros ls H.
  assert (B : bytes (one_rec 0x80 0x58 1 (sercel_trace 8 2 5 (repeat 0 32 ++ wds)))) by byte_list.
  destruct H as [<-|[<-|[<-|[]]]];
    (eexists (one_rec 0x80 0x58 1 (sercel_trace 8 2 5 (repeat 0 32 ++ wds))), _; split; [exact B|];
     split; [apply with_open; [right; vm_compute; reflexivity|vm_compute; reflexivity]|];
     split; [vm_compute; reflexivity|]; split; [vm_compute; discriminate|vm_compute; reflexivity]).
Qed.
Print Assumptions C50_more_blocks_refuted.

(** C50, refuted for revision 2: a receiver line with a fraction is stored in
    the extended field with FFFFFF in the short one.  Without layouts the line
    70000.5 is shown; with each of the library's layouts 16777215, and the
    extended number is in no field. *)
Definition far_trace : list Z :=
  [0x00; 0x01; 0x01; 0x01; 0x00; 0x01; 0; 0; 0; 1; 0; 0; 0; 0; 0; 0; 0; 0; 0; 0] ++
  [255; 255; 255; 255; 255; 255; 1; 0; 0; 2; 0x01; 0x11; 0x70; 0x80; 0; 0; 0; 6; 0; 0; 3] ++ repeat 0 11 ++ wds.
Definition far_file : list Z := one_rec 0x80 0x58 1 far_trace.
Theorem C50_extended_line_refuted :
  bytes far_file /\ g2_major (d_g2 (opened far_file)) = 2 /\
  hget (t_hdr (got (opened far_file))) "R_LINE" = Some (VDbl (fix16 70000 32768)) /\
  holds (fix16 70000 32768) (70000 + / 2)%R /\
  forall ls, In ls [sercel_428xl; sercel_428; sercel_408] ->
    isegd_open segd_plat far_file ls = Ok (opened_with far_file ls) /\
    hget (t_hdr (got (opened_with far_file ls))) "R_LINE" = Some (VInt 16777215) /\
    t_smp (got (opened_with far_file ls)) = [i2d 2; i2d (-5)].
Proof.
  split; [byte_list|]. split; [vm_compute; reflexivity|]. split; [vm_compute; reflexivity|]. split.
  - pose proof (fixv_fixp _ _ _ (fix16_fixp 70000 32768 ltac:(lia) ltac:(lia))) as K. unfold fixv in K.
    replace (70000 + / 2)%R with (IZR (70000 * 2 ^ 16 + 32768) * powerRZ 2 (- (16)))%R; [exact K|].
    change (70000 * 2 ^ 16 + 32768) with 4587552768. cbn [powerRZ Z.opp Pos.to_nat Pos.iter_op Nat.add]. simpl. lra.
  - intros ls H. destruct H as [<-|[<-|[<-|[]]]]; (split; [vm_compute; reflexivity|split; vm_compute; reflexivity]).
Qed.
Print Assumptions C50_extended_line_refuted.
