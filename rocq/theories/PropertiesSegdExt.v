(** C40: trace header extension blocks of 32 bytes.  [block_layout l]: the
    fields of [l] lie inside a block and do not overlap; [fields_decoded] and
    [fields_stored] say what a header shows for the fields of the layouts. *)
From Coq Require Import Reals.
From Verif Require Import BaseFacts Bcd Platform CodecSpec Fp FpSpec TraceHdr SegyTypes SegyCodec ISegy OSegy LayoutSpec
  SegdTypes SegdSpec SegdDecSpec SegdTrcSpec SegdReadSpec SegdExtSpec ISegd OSegd FixFacts SegdFileFacts SegdExtProps SegdExamples SegdTrcExamples.
Local Open Scope Z_scope.

(** C40, reading.  Any bytes in the file, any header with an extension count
    that is at most the number of layouts: nothing outside the library's
    buffers is touched, the blocks are read whenever they are in the file, the
    reader then stands behind them, every field holds the value its bytes stand
    for and nothing else in the header changes.

    Partial: the layouts must be block layouts; the names differ (a repeated
    name shows the field read last); the value of uint64_t fields is not
    described, see below. *)
Theorem C40_read_partial : forall p s h f n,
  p_left_first p = true -> bytes (fdata f) -> 0 <= fpos f -> len (fdata f) < 2 ^ 63 ->
  hget h "TR_HDR_EXT" = Some (VInt n) -> 0 <= n < 256 -> n <= len (d_layouts s) ->
  (forall l, In l (d_layouts s) -> block_layout l) ->
  read_trace_header_ext p s h f <> UB /\
  (fpos f + 32 * n <= len (fdata f) -> exists r, read_trace_header_ext p s h f = Ok r) /\
  (forall h' f', read_trace_header_ext p s h f = Ok (h', f') ->
     fdata f' = fdata f /\ fpos f' = fpos f + 32 * n /\
     (NoDup (concat (map names (d_layouts s))) -> fields_decoded (d_layouts s) n f h h')).
Proof. exact read_user. Qed.
Print Assumptions C40_read_partial.

Definition lay1 : layout := [(0, ("A", I16)); (2, ("B", F32)); (6, ("C", U24))]%string.
Definition lay2 : layout := [(24, ("D", F64)); (0, ("E", I8))]%string.
Lemma lay_fits : forall l, In l [lay1; lay2] -> block_layout l.
Proof.
  intros l Hl. split.
  - intros en Hen. cbn in Hl. repeat destruct Hl as [<-|Hl]; [| |destruct Hl]; cbn in Hen;
      repeat (destruct Hen as [<-|Hen]; [cbn; lia|]); destruct Hen.
  - intros i j a b Ha Hb Nij. unfold apart. cbn in Hl. repeat destruct Hl as [<-|Hl]; [| |destruct Hl].
    + destruct i as [|[|[|i]]], j as [|[|[|j]]]; cbn in Ha, Hb; try congruence;
        try (destruct i; discriminate); try (destruct j; discriminate); injection Ha as <-; injection Hb as <-; cbn; lia.
    + destruct i as [|[|i]], j as [|[|j]]; cbn in Ha, Hb; try congruence;
        try (destruct i; discriminate); try (destruct j; discriminate); injection Ha as <-; injection Hb as <-; cbn; lia.
Qed.
Lemma lay_names : NoDup (concat (map names [lay1; lay2])).
Proof. cbn. repeat (constructor; [cbn; intros K; repeat (destruct K as [K|K]; [discriminate|]); exact K|]). constructor. Qed.

(** Two blocks: -2, 1.5, 0x010203 and 1.0, -1. *)
Definition lay_file : list Z :=
  [9; 0xff; 0xfe; 0x3f; 0xc0; 0; 0; 1; 2; 3] ++ repeat 7 23 ++ [0xff] ++ repeat 7 23 ++ [0x3f; 0xf0; 0; 0; 0; 0; 0; 0] ++ [5].
Definition lay_reader (ls : ext_layouts) : isegd := mkD (open_in []) gh1_zero gh2_zero gh3_zero [] [] [] [] ls 0 0 0.
Definition lay_hdr (n : Z) : hdr := [("CHAN", VInt 3); ("TR_HDR_EXT", VInt n)]%string.
Example C40_read_case :
  bytes lay_file /\ d_layouts (lay_reader [lay1; lay2]) = [lay1; lay2] /\
  exists h', read_trace_header_ext segd_plat (lay_reader [lay1; lay2]) (lay_hdr 2) (mkFile lay_file 1) = Ok (h', mkFile lay_file 65) /\
    hget h' "A" = Some (VInt (-2)) /\ hget h' "B" = Some (VDbl 0x3ff8000000000000) /\ hget h' "C" = Some (VInt 0x10203) /\
    hget h' "D" = Some (VDbl (i2d 1)) /\ hget h' "E" = Some (VInt (-1)) /\ hget h' "CHAN" = Some (VInt 3).
Proof.
  split; [byte_list|]. split; [reflexivity|]. eexists. split; [vm_compute; reflexivity|].
  repeat split; vm_compute; reflexivity.
Qed.

(** C40, writing.  On a machine where the 20 bytes of [trc_hdr_buf] and the 32
    bytes of the next member may be used as one buffer of 52 bytes, the blocks
    of block layouts are written without touching anything else, and
    successfully if the header has a value of the right kind for every field.

    Partial: no IBM fields; the assumption on the arrays is not the language's
    (see [C40_buffer_overflow_refuted]). *)
Theorem C40_write_partial : forall p mj ls h n f,
  p_flat_bufs p = true -> 0 <= n <= len ls -> (forall l, In l ls -> block_layout l) ->
  (forall l en, In l ls -> In en l -> e_type en <> Ibm) ->
  write_exts p mj ls h (Z.to_nat n) 0 f <> UB /\
  ((forall l en, In l ls -> In en l -> gives h en) -> exists f', write_exts p mj ls h (Z.to_nat n) 0 f = Ok f').
Proof.
  intros p mj ls h n f Hp Hn Hl Ht. assert (N : (0 + Z.to_nat n <= List.length ls)%nat) by (unfold len in Hn; lia).
  split; [apply write_safe; assumption|]. intros G. apply write_given; assumption.
Qed.
Print Assumptions C40_write_partial.

(** C40, round trip.  Whenever a trace with [n] extension blocks was appended
    to a file and the extension blocks of the result are read with the same
    layouts, every field shows the stored value (an integer reduced to the
    width of the field, a double rounded to the precision of the field), no
    other header entry changes and the reader stands behind the blocks.

    Partial: no IBM and no uint64_t fields; block layouts and distinct names;
    at most as many blocks as layouts. *)
Theorem C40_round_trip_partial : forall p o t o' d n s h0,
  p_left_first p = true ->
  od_file o = fend d -> d_write_trace p o t = Ok o' ->
  hget (t_hdr t) "TR_HDR_EXT" = Some (VInt n) -> 0 <= n < 256 -> n <= len (od_layouts o) ->
  (forall l, In l (od_layouts o) -> block_layout l) ->
  (forall l en, In l (od_layouts o) -> In en l -> e_type en <> U64 /\ e_type en <> Ibm) ->
  NoDup (concat (map names (od_layouts o))) ->
  d_layouts s = od_layouts o -> hget h0 "TR_HDR_EXT" = Some (VInt n) ->
  exists h', read_trace_header_ext p s h0 (mkFile (fdata (od_file o')) (len d + 20)) =
               Ok (h', mkFile (fdata (od_file o')) (len d + 20 + 32 * n)) /\
    fields_stored (od_layouts o) n (t_hdr t) h0 h'.
Proof. exact round_user. Qed.
Print Assumptions C40_round_trip_partial.

(** A record of revision 2 with the two layouts; C keeps 24 of its bits. *)
Definition lay_out (ls : ext_layouts) : osegd :=
  match osegd_open segd_plat ex_g1 ex_g2 [[ex_cs 1 1; ex_cs 2 2]] [AN ex_gN] [ex_block] [ex_block] ls with
  | Ok o => o | _ => mkOD empty_file ex_g1 ex_g2 [] [] [] [] [] 0 0 [] [] end.
Definition lay_trace (n : Z) : trace :=
  mkTrace [("FFID", VInt 70000); ("SCAN_TYPE_NUM", VInt 1); ("CH_SET_NUM", VInt 1); ("CHAN", VInt 1);
   ("FIRST_TIMING_WORD", VDbl (i2d 3)); ("TR_HDR_EXT", VInt n); ("A", VInt (-2)); ("B", VDbl (i2d 7));
   ("C", VInt 0x5010203); ("D", VDbl 0x3ff8000000000001); ("E", VInt 100); ("X", VInt 0x0102030405060708)]%string [i2d 2].
Example C40_round_trip_case :
  exists o', od_file (lay_out [lay1; lay2]) = fend (fdata (od_file (lay_out [lay1; lay2]))) /\
  od_layouts (lay_out [lay1; lay2]) = [lay1; lay2] /\
  (forall l en, In l [lay1; lay2] -> In en l -> e_type en <> U64 /\ e_type en <> Ibm) /\
  (forall l en, In l [lay1; lay2] -> In en l -> gives (t_hdr (lay_trace 2)) en) /\
  d_write_trace segd_plat (lay_out [lay1; lay2]) (lay_trace 2) = Ok o' /\
  exists h' f', read_trace_header_ext segd_plat (lay_reader [lay1; lay2]) (lay_hdr 2)
    (mkFile (fdata (od_file o')) (len (fdata (od_file (lay_out [lay1; lay2]))) + 20)) = Ok (h', f') /\
  hget h' "C" = Some (VInt 0x10203) /\ hget h' "D" = Some (VDbl 0x3ff8000000000001) /\ hget h' "B" = Some (VDbl (i2d 7)).
Proof.
  eexists. split; [vm_compute; reflexivity|]. split; [reflexivity|].
  split; [|split; [|split; [vm_compute; reflexivity|]]].
  - intros l en Hl Hen. cbn in Hl. repeat destruct Hl as [<-|Hl]; [| |destruct Hl]; cbn in Hen;
      repeat (destruct Hen as [<-|Hen]; [cbn; split; discriminate|]); destruct Hen.
  - intros l en Hl Hen. cbn in Hl. repeat destruct Hl as [<-|Hl]; [| |destruct Hl]; cbn in Hen;
      repeat (destruct Hen as [<-|Hen]; [eexists; reflexivity|]); destruct Hen.
  - eexists _, _. split; [vm_compute; reflexivity|]. repeat split; vm_compute; reflexivity.
Qed.

(** C40, without layouts, revision 2: the first block follows the standard and
    brings back receiver line and point to 1/65536, the indices, the number of
    samples and the sensor type; further blocks are skipped. *)
Theorem C40_standard_round_trip_partial : forall p h h0 t n d,
  p_left_first p = true -> p_flat_bufs p = true -> te_carries h t -> te_range t -> (1 <= n)%nat ->
  exists f', write_exts p 2 [] h n 0 (fend d) = Ok f' /\
  exists h', rd_exts p 2 [] n 0 (mkFile (fdata f') (len d)) h0 = Ok (h', mkFile (fdata f') (len (fdata f'))) /\ te_shows h' t /\
    (forall k, ~ In k ["R_LINE"; "R_POINT"; "R_POINT_IDX"; "SAMP_NUM"; "SENSOR_TYPE"]%string -> hget h' k = hget h0 k).
Proof. exact standard_block. Qed.
Print Assumptions C40_standard_round_trip_partial.

Example C40_standard_round_trip_case :
  let t := mkTE (7 * 2 ^ 16 + 32768) (15 * 2 ^ 16) 0 3 0 in
  te_carries (ex_hdr 1 1) t /\ te_range t /\
  exists f' h', write_exts segd_plat 2 [] (ex_hdr 1 1) 2 0 (fend [1; 2]) = Ok f' /\
    rd_exts segd_plat 2 [] 2 0 (mkFile (fdata f') 2) (lay_hdr 2) = Ok (h', mkFile (fdata f') 66) /\
    hget h' "R_LINE" = Some (VDbl 0x401e000000000000) /\ hget h' "SAMP_NUM" = Some (VInt 3).
Proof.
  cbv zeta. split; [|split].
  - pose proof (ex_trace_in 1 1 ltac:(lia) ltac:(lia)) as (_ & _ & _ & K & _). exact K.
  - pose proof (ex_trace_in 1 1 ltac:(lia) ltac:(lia)) as (_ & _ & _ & _ & K & _). exact K.
  - eexists _, _. split; [vm_compute; reflexivity|]. split; [vm_compute; reflexivity|]. split; vm_compute; reflexivity.
Qed.

(** C40, refuted: the writer clears and fills 32 bytes of [trc_hdr_buf], an
    array of 20.  Where objects end at their declared size, writing any
    extension block is undefined, whatever the header and the layouts. *)
Theorem C40_buffer_overflow_refuted : forall p mj ls h n i f,
  p_flat_bufs p = false -> n <> 0%nat -> write_exts p mj ls h n i f = UB.
Proof. intros p mj ls h n i f Hp Hn. destruct n as [|n]; [congruence|]. cbn [write_exts]. rewrite Hp. reflexivity. Qed.
Print Assumptions C40_buffer_overflow_refuted.

(** C40, refuted: a uint64_t field is not read where it is.  The layout below
    is a block layout; 0x0102030405060708 is written at offset 8 and 0 comes
    back. *)
Definition lay64 : layout := [(8, ("X", U64))]%string.
Theorem C40_uint64_refuted : exists p o o' s h',
  block_layout lay64 /\ od_layouts o = [lay64] /\ d_layouts s = [lay64] /\
  d_write_trace p o (lay_trace 1) = Ok o' /\ hget (t_hdr (lay_trace 1)) "X" = Some (VInt 0x0102030405060708) /\
  slice (len (fdata (od_file o)) + 20 + 8) 8 (fdata (od_file o')) = [1; 2; 3; 4; 5; 6; 7; 8] /\
  read_trace_header_ext p s (lay_hdr 1) (mkFile (fdata (od_file o')) (len (fdata (od_file o)) + 20)) =
    Ok (h', mkFile (fdata (od_file o')) (len (fdata (od_file o)) + 20 + 32)) /\
  hget h' "X" = Some (VInt 0).
Proof.
  eexists segd_plat, (lay_out [lay64]), _, (lay_reader [lay64]), _. split.
  { split.
    - intros en [<-|[]]. cbn. lia.
    - intros i j a b Ha Hb N. destruct i as [|[|i]], j as [|[|j]]; cbn in Ha, Hb; congruence. }
  split; [reflexivity|]. split; [reflexivity|]. split; [vm_compute; reflexivity|]. split; [reflexivity|].
  split; [vm_compute; reflexivity|]. split; vm_compute; reflexivity.
Qed.
Print Assumptions C40_uint64_refuted.

(** C40, refuted: the constructors take any layouts.  With a field that ends
    behind the 32 bytes, or with fewer layouts than a trace has blocks, reading
    the first trace of a file that holds all its blocks is undefined. *)
Definition blocks_file (n : Z) : list Z :=
  one_rec 0x80 0x58 1 ([0x00; 0x01; 0x01; 0x01; 0x00; 0x01; 0; 0; 0; n; 0; 0; 0; 0; 0; 0; 0; 0; 0; 0] ++
    repeat 0 64 ++ wds).
Theorem C40_layouts_refuted :
  (exists p b s, bytes b /\ isegd_open p b [[(30, ("A", I32))]]%string = Ok s /\ byt (th_at s) 9 = 1 /\ smp_at s <= len b /\
     d_read_trace p s = UB) /\
  (exists p b s, bytes b /\ isegd_open p b [[(0, ("A", I32))]]%string = Ok s /\ byt (th_at s) 9 = 2 /\ smp_at s <= len b /\
     d_read_trace p s = UB).
Proof.
  split.
  - eexists segd_plat, (blocks_file 1), _. split; [byte_list|]. split; [vm_compute; reflexivity|].
    split; [vm_compute; reflexivity|]. split; [apply Z.leb_le; vm_compute; reflexivity|vm_compute; reflexivity].
  - eexists segd_plat, (blocks_file 2), _. split; [byte_list|]. split; [vm_compute; reflexivity|].
    split; [vm_compute; reflexivity|]. split; [apply Z.leb_le; vm_compute; reflexivity|vm_compute; reflexivity].
Qed.
Print Assumptions C40_layouts_refuted.

(** C40, refuted: a header whose receiver line is the integer 5 comes back with
    the double 5.0 from the standard block, 0 with the integer 0: get_i64 on
    the value read throws in the first case although it was written from an
    integer. *)
Definition line_back (v : Z) : outcome (option value) :=
  let* f := write_exts segd_plat 2 [] [("R_LINE", VInt v)]%string 1 0 (fend []) in
  let* (h, _) := rd_exts segd_plat 2 [] 1 0 (mkFile (fdata f) 0) [] in
  Ok (hget h "R_LINE").
Theorem C40_line_type_refuted :
  line_back 5 = Ok (Some (VDbl (i2d 5))) /\ line_back 0 = Ok (Some (VInt 0)).
Proof. split; vm_compute; reflexivity. Qed.
Print Assumptions C40_line_type_refuted.
