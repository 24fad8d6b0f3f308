(** C45, C46 and C48: opening arbitrary SEG-D files of revision below 3. *)
From Verif Require Import BaseFacts Bcd BcdSpec Platform CodecSpec Fp FpSpec TraceHdr SegyTypes SegyCodec ISegy
  SegdTypes SegdSpec SegdDecSpec ISegd SegdOpenFacts SegdOpenProps SegdExamples.
Local Open Scope Z_scope.

(** C45.  Whatever bytes the file holds (revision below 3): if the reader opens
    it, then every header it shows is the decoding of the block at the place
    where the standard puts it.  The numbers of skew, extended and external
    blocks are those of general header 1, or of general header 2 where general
    header 1 has FF; the traces start after the last of these blocks.

    Partial: the number of channel sets is the decimal number of general
    header 1 even when that field holds the FF escape (refuted below). *)
Theorem C45_block_counts_partial : forall p content ls s,
  p_left_first p = true -> bytes content -> len content < 2 ^ 63 ->
  old_rev content -> isegd_open p content ls = Ok s ->
  gh1_of (slice 0 32 content) (d_g1 s) /\
  (add_of content = 0 -> get_g2 s = None) /\
  (add_of content <> 0 -> exists g, get_g2 s = Some g /\ gh2_of (slice 32 32 content) g) /\
  (exists hs, get_gN s = Ok hs /\
    (forall h, In h hs -> exists x, last_with (more_blocks content) (gN_block_num h) x /\ ghN_of x h) /\
    (forall x, In x (more_blocks content) -> exists h, In h hs /\ gN_block_num h = byt x 18)) /\
  Forall2 (Forall2 chset_of) (map (scan_blocks content) (seq 0 (Z.to_nat (scans_of content)))) (d_sets s) /\
  d_extd s = blocks32 content (extds_at content) (Z.to_nat (extds_of content)) /\
  d_extl s = blocks32 content (extds_at content + 32 * extds_of content) (Z.to_nat (extls_of content)) /\
  fdata (d_file s) = content /\ fpos (d_file s) = traces_at content /\
  d_chans s = fold_right Z.add 0 (map c_channels (concat (d_sets s))) /\ d_read s = 0.
Proof. exact headers_decoded. Qed.
Print Assumptions C45_block_counts_partial.

(** Conversely every file that holds these blocks and has a known format code
    is opened, if memory for 65535 blocks can be had. *)
Theorem C45_opens_partial : forall p content ls,
  p_left_first p = true -> bytes content -> len content < 2 ^ 63 -> old_rev content ->
  traces_at content <= len content ->
  In (dec content 4 4) [8015; 8022; 8024; 8036; 8038; 8042; 8044; 8048; 8058; 8080; 9036; 9038; 9058; 9080] ->
  24 * 65535 <= p_max_alloc p -> exists s, isegd_open p content ls = Ok s.
Proof. intros p content ls Hp Hb Hl Ho. exact (proj2 (proj2 (open_old p content ls Hp Hb Hl Ho))). Qed.
Print Assumptions C45_opens_partial.

(** General header 1 with [x] scan types, [y] channel sets, [z] extended
    blocks (packed decimal), general header 2 of revision 2 with 2 channel
    sets and 3 extended blocks. *)
Definition two_headers (x y z : Z) : list Z :=
  [0x00; 0x01; 0x80; 0x58; 0; 0; 0; 0; 0; 0; 0x26; 0x10; 0x01; 0; 0; 0; 0; 0; 0; 0; 0; 0; 32; 0; 0; 0x80; 0;
   x; y; 0; z; 0;
   0; 0; 1; 0; 2; 0; 3; 0; 0; 0; 2; 1; 0; 0; 0; 0; 0; 0; 2; 0] ++ repeat 0 12.

Example C45_case :
  let content := two_headers 0x02 0x01 0xff ++ repeat 0x11 64 ++ repeat 0x22 96 in
  bytes content /\ old_rev content /\ traces_at content = 224 /\ traces_at content = len content /\
  dec content 4 4 = 8058 /\
  exists s, isegd_open segd_plat content [] = Ok s /\ len (d_extd s) = 3 /\
    map (map c_channels) (d_sets s) = [[1111]; [1111]].
Proof.
  cbv zeta. split; [unfold bytes; repeat (constructor; [vm_compute; split; congruence|]); constructor|].
  split; [right; vm_compute; reflexivity|].
  split; [vm_compute; reflexivity|]. split; [vm_compute; reflexivity|]. split; [vm_compute; reflexivity|].
  eexists. split; [vm_compute; reflexivity|]. split; vm_compute; reflexivity.
Qed.

(** C45, refuted: general header 1 has the FF escape for the number of channel
    sets and general header 2 says 2; the reader takes FF for the decimal
    number 165 (the escape it tests for is 1665) and reads 165 channel sets.
    A file with just the two channel sets cannot be opened at all. *)
Theorem C45_channel_sets_refuted :
  (exists p s, isegd_open p (two_headers 0x01 0xff 0 ++ repeat 0 (165 * 32)) [] = Ok s /\
    byt (two_headers 0x01 0xff 0) 28 = 0xff /\ g2_channel_sets (d_g2 s) = 2 /\
    map len (d_sets s) = [165]) /\
  isegd_open segd_plat (two_headers 0x01 0xff 0 ++ repeat 0 (2 * 32)) [] = Throw EIO.
Proof.
  split; [exists segd_plat; eexists; split; [vm_compute; reflexivity|]|vm_compute; reflexivity].
  split; [reflexivity|]. split; [reflexivity|vm_compute; reflexivity].
Qed.
Print Assumptions C45_channel_sets_refuted.

(** C46, refuted for every file of revision below 3: the channel sets are
    stored with a sample count of zero, so a trace of the record whose header
    extension brings no count is returned without samples, whatever the
    channel set header says. *)
Theorem C46_sample_count_refuted : forall p content ls s n ts s',
  p_left_first p = true -> bytes content -> len content < 2 ^ 63 ->
  old_rev content -> isegd_open p content ls = Ok s ->
  Z.of_nat n <= d_chans s < 2 ^ 64 -> d_take p n s = Ok (ts, s') ->
  Forall (fun t => hget (t_hdr t) "SAMP_NUM" = None -> t_smp t = []) ts.
Proof. exact no_count_no_samples. Qed.
Print Assumptions C46_sample_count_refuted.

(** A record of one channel set from 0 to 16 ms with one channel, 4 sub scans,
    and one trace of the 8 samples of 2 ms; the trace is returned empty. *)
Definition one_channel : list Z :=
  two_headers 0x01 0x01 0 ++
  [0x01; 0x01; 0; 0; 0; 8; 0; 0; 0x00; 0x01; 0x10; 0x20; 0; 0; 0; 0; 0; 0; 0; 0; 0; 0; 0; 0; 0; 0; 0; 0; 0; 0; 0; 0] ++
  [0x00; 0x01; 0x01; 0x01; 0x00; 0x01; 0; 0; 0; 0; 0; 0; 0; 0; 0; 0; 0; 0; 0; 0] ++
  concat (repeat [0x3f; 0x80; 0; 0] 8).
Example C46_case :
  bytes one_channel /\ old_rev one_channel /\
  (exists s, isegd_open segd_plat one_channel [] = Ok s /\ d_chans s = 1 /\
    map (map (fun c => (c_end c - c_start c, c_subscans c))) (d_sets s) = [[(16, 4)]] /\
    len one_channel - fpos (d_file s) = 20 + 4 * 8 /\
    bind (fread 20 (d_file s)) (fun x => bind (rd_trace_header segd_plat (fst x)) (fun h =>
      read_trace_samples segd_plat s (fst h) (snd x))) = Ok ([], mkFile one_channel 116)).
Proof.
  split; [unfold bytes; repeat (constructor; [vm_compute; split; congruence|]); constructor|].
  split; [right; vm_compute; reflexivity|].
  eexists. split; [vm_compute; reflexivity|]. split; [reflexivity|]. split; [vm_compute; reflexivity|].
  split; vm_compute; reflexivity.
Qed.

(** C48.  Opening is safe: no file content whatsoever of revision below 3
    makes the constructor of the reader execute undefined behaviour; it opens
    the file or throws. *)
Theorem C48_open_safe_partial : forall p content ls,
  p_left_first p = true -> bytes content -> len content < 2 ^ 63 -> old_rev content ->
  isegd_open p content ls <> UB.
Proof. intros p content ls Hp Hb Hl Ho. exact (proj1 (open_old p content ls Hp Hb Hl Ho)). Qed.
Print Assumptions C48_open_safe_partial.

Example C48_case :
  bytes (repeat 0xff 7) /\ old_rev (repeat 0xff 7) /\ isegd_open segd_plat (repeat 0xff 7) [] = Throw EIO /\
  old_rev one_channel /\ isegd_open segd_plat (firstn 95 one_channel) [] = Throw EIO.
Proof.
  split; [unfold bytes; repeat (constructor; [vm_compute; split; congruence|]); constructor|].
  split; [right; vm_compute; reflexivity|]. split; [reflexivity|].
  split; [right; vm_compute; reflexivity|vm_compute; reflexivity].
Qed.
