(** C41, C48 and C49: reading the traces of arbitrary SEG-D files of revision
    below 3.  [reader p b s]: [s] is the state of a reader of the file [b]
    after it was opened and any number of traces were read; [th_at s],
    [te_at s], [smp_at s] and [trace_end s] say where the parts of the next
    trace are in the file. *)
From Coq Require Import Reals Lra.
From Verif Require Import BaseFacts Bcd BcdSpec Platform CodecSpec Fp FpSpec FpReal TraceHdr SegyTypes SegyCodec ISegy
  SegdTypes SegdSpec SegdDecSpec SegdTrcSpec SegdReadSpec ISegd OSegd FixFacts SegdSmpFacts SegdOpenFacts SegdTrcRead SegdReadProps
  SegdExamples SegdTrcExamples.
Local Open Scope Z_scope.

(** C41.  Any trace read from any file in one of seven formats: the header
    holds the fields of the 20 header bytes and, if there are extension
    blocks, of the first one; sample [i] is the number that word [i] stands
    for times two to the power of the descale exponent of the channel set
    (exactly, unless a double over- or underflows); the reader has moved to the
    end of the trace.

    Partial: 8036, 8038, 8058, 8080, 9038, 9058, 9080 only; revision below 3;
    the descale exponent is a whole number. *)
Theorem C41_decode_partial : forall p b s c t s',
  p_left_first p = true -> bytes b -> len b < 2 ^ 63 -> reader p b s ->
  In (g1_format_code (d_g1 s)) [8036; 8038; 8058; 8080; 9038; 9058; 9080] ->
  d_read_trace p s = Ok (t, s') -> in_table s c ->
  th_of (th_at s) (t_hdr t) /\
  (byt (th_at s) 9 <> 0 -> te_of (te_at s) (g2_major (d_g2 s)) (t_hdr t)) /\
  (byt (th_at s) 9 = 0 -> forall k, In k ext_keys -> hget (t_hdr t) k = None) /\
  (forall m, holds (c_descale c) (IZR m) -> -31 <= m <= 31 ->
   Forall2 (sample_of (g1_format_code (d_g1 s)) m)
     (words (skipn (Z.to_nat (smp_at s)) b) (sample_bytes (g1_format_code (d_g1 s))) (Z.to_nat (smp_num s))) (t_smp t)) /\
  len (t_smp t) = smp_num s /\
  (~ last_trace s -> fdata (d_file s') = b /\ fpos (d_file s') = trace_end s /\ d_read s' = (d_read s + 1) mod 2 ^ 64) /\
  trace_end s <= len b.
Proof. exact trace_decoded. Qed.
Print Assumptions C41_decode_partial.

(** Conversely, a trace all of whose bytes are in the file is read, if memory
    can be had (128 MiB are enough) and no further record is to be opened. *)
Theorem C41_reads_partial : forall p b s c,
  p_left_first p = true -> bytes b -> len b < 2 ^ 63 -> reader p b s ->
  In (g1_format_code (d_g1 s)) [9036; 8022; 8042; 8036; 8038; 8058; 8080; 9038; 9058; 9080] ->
  in_table s c -> ~ last_trace s \/ trace_end s = len b ->
  trace_end s <= len b -> 2 ^ 27 <= p_max_alloc p -> exists t s', d_read_trace p s = Ok (t, s').
Proof. exact trace_complete. Qed.
Print Assumptions C41_reads_partial.

Lemma ex_8058_bytes : bytes ex_8058.
Proof. byte_list. Qed.
Lemma ex_8058_reader : reader segd_plat ex_8058 (opened ex_8058).
Proof. apply reader_open; [right; vm_compute; reflexivity|vm_compute; reflexivity]. Qed.

(** The samples 1.0 and -2.5 times two; after both traces of the first record
    the reader is in the second one. *)
Example C41_decode_case :
  bytes ex_8058 /\ reader segd_plat ex_8058 (opened ex_8058) /\
  in_table (opened ex_8058) (first_set (opened ex_8058)) /\
  holds (c_descale (first_set (opened ex_8058))) (IZR 1) /\
  d_read_trace segd_plat (opened ex_8058) = Ok (got (opened ex_8058), after (opened ex_8058)) /\
  t_smp (got (opened ex_8058)) = [i2d 2; i2d (-5)] /\
  hget (t_hdr (got (opened ex_8058))) "R_LINE" = Some (VInt 5) /\
  reader segd_plat ex_8058 (after (opened ex_8058)) /\ last_trace (after (opened ex_8058)) /\
  reader segd_plat ex_8058 (after (after (opened ex_8058))) /\
  t_smp (got (after (after (opened ex_8058)))) = [i2d 2; i2d (-5)].
Proof.
  split; [exact ex_8058_bytes|]. split; [exact ex_8058_reader|].
  split; [apply table_of; vm_compute; reflexivity|].
  split; [replace (c_descale (first_set (opened ex_8058))) with (i2d 1) by (vm_compute; reflexivity); apply (i2d_holds 1); lia|].
  split; [vm_compute; reflexivity|]. split; [vm_compute; reflexivity|]. split; [vm_compute; reflexivity|].
  assert (R : reader segd_plat ex_8058 (after (opened ex_8058))).
  { apply (reader_next _ _ (opened ex_8058) (got (opened ex_8058))); [exact ex_8058_reader|vm_compute; reflexivity|].
    intros H. vm_compute in H. discriminate. }
  split; [exact R|]. split; [vm_compute; reflexivity|]. split; [|vm_compute; reflexivity].
  apply (reader_next _ _ (after (opened ex_8058)) (got (after (opened ex_8058)))); [exact R|vm_compute; reflexivity|].
  intros _. right. vm_compute. reflexivity.
Qed.

(** C41.  Round trip: in these seven formats writer and reader agree on the
    number of bits and the words that the writer stores for a list of samples
    are read as the same samples, for every whole descale exponent [m].
    [back fmt m v w]: [v / 2^m] is a value of the format and [w] its word.

    Partial: as above; 8036 and 8038 need a platform that converts negative
    doubles to unsigned like gcc does. *)
Theorem C41_round_trip_partial : forall p fmt m,
  p_left_first p = true -> conv_fmt p fmt -> In fmt [8036; 8038; 8058; 8080; 9038; 9058; 9080] ->
  -1022 <= m <= 1023 ->
  exists bits sw rd, d_sample_writer p fmt = Ok (bits, sw) /\ d_sample_reader p fmt = Ok (bits, rd) /\
  forall vs ws, Forall2 (back fmt m) vs ws ->
    (forall pend buf, bits * len vs <= 8 * len buf ->
       exists rest, write_smps p sw pend (map (fun x => d_div x (d_exp2 p (i2d m))) vs) buf = Ok (pend, (concat ws, rest)) /\
         len (concat ws) + len rest = len buf) /\
    (forall rest, prep (pmap (fun x => d_mul x (d_exp2 p (i2d m))) rd) (List.length vs) (concat ws ++ rest) = Ok (vs, rest)).
Proof.
  intros p fmt m Hp Hc Hf Hm. destruct (codec_ok p fmt Hp Hc Hf) as (n & f & r & C & Hn).
  assert (E : d_exp2 p (i2d m) = d_pow2 m).
  { apply d_exp2_holds; [apply (i2d_holds m); lia|exact Hm]. }
  exists (8 * Z.of_nat n), (SBytes f), r. split; [apply C|]. split; [apply C|]. intros vs ws F. rewrite E. split.
  - intros pend buf L.
    assert (Lb : (n * List.length vs <= List.length buf)%nat) by (unfold len in L; nia).
    exists (skipn (n * List.length vs) buf). split; [exact (write_smps_ok p fmt n f r m pend C Hm vs ws buf F Lb)|].
    unfold len. rewrite (words_len p fmt n f r m C vs ws F), skipn_length. lia.
  - intros rest. exact (read_smps_ok p fmt n f r m C Hm vs ws rest F).
Qed.
Print Assumptions C41_round_trip_partial.

Example C41_round_trip_case :
  Forall2 (back 8058 1) [i2d 2; i2d 4; i2d (-6)] (map (fun v => be_bytes 4 (d2f (i2d v))) [1; 2; -3]) /\
  conv_fmt segd_plat 8058.
Proof.
  split; [|right; cbn; lia]. cbn [map].
  constructor; [apply (ex_word 1); cbn; tauto|].
  constructor; [apply (ex_word 2); cbn; tauto|].
  constructor; [apply (ex_word (-3)); cbn; tauto|constructor].
Qed.

(** C80.  Format codes: an open reader has one of 14 codes; a file with
    another code is refused with the library's exception as soon as its general
    headers are there; the writer refuses it too. *)
Theorem C80_other_codes_refused :
  let codes := [8015; 8022; 8024; 8036; 8038; 8042; 8044; 8048; 8058; 8080; 9036; 9038; 9058; 9080] in
  (forall p b ls s, isegd_open p b ls = Ok s -> In (g1_format_code (d_g1 s)) codes) /\
  (forall p b ls, p_left_first p = true -> bytes b -> len b < 2 ^ 63 -> old_rev b -> sets_at b <= len b ->
     ~ In (dec b 4 4) codes -> isegd_open p b ls = Throw ESedaman) /\
  (forall p g1 g2 sets adds extd extl ls, ~ In (g1_format_code g1) codes ->
     (forall o, osegd_open p g1 g2 sets adds extd extl ls <> Ok o) /\
     osegd_open p g1 g2 sets [] extd extl ls = Throw ESedaman).
Proof. split; [exact open_known|]. split; [exact open_refused|exact write_refused]. Qed.
Print Assumptions C80_other_codes_refused.

Example C80_case :
  bytes (one_rec 0x80 0x39 1 []) /\ old_rev (one_rec 0x80 0x39 1 []) /\
  sets_at (one_rec 0x80 0x39 1 []) <= len (one_rec 0x80 0x39 1 []) /\ dec (one_rec 0x80 0x39 1 []) 4 4 = 8039.
Proof.
  split; [byte_list|]. split; [right; vm_compute; reflexivity|]. split; [vm_compute; discriminate|vm_compute; reflexivity].
Qed.

(** C41 and C48, refuted for four formats: no trace with samples in 8015,
    8024, 8044 or 8048 is ever returned; if its bytes are in the file, reading
    it is undefined behaviour. *)
Theorem C41_unreadable_formats_refuted :
  (forall p b s c, p_left_first p = true -> bytes b -> len b < 2 ^ 63 -> reader p b s ->
     In (g1_format_code (d_g1 s)) [8015; 8024; 8044; 8048] -> in_table s c -> smp_num s <> 0 ->
     (forall r, d_read_trace p s <> Ok r) /\
     (2 ^ 27 <= p_max_alloc p -> smp_at s + smp_num s * bad_bits (g1_format_code (d_g1 s)) / 8 <= len b -> d_read_trace p s = UB)) /\
  (exists p b s c, p_left_first p = true /\ bytes b /\ reader p b s /\ g1_format_code (d_g1 s) = 8024 /\
     in_table s c /\ smp_num s = 1 /\ d_read_trace p s = UB).
Proof.
  split; [exact bad_ub|].
  exists segd_plat, (one_rec 0x80 0x24 1 (file_trace 1 1 [1; 0])), (opened (one_rec 0x80 0x24 1 (file_trace 1 1 [1; 0]))),
    (first_set (opened (one_rec 0x80 0x24 1 (file_trace 1 1 [1; 0])))).
  split; [reflexivity|]. split; [byte_list|].
  split; [apply reader_open; [right; vm_compute; reflexivity|vm_compute; reflexivity]|].
  split; [vm_compute; reflexivity|]. split; [apply table_of; vm_compute; reflexivity|].
  split; vm_compute; reflexivity.
Qed.
Print Assumptions C41_unreadable_formats_refuted.

(** C41, refuted for 8022 and 8042: all samples of a trace are equal to the
    first one, whatever the words are; the writer stores every word at the
    first byte. *)
Theorem C41_first_word_only_refuted :
  (forall p b s c t s', p_left_first p = true -> bytes b -> len b < 2 ^ 63 -> reader p b s ->
     In (g1_format_code (d_g1 s)) [8022; 8042] -> in_table s c -> d_read_trace p s = Ok (t, s') ->
     len (t_smp t) = smp_num s /\ exists x, Forall (eq x) (t_smp t)) /\
  (exists p b s c t s', p_left_first p = true /\ bytes b /\ reader p b s /\ g1_format_code (d_g1 s) = 8022 /\
     in_table s c /\ d_read_trace p s = Ok (t, s') /\ len (t_smp t) = 2) /\
  (forall p fmt bits sw vs pend pend' c d c', In fmt [8022; 8042] -> d_sample_writer p fmt = Ok (bits, sw) ->
     write_smps p sw pend vs c = Ok (pend', (d, c')) -> d = [] /\ tl c' = tl c).
Proof.
  split; [exact stuck_samples|]. split.
  - set (b := one_rec 0x80 0x22 1 (file_trace 1 2 [0x35; 0x36])).
    exists segd_plat, b, (opened b), (first_set (opened b)), (got (opened b)), (after (opened b)).
    split; [reflexivity|]. split; [unfold b; byte_list|].
    split; [apply reader_open; [right; vm_compute; reflexivity|vm_compute; reflexivity]|].
    split; [vm_compute; reflexivity|]. split; [apply table_of; vm_compute; reflexivity|].
    split; vm_compute; reflexivity.
  - intros p fmt bits sw vs pend pend' c d c' Hf Hw.
    assert (X : exists f, sw = SFirst f).
    { destruct Hf as [<-|[<-|[]]]; cbn [d_sample_writer] in Hw; injection Hw as _ <-; eexists; reflexivity. }
    destruct X as [f ->]. clear Hw Hf. revert pend pend' c d c'.
    induction vs as [|v vs IH]; intros pend pend' c d c' H; cbn [write_smps] in H; [injection H as _ <- <-; auto|].
    cbn [sample_step] in H. destruct (f v) as [x|e|]; cbn [bind] in H; try discriminate.
    unfold wmod in H at 1. destruct c as [|c0 c]; cbn [bind] in H; [discriminate|].
    destruct (write_smps p (SFirst f) pend vs (x :: c)) as [[q [d2 c2]]|e|] eqn:E; cbn [bind] in H; try discriminate.
    injection H as _ <- <-. apply IH in E. destruct E as [-> E]. split; [reflexivity|exact E].
Qed.
Print Assumptions C41_first_word_only_refuted.

(** C41, refuted for 9036: the little-endian word of 1 in a channel set with
    descale exponent 1 is read as 512. *)
Theorem C41_24bit_little_endian_refuted : exists p b s c t s',
  p_left_first p = true /\ bytes b /\ reader p b s /\ g1_format_code (d_g1 s) = 9036 /\ in_table s c /\
  holds (c_descale c) (IZR 1) /\
  words (skipn (Z.to_nat (smp_at s)) b) 3 1 = [[1; 0; 0]] /\ word_real 9036 [1; 0; 0] 1 /\
  d_read_trace p s = Ok (t, s') /\ t_smp t = [i2d 512] /\ ~ sample_of 9036 1 [1; 0; 0] (i2d 512).
Proof.
  set (b := one_rec 0x90 0x36 1 (file_trace 1 1 [1; 0; 0])).
  exists segd_plat, b, (opened b), (first_set (opened b)), (got (opened b)), (after (opened b)).
  split; [reflexivity|]. split; [unfold b; byte_list|].
  split; [apply reader_open; [right; vm_compute; reflexivity|vm_compute; reflexivity]|].
  split; [vm_compute; reflexivity|]. split; [apply table_of; vm_compute; reflexivity|].
  split; [replace (c_descale (first_set (opened b))) with (i2d 1) by (vm_compute; reflexivity); apply (i2d_holds 1); lia|].
  split; [vm_compute; reflexivity|].
  assert (W : word_real 9036 [1; 0; 0] 1) by reflexivity.
  split; [exact W|]. split; [vm_compute; reflexivity|]. split; [vm_compute; reflexivity|].
  intros H. specialize (H 1%R W ltac:(intros [Q|Q]; discriminate Q)).
  destruct (i2d_holds 512 ltac:(lia)) as [(_ & _ & V) _]. destruct H as (_ & _ & H). rewrite V in H.
  rewrite powerRZ_1, Rmult_1_l in H. lra.
Qed.
Print Assumptions C41_24bit_little_endian_refuted.

(** C48.  Reading traces is safe: in no state of a reader does reading a trace
    execute undefined behaviour; it returns the trace or throws.

    Partial: formats other than 8015, 8024, 8044, 8048; the scan type and the
    channel set named by the trace header exist; the record that follows is of
    revision below 3. *)
Theorem C48_traces_safe_partial : forall p b s c,
  p_left_first p = true -> bytes b -> len b < 2 ^ 63 -> reader p b s ->
  In (g1_format_code (d_g1 s)) [9036; 8022; 8042; 8036; 8038; 8058; 8080; 9038; 9058; 9080] -> in_table s c ->
  (last_trace s -> old_rev (skipn (Z.to_nat (trace_end s)) b)) -> d_read_trace p s <> UB.
Proof. exact trace_not_ub. Qed.
Print Assumptions C48_traces_safe_partial.

(** A file cut in the middle of its second trace. *)
Example C48_traces_case :
  let b := firstn 180 ex_8058 in
  bytes b /\ reader segd_plat b (after (opened b)) /\ in_table (after (opened b)) (first_set (opened b)) /\
  last_trace (after (opened b)) /\ trace_end (after (opened b)) = 208 /\
  d_read_trace segd_plat (after (opened b)) = Throw EIO.
Proof.
  cbv zeta. set (b := firstn 180 ex_8058).
  split; [unfold b; apply Forall_forall; intros x Hx; pose proof ex_8058_bytes as B; unfold bytes in B;
          rewrite Forall_forall in B; apply B; rewrite <- (firstn_skipn 180 ex_8058); apply in_or_app; left; exact Hx|].
  split.
  { apply (reader_next _ _ (opened b) (got (opened b)));
      [apply reader_open; [right; vm_compute; reflexivity|vm_compute; reflexivity]|vm_compute; reflexivity|].
    intros H. vm_compute in H. discriminate. }
  split; [apply table_of; vm_compute; reflexivity|].
  split; [vm_compute; reflexivity|]. split; vm_compute; reflexivity.
Qed.

(** C48, refuted: the scan type and channel set numbers of a trace header are
    not checked.  Whenever they name no channel set of the record, the reader
    indexes a vector out of range. *)
Theorem C48_channel_set_number_refuted :
  (forall p b s, p_left_first p = true -> bytes b -> len b < 2 ^ 63 -> reader p b s ->
     (forall c, ~ in_table s c) -> smp_at s <= len b -> d_read_trace p s = UB) /\
  (exists p b s, p_left_first p = true /\ bytes b /\ reader p b s /\ (forall c, ~ in_table s c) /\ smp_at s <= len b /\
     d_has_trace s = true /\ set_num (th_at s) = 2 /\ map len (d_sets s) = [1]).
Proof.
  split; [exact outside_ub|].
  set (b := one_rec 0x80 0x58 1 (file_trace 2 1 [1; 0; 0; 0])). exists segd_plat, b, (opened b).
  split; [reflexivity|]. split; [unfold b; byte_list|].
  split; [apply reader_open; [right; vm_compute; reflexivity|vm_compute; reflexivity]|].
  split; [apply no_table; vm_compute; reflexivity|]. split; [vm_compute; discriminate|].
  split; [vm_compute; reflexivity|]. split; vm_compute; reflexivity.
Qed.
Print Assumptions C48_channel_set_number_refuted.

(** C48, refuted for revision 3: the sensor block (type 0x41) is copied 28
    bytes from offset 13 of a block of 32 bytes. *)
Theorem C48_sensor_block_refuted : exists p b,
  p_left_first p = true /\ bytes b /\ nib b 22 = 3 /\ byt b 42 = 3 /\ byt b 127 = 0x41 /\ len b = 192 /\ isegd_open p b [] = UB.
Proof.
  exists segd_plat, (file_head 0x80 0x58 3 0 ++ [0; 0; 1; 0; 2; 0; 1; 0; 0; 0; 3; 0] ++ repeat 0 20 ++ repeat 0 32 ++
                     repeat 0 31 ++ [0x41] ++ repeat 0 64).
  split; [reflexivity|]. split; [byte_list|]. repeat (split; [vm_compute; reflexivity|]). vm_compute; reflexivity.
Qed.
Print Assumptions C48_sensor_block_refuted.

(** C49.  After the last trace of a record the headers shown are those of the
    record that follows it in the file: general header 1, general header 2,
    channel sets, extended and external blocks are decoded from its bytes
    [b'], and the reader stands at its first trace.

    Partial: revision below 3; of the further general headers only those with
    a number that occurs in the new record; FF counts need a general header 2
    in the new record. *)
Theorem C49_next_record_partial : forall p b s c t s',
  p_left_first p = true -> bytes b -> len b < 2 ^ 63 -> reader p b s ->
  In (g1_format_code (d_g1 s)) [9036; 8022; 8042; 8036; 8038; 8058; 8080; 9038; 9058; 9080] ->
  in_table s c -> last_trace s ->
  let b' := skipn (Z.to_nat (trace_end s)) b in
  old_rev b' -> no_escape b' -> trace_end s <> len b -> d_read_trace p s = Ok (t, s') ->
  gh1_of (slice 0 32 b') (d_g1 s') /\
  (add_of b' = 0 -> get_g2 s' = None) /\
  (add_of b' <> 0 -> exists g, get_g2 s' = Some g /\ gh2_of (slice 32 32 b') g) /\
  (exists hs, get_gN s' = Ok hs /\ (add_of b' = 0 -> hs = []) /\
    (forall h x, In h hs -> In x (more_blocks b') -> byt x 18 = gN_block_num h ->
       exists y, last_with (more_blocks b') (gN_block_num h) y /\ ghN_of y h) /\
    (forall x, In x (more_blocks b') -> exists h, In h hs /\ gN_block_num h = byt x 18)) /\
  Forall2 (Forall2 chset_of) (map (scan_blocks b') (seq 0 (Z.to_nat (scans_of b')))) (d_sets s') /\
  d_extd s' = blocks32 b' (extds_at b') (Z.to_nat (extds_of b')) /\
  d_extl s' = blocks32 b' (extds_at b' + 32 * extds_of b') (Z.to_nat (extls_of b')) /\
  fdata (d_file s') = b /\ fpos (d_file s') = trace_end s + traces_at b' /\
  d_chans s' = fold_right Z.add 0 (map c_channels (concat (d_sets s'))) /\ d_read s' = 0.
Proof. exact next_record. Qed.
Print Assumptions C49_next_record_partial.

Example C49_case :
  let s := after (opened ex_8058) in
  reader segd_plat ex_8058 s /\ in_table s (first_set s) /\ last_trace s /\
  old_rev (skipn (Z.to_nat (trace_end s)) ex_8058) /\ no_escape (skipn (Z.to_nat (trace_end s)) ex_8058) /\
  trace_end s <> len ex_8058 /\ d_read_trace segd_plat s = Ok (got s, after s) /\ d_chans (after s) = 1.
Proof.
  cbv zeta. split; [apply C41_decode_case|]. split; [apply table_of; vm_compute; reflexivity|].
  split; [vm_compute; reflexivity|]. split; [right; vm_compute; reflexivity|].
  split; [intros H; vm_compute in H; discriminate|]. split; [vm_compute; discriminate|].
  split; vm_compute; reflexivity.
Qed.

(** C49, refuted for the further general headers: the first record has one
    with number 3, the second record has none; after reading the first record
    the reader still shows it. *)
Theorem C49_stale_block_refuted : exists p b s c t s' h,
  p_left_first p = true /\ bytes b /\ reader p b s /\ in_table s c /\ last_trace s /\
  old_rev (skipn (Z.to_nat (trace_end s)) b) /\ d_read_trace p s = Ok (t, s') /\
  add_of (skipn (Z.to_nat (trace_end s)) b) = 1 /\ more_blocks (skipn (Z.to_nat (trace_end s)) b) = [] /\
  get_gN s' = Ok [h] /\ gN_block_num h = 3.
Proof.
  set (b := file_head 0x80 0x58 2 0 ++ file_gh2 ++ file_ghN 3 77 ++ file_set 1 ++ file_trace 1 2 wds ++
            one_rec 0x80 0x58 1 (file_trace 1 2 wds)).
  exists segd_plat, b, (opened b), (first_set (opened b)), (got (opened b)), (after (opened b)),
    (match get_gN (after (opened b)) with Ok (h :: _) => h | _ => ex_gN end).
  split; [reflexivity|]. split; [unfold b; byte_list|].
  split; [apply reader_open; [right; vm_compute; reflexivity|vm_compute; reflexivity]|].
  split; [apply table_of; vm_compute; reflexivity|].
  split; [vm_compute; reflexivity|]. split; [right; vm_compute; reflexivity|].
  split; [vm_compute; reflexivity|]. split; [vm_compute; reflexivity|]. split; [vm_compute; reflexivity|].
  split; vm_compute; reflexivity.
Qed.
Print Assumptions C49_stale_block_refuted.

(** C49, refuted for FF counts: the second record has no general header 2 and
    FF extended blocks; the reader takes the number (1) from general header 2
    of the first record. *)
Theorem C49_stale_count_refuted : exists p b s c t s',
  p_left_first p = true /\ bytes b /\ reader p b s /\ in_table s c /\ last_trace s /\
  old_rev (skipn (Z.to_nat (trace_end s)) b) /\ d_read_trace p s = Ok (t, s') /\
  add_of (skipn (Z.to_nat (trace_end s)) b) = 0 /\ extds_of (skipn (Z.to_nat (trace_end s)) b) = 0 /\
  d_extd s' = [repeat 7 32].
Proof.
  set (b := one_rec 0x80 0x58 1 (file_trace 1 2 wds) ++ file_head 0x80 0x58 0 0xff ++ file_set 1 ++ repeat 7 32).
  exists segd_plat, b, (opened b), (first_set (opened b)), (got (opened b)), (after (opened b)).
  split; [reflexivity|]. split; [unfold b; byte_list|].
  split; [apply reader_open; [right; vm_compute; reflexivity|vm_compute; reflexivity]|].
  split; [apply table_of; vm_compute; reflexivity|].
  split; [vm_compute; reflexivity|]. split; [left; vm_compute; reflexivity|].
  split; [vm_compute; reflexivity|]. split; [vm_compute; reflexivity|]. split; vm_compute; reflexivity.
Qed.
Print Assumptions C49_stale_count_refuted.
