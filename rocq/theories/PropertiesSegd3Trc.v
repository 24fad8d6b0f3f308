(** C55: reading the traces of SEG-D files of revision 3.  [reader3 p b s]: [s]
    is the state of a reader of the file [b] within its first record. *)
From Coq Require Import Reals Lra.
From Verif Require Import BaseFacts Bcd BcdSpec Platform CodecSpec Fp FpSpec FpReal SampleReal TraceHdr SegyTypes SegyCodec ISegy
  SegdTypes SegdSpec SegdDecSpec SegdTrcSpec SegdReadSpec Segd3Spec Segd3TrcSpec ISegd SegdOpenFacts SegdTrcRead Segd3Trc
  SegdExamples SegdTrcExamples Segd3Examples.
Local Open Scope Z_scope.

(** C55.  Any trace read from any revision 3 file in one of seven formats: the
    header holds the fields of the 20 header bytes and, if there are extension
    blocks, of the first one; the number of samples is that of the extension
    block or, without one, that of the channel set header; in a channel set
    without descale multiplier sample [i] is the number that word [i] stands
    for; the reader has moved to the end of the trace.

    Partial: 8036, 8038, 8058, 8080, 9038, 9058, 9080 only; first record of the
    file; receiver numbers that are not negative; fewer than 2^32 bits of
    samples; the trace number and descale multipliers are refuted below. *)
Theorem C55_decode_partial : forall p b s c n t s',
  p_left_first p = true -> bytes b -> len b < 2 ^ 63 -> reader3 p b s ->
  let fmt := g1_format_code (d_g1 s) in
  In fmt [8036; 8038; 8058; 8080; 9038; 9058; 9080] -> in_table s c -> smp3_num s c n ->
  n * (8 * Z.of_nat (sample_bytes fmt)) < 2 ^ 32 -> d_read_trace p s = Ok (t, s') ->
  th_of (th_at s) (t_hdr t) /\
  (byt (th_at s) 9 <> 0 -> te3_of (te_at s) (t_hdr t)) /\
  (byt (th_at s) 9 = 0 -> forall k, In k ext3_keys -> hget (t_hdr t) k = None) /\
  len (t_smp t) = n /\
  (holds (c_descale c) 0 ->
   Forall2 (sample_of fmt 0) (words (skipn (Z.to_nat (smp_at s)) b) (sample_bytes fmt) (Z.to_nat n)) (t_smp t)) /\
  (~ last_trace s -> fdata (d_file s') = b /\ fpos (d_file s') = trace3_end s n /\ d_read s' = (d_read s + 1) mod 2 ^ 64) /\
  trace3_end s n <= len b.
Proof.
  intros p b s c n t s' Hp Hb Hl R fmt Hf T Hn Hfit E.
  destruct (trace_decoded3 p b s c n t s' Hp Hb Hl R Hf T Hn Hfit E) as (H1 & H2 & H3 & H4 & _ & H5 & H6 & H7).
  split; [exact H1|]. split; [intros X; apply (H2 X)|]. split; [exact H3|]. split; [exact H4|].
  split; [intros X; apply (H5 0 X); lia|]. split; [exact H6|exact H7].
Qed.
Print Assumptions C55_decode_partial.

(** Reading a trace is never undefined behaviour, and a trace all of whose
    bytes are in the file is read.

    Partial: formats other than 8015, 8024, 8044, 8048; the channel set named
    by the trace header exists; fewer than 2^32 bits of samples; no further
    record is to be opened; the second part if 4 GiB can be allocated. *)
Theorem C55_reads_partial : forall p b s c n,
  p_left_first p = true -> bytes b -> len b < 2 ^ 63 -> reader3 p b s ->
  let fmt := g1_format_code (d_g1 s) in
  In fmt [9036; 8022; 8042; 8036; 8038; 8058; 8080; 9038; 9058; 9080] -> in_table s c -> smp3_num s c n ->
  n * (8 * Z.of_nat (sample_bytes fmt)) < 2 ^ 32 -> ~ last_trace s \/ trace3_end s n = len b ->
  d_read_trace p s <> UB /\
  (trace3_end s n <= len b -> 2 ^ 32 <= p_max_alloc p -> exists t s', d_read_trace p s = Ok (t, s')).
Proof. exact trace_total3. Qed.
Print Assumptions C55_reads_partial.

(** Three traces: with an extension block, without, and with one that has
    another number of samples than the channel set header. *)
Example C55_case :
  let b := ex3z in let s := opened b in let s2 := after s in let s3 := after s2 in
  bytes b /\ reader3 segd_plat b s /\ reader3 segd_plat b s2 /\ reader3 segd_plat b s3 /\
  in_table s (first_set s) /\ smp3_num s (first_set s) 2 /\ holds (c_descale (first_set s)) 0 /\
  te3_of (te_at s) (t_hdr (got s)) /\ receivers_pos (te_at s) /\ t_smp (got s) = [i2d 1; f2d 0xc0200000] /\
  smp3_num s2 (first_set s) 2 /\ t_smp (got s2) = [i2d 1; f2d 0xc0200000] /\
  last_trace s3 /\ smp3_num s3 (first_set s) 1 /\ trace3_end s3 1 = len b /\ t_smp (got s3) = [i2d 1] /\
  d_has_trace (after s3) = false.
Proof.
  cbv zeta. set (b := ex3z). pose proof ex3z_bytes as B. pose proof ex3z_1 as R1. pose proof ex3z_2 as R2. pose proof ex3z_3 as R3.
  fold b in B, R1, R2, R3.
  assert (T : in_table (opened b) (first_set (opened b))) by (apply table_of; vm_compute; reflexivity).
  assert (N : smp3_num (opened b) (first_set (opened b)) 2) by (vm_compute; reflexivity).
  split; [exact B|]. split; [exact R1|]. split; [exact R2|]. split; [exact R3|]. split; [exact T|]. split; [exact N|].
  split; [replace (c_descale (first_set (opened b))) with (i2d 0) by (vm_compute; reflexivity); apply (i2d_holds 0); lia|].
  split.
  { assert (F : In (g1_format_code (d_g1 (opened b))) [8036; 8038; 8058; 8080; 9038; 9058; 9080]).
    { replace (g1_format_code (d_g1 (opened b))) with 8058 by (vm_compute; reflexivity). cbn. tauto. }
    assert (L : len b < 2 ^ 63) by (vm_compute; reflexivity).
    assert (W : 2 * (8 * Z.of_nat (sample_bytes (g1_format_code (d_g1 (opened b))))) < 2 ^ 32) by (vm_compute; reflexivity).
    assert (E : d_read_trace segd_plat (opened b) = Ok (got (opened b), after (opened b))) by (vm_compute; reflexivity).
    destruct (C55_decode_partial segd_plat b (opened b) _ 2 _ _ eq_refl B L R1 F T N W E) as (_ & H & _).
    apply H. vm_compute. discriminate. }
  split; [repeat split; vm_compute; reflexivity|].
  repeat (split; [vm_compute; reflexivity|]). vm_compute; reflexivity.
Qed.

(** C55, refuted: the trace number.  A channel number of FFFF says that the
    number is in bytes 21 to 23 of the extension block; whatever is there, the
    trace header shows CHAN 16665 and TRACE_NUMBER 0. *)
Theorem C55_trace_number_refuted :
  (forall p b s c n t s', p_left_first p = true -> bytes b -> len b < 2 ^ 63 -> reader3 p b s ->
     let fmt := g1_format_code (d_g1 s) in
     In fmt [8036; 8038; 8058; 8080; 9038; 9058; 9080] -> in_table s c -> smp3_num s c n ->
     n * (8 * Z.of_nat (sample_bytes fmt)) < 2 ^ 32 -> d_read_trace p s = Ok (t, s') ->
     byt (th_at s) 9 <> 0 -> hget (t_hdr t) "TRACE_NUMBER" = Some (VInt 0)) /\
  (exists p b s t s', reader3 p b s /\ d_read_trace p s = Ok (t, s') /\ slice 4 2 (th_at s) = [255; 255] /\
     big (te_at s) 21 3 = 70000 /\ hget (t_hdr t) "CHAN" = Some (VInt 16665) /\ hget (t_hdr t) "TRACE_NUMBER" = Some (VInt 0)).
Proof.
  split.
  - intros p b s c n t s' Hp Hb Hl R fmt Hf T Hn Hfit E X.
    destruct (trace_decoded3 p b s c n t s' Hp Hb Hl R Hf T Hn Hfit E) as (_ & H2 & _). apply (H2 X).
  - set (s := after (after (opened ex3z))). exists segd_plat, ex3z, s, (got s), (after s).
    split; [exact ex3z_3|]. split; [vm_compute; reflexivity|]. split; [vm_compute; reflexivity|]. split; [vm_compute; reflexivity|].
    split; vm_compute; reflexivity.
Qed.
Print Assumptions C55_trace_number_refuted.

(** C55, refuted: descale multipliers.  The samples 1.0 and -2.5 of a channel
    set with multiplier 1.0 are multiplied by 2 to the power of 1065353216,
    the bits of 1.0; they are shown as infinities. *)
Theorem C55_descale_refuted :
  let p := mkPlatform true gcc_d2u (fun _ => Some 65) (2 ^ 40) true true 0 Z.log2 (fun _ => d_inf) no_exp in
  let b := ex3t sets3 traces3 in
  exists s c t s', reader3 p b s /\ in_table s c /\ flt_val (big (slice 96 96 b) 16 4) = 1%R /\
    words (skipn (Z.to_nat (smp_at s)) b) 4 2 = [be_bytes 4 0x3f800000; be_bytes 4 0xc0200000] /\
    d_read_trace p s = Ok (t, s') /\ t_smp t = [d_inf; 2 ^ 63 + d_inf] /\
    word_real 8058 (be_bytes 4 0x3f800000) 1 /\ ~ sample_of 8058 0 (be_bytes 4 0x3f800000) d_inf.
Proof.
  cbv zeta. set (p := mkPlatform _ _ _ _ _ _ _ _ _ _). set (b := ex3t sets3 traces3).
  assert (V : flt_val 0x3f800000 = 1%R).
  { destruct (f2d_finite 0x3f800000 ltac:(unfold is_flt; lia) eq_refl) as ((_ & _ & F) & _).
    change (f2d 0x3f800000) with (i2d 1) in F. destruct (i2d_holds 1 ltac:(lia)) as ((_ & _ & H1) & _). congruence. }
  exists (opened b), (first_set (opened b)). eexists _, _.
  split; [apply reader3_open; [split; [vm_compute; discriminate|vm_compute; discriminate]|vm_compute; reflexivity]|].
  split; [apply table_of; vm_compute; reflexivity|].
  split; [replace (big (slice 96 96 b) 16 4) with 0x3f800000 by (vm_compute; reflexivity); exact V|].
  split; [vm_compute; reflexivity|]. split; [vm_compute; reflexivity|]. split; [vm_compute; reflexivity|].
  assert (W : word_real 8058 (be_bytes 4 0x3f800000) 1).
  { unfold word_real. replace (big (be_bytes 4 0x3f800000) 0 4) with 0x3f800000 by (vm_compute; reflexivity).
    split; [reflexivity|symmetry; exact V]. }
  split; [exact W|]. intros H. destruct (H 1%R W ltac:(intros [Q|Q]; discriminate Q)) as (_ & F & _). vm_compute in F. discriminate.
Qed.
Print Assumptions C55_descale_refuted.

(** C55, refuted: the size of the samples is computed in 32 bits.  If they have
    2^32 bits or more, the buffer is too small and is read past its end. *)
Theorem C55_sample_count_refuted :
  (forall p b s c n, p_left_first p = true -> bytes b -> len b < 2 ^ 63 -> reader3 p b s ->
     let bits := 8 * Z.of_nat (sample_bytes (g1_format_code (d_g1 s))) in
     In (g1_format_code (d_g1 s)) [8036; 8038; 8058; 8080; 9038; 9058; 9080] -> in_table s c -> smp3_num s c n ->
     2 ^ 32 <= n * bits -> 2 ^ 35 <= p_max_alloc p -> smp_at s + n * bits mod 2 ^ 32 / 8 <= len b ->
     d_read_trace p s = UB) /\
  (exists p b s c, reader3 p b s /\ in_table s c /\ big (te_at s) 24 4 = 2 ^ 27 /\ d_read_trace p s = UB).
Proof.
  split; [exact trace_wraps3|].
  set (b := ex3t sets3z (hdr3 1 [0; 1] 1 ++ ext3 line75 [8; 0; 0; 0])).
  assert (R : reader3 segd_plat b (opened b)).
  { apply reader3_open; [split; [vm_compute; discriminate|vm_compute; discriminate]|vm_compute; reflexivity]. }
  assert (T : in_table (opened b) (first_set (opened b))) by (apply table_of; vm_compute; reflexivity).
  exists segd_plat, b, (opened b), (first_set (opened b)).
  split; [exact R|]. split; [exact T|]. split; [vm_compute; reflexivity|].
  apply (trace_wraps3 segd_plat b (opened b) (first_set (opened b)) (2 ^ 27)); auto.
  - apply bytes_check; vm_compute; reflexivity.
  - vm_compute. reflexivity.
  - replace (g1_format_code (d_g1 (opened b))) with 8058 by (vm_compute; reflexivity). cbn. tauto.
  - vm_compute. reflexivity.
  - vm_compute. discriminate.
  - vm_compute. discriminate.
  - vm_compute. discriminate.
Qed.
Print Assumptions C55_sample_count_refuted.

(** C55, refuted: a receiver line of -1 is shown as 16777215. *)
Theorem C55_negative_receiver_refuted : exists p b s t s',
  reader3 p b s /\ d_read_trace p s = Ok (t, s') /\ as_signed 5 (big (te_at s) 10 5) = - 2 ^ 16 /\
  hget (t_hdr t) "R_LINE" = Some (VDbl (i2d 16777215)) /\ ~ receiver3 (te_at s) 0 10 (hget (t_hdr t) "R_LINE").
Proof.
  set (b := ex3t sets3z (hdr3 1 [0; 1] 1 ++ ext3 [0xff; 0xff; 0xff; 0; 0] [0; 0; 0; 2] ++ one25)).
  exists segd_plat, b, (opened b), (got (opened b)), (after (opened b)).
  split; [apply reader3_open; [split; [vm_compute; discriminate|vm_compute; discriminate]|vm_compute; reflexivity]|].
  split; [vm_compute; reflexivity|]. split; [vm_compute; reflexivity|].
  assert (E : hget (t_hdr (got (opened b))) "R_LINE" = Some (VDbl (i2d 16777215))) by (vm_compute; reflexivity).
  split; [exact E|]. rewrite E. unfold receiver3.
  replace (big (te_at (opened b)) 10 5) with (2 ^ 40 - 2 ^ 16) by (vm_compute; reflexivity).
  change (2 ^ 40 - 2 ^ 16 =? 0) with false. cbv iota. intros (d & Ed & H). injection Ed as <-.
  destruct H as (_ & _ & H). destruct (i2d_holds 16777215 ltac:(lia)) as ((_ & _ & H') & _). rewrite H' in H.
  change (as_signed 5 _) with (-65536) in H.
  pose proof (powerRZ_lt 2 (Z.opp 16) ltac:(lra)). nra.
Qed.
Print Assumptions C55_negative_receiver_refuted.

(** C55, refuted: a trace that names a channel set the record does not have. *)
Theorem C55_channel_set_number_refuted :
  (forall p b s, p_left_first p = true -> bytes b -> len b < 2 ^ 63 -> reader3 p b s ->
     (forall c, ~ in_table s c) -> smp_at s <= len b -> d_read_trace p s = UB) /\
  (exists p b s, reader3 p b s /\ (forall c, ~ in_table s c) /\ smp_at s <= len b /\ d_has_trace s = true /\
     dec (th_at s) 4 2 = 3 /\ len (d_sets s) = 2 /\ d_read_trace p s = UB).
Proof.
  split; [exact outside3|]. set (b := ex3t sets3z (hdr3 3 [0; 1] 0 ++ one25)). exists segd_plat, b, (opened b).
  split; [apply reader3_open; [split; [vm_compute; discriminate|vm_compute; discriminate]|vm_compute; reflexivity]|].
  split; [apply no_table; vm_compute; reflexivity|]. split; [vm_compute; discriminate|].
  repeat (split; [vm_compute; reflexivity|]). vm_compute; reflexivity.
Qed.
Print Assumptions C55_channel_set_number_refuted.
