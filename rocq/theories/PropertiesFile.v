(** C19-C21: what the writers leave on disk. *)
From Verif Require Import BaseFacts Platform Fp TraceHdr SegyTypes SegyCodec CodecFacts SampleFacts
     HdrFacts ISegy OSegy OpenFacts CodecSpec LayoutSpec LayoutFacts BinFacts WriterFacts RoundSpec ReaderFacts
     RoundFacts FileSpec FileFacts FileArea PropertiesCodec PropertiesLayout PropertiesRound.

(** C19.  All three writers.  The binary header in the file is that of the
    writer except, possibly, for the number of extended text headers (C17).
    Up to 65536 text headers. *)
Theorem C19_file_layout : forall p w bh ls ts s s',
  sane_alloc p -> safe_layouts ls -> len (given_texts w) <= 65536 ->
  w_open p w bh ls = Ok s -> write_traces p s ts = Ok s' ->
  let fmt := bh_format_code (o_bh s') in
  let area := sample_area (own_count w bh) (bh_samp_per_tr (o_bh s') mod 2 ^ 16) fmt in
  exists text bin recs b,
    fdata (o_file s') = text ++ bin ++ concat (ext_texts w) ++ concat recs /\
    len text = 3200 /\ len bin = 400 /\ len (concat (ext_texts w)) = 3200 * len (ext_texts w) /\
    (given_texts w <> [] -> text :: ext_texts w = given_texts w) /\
    bin_header_bytes (o_endian s) b = Ok bin /\
    set_ext_text_headers_num b 0 = set_ext_text_headers_num (o_bh s') 0 /\
    Forall2 (fun t r => is_record p (o_endian s) fmt ls (header_count w bh) (area t) t r) ts recs /\
    len (fdata (o_file s')) =
      3200 + 400 + 3200 * len (ext_texts w) + sum (map (fun t => 240 * header_count w bh + area t) ts).
Proof.
  intros p w bh ls ts s s' HA HS Ln Ho Hw fmt area.
  destruct (file_layout p w bh ls ts s s' HA HS Ln Ho Hw) as (text & bin & recs & b & D & L1 & L2 & L3 & T & B1 & B2 & F).
  exists text, bin, recs, b. repeat (split; [assumption|]).
  rewrite D, !len_app, L1, L2, L3.
  rewrite (sum_app_len (fun t r => is_record p (o_endian s) fmt ls (header_count w bh) (area t) t r)
             (fun t => 240 * header_count w bh + area t)) with (ts := ts); [lia| |exact F].
  intros t r. apply is_record_len.
Qed.
Print Assumptions C19_file_layout.

(** Revision 2, variable length, three header blocks of which the last has no
    layout, two text headers. *)
Example C19_case : safe_layouts maps_two /\
  (let* s := w_open plat_example (W2 [text_example 65; text_example 66] []) (set_add (set_rev two_samples 1 0 1) 3 0) maps_two in
   let* s' := write_traces plat_example s [var_trace [7; 8; 9]; var_trace [5]] in
   Ok (len (fdata (o_file s')), firstn 10 (skipn (Z.to_nat (3600 + 3200 + 720)) (fdata (o_file s')))))
  = Ok (3200 + 400 + 3200 + (720 + 24) + (720 + 8), [0; 0; 0; 0; 0; 0; 0; 7; 0; 0]).
Proof.
  split; [|vm_compute; reflexivity]. intros n l [H|[H|[]]]; injection H as <- <-; [apply lay_num_safe|].
  apply (check_layout_safe "SEG00001"); try reflexivity; [|cbn; lia].
  intros en [<-|[]]. reflexivity.
Qed.

(** C20. *)
Theorem C20_writing_only_appends : forall p w bh ls ts t s s1 s2,
  len (given_texts w) <= 65536 ->
  w_open p w bh ls = Ok s -> write_traces p s ts = Ok s1 -> write_trace p s1 t = Ok s2 ->
  forall i x, nth_error (fdata (o_file s1)) i = Some x ->
    nth_error (fdata (o_file s2)) i = Some x \/ (ts = [] /\ 3200 <= Z.of_nat i < 3600).
Proof. intros p w bh ls ts t s s1 s2 Ln Ho Hw Ht. exact (append_only p w bh ls ts t s s1 s2 Ln Ho Hw Ht). Qed.
Print Assumptions C20_writing_only_appends.

(** Default header: the first trace does change the binary header, the second
    does not. *)
Example C20_case :
  (let* s := w_open plat_example (W1 []) bin_zero maps_num in
   let* s1 := write_traces plat_example s [var_trace [7; 8]] in
   let* s2 := write_trace plat_example s1 (var_trace [9]) in
   Ok (slice 3220 2 (fdata (o_file s)), slice 3220 2 (fdata (o_file s1)), slice 3220 2 (fdata (o_file s2)),
       len (fdata (o_file s)), len (fdata (o_file s1)), len (fdata (o_file s2))))
  = Ok ([0; 0], [0; 2], [0; 2], 3600, 3600 + 248, 3600 + 248 + 244).
Proof. vm_compute. reflexivity. Qed.

(** C21.  A trace with exactly the announced number of samples is stored the
    same whatever was written before it. *)
Theorem C21_exact_traces_do_not_mix_partial : forall p w bh ls t s tsA sA sA' tsB sB sB',
  sane_alloc p -> safe_layouts ls -> len (given_texts w) <= 65536 -> w_open p w bh ls = Ok s ->
  write_traces p s tsA = Ok sA -> write_trace p sA t = Ok sA' ->
  write_traces p s tsB = Ok sB -> write_trace p sB t = Ok sB' ->
  (if own_count w bh then given (t_hdr t) "SAMP_NUM" = Some (len (t_smp t))
   else len (t_smp t) = bh_samp_per_tr (o_bh sA') mod 2 ^ 16 /\
        len (t_smp t) = bh_samp_per_tr (o_bh sB') mod 2 ^ 16) ->
  exists preA preB r, fdata (o_file sA') = preA ++ r /\ fdata (o_file sB') = preB ++ r /\
    len preA = len (fdata (o_file sA)) /\ len preB = len (fdata (o_file sB)).
Proof.
  intros p w bh ls t s tsA sA sA' tsB sB sB' HA HS Ln Ho A1 A2 B1 B2 K.
  destruct (record_of p w bh ls tsA t s sA sA' HA HS Ln Ho A1 A2) as (preA & r & DA & LA & RA).
  { destruct (own_count w bh); [exact K|apply K]. }
  destruct (record_of p w bh ls tsB t s sB sB' HA HS Ln Ho B1 B2) as (preB & r' & DB & LB & RB).
  { destruct (own_count w bh); [exact K|apply K]. }
  rewrite <- (the_record_fun _ _ _ _ _ _ _ _ RA RB) in DB.
  exists preA, preB, r. auto.
Qed.
Print Assumptions C21_exact_traces_do_not_mix_partial.

(** In fixed-length mode a trace with more samples is never written. *)
Theorem C21_longer_trace_not_written : forall p w bh ls ts s s',
  sane_alloc p -> safe_layouts ls -> len (given_texts w) <= 65536 ->
  w_open p w bh ls = Ok s -> write_traces p s ts = Ok s' -> own_count w bh = false ->
  forall t, In t ts -> len (t_smp t) <= bh_samp_per_tr (o_bh s') mod 2 ^ 16.
Proof.
  intros p w bh ls ts s s' HA HS Ln Ho Hw Ow t Ht.
  destruct (file_layout p w bh ls ts s s' HA HS Ln Ho Hw) as (text & bin & recs & b & _ & _ & _ & _ & _ & _ & _ & F).
  rewrite Ow in F. unfold sample_area in F.
  assert (exists r, is_record p (o_endian s) (bh_format_code (o_bh s')) ls (header_count w bh)
     (bh_samp_per_tr (o_bh s') mod 2 ^ 16 * sample_width (bh_format_code (o_bh s'))) t r) as (r & R).
  { clear - F Ht. induction F as [|x y xs ys H _ IH]; [contradiction|]. destruct Ht as [<-|Ht]; eauto. }
  apply is_record_fits in R. exact R.
Qed.
Print Assumptions C21_longer_trace_not_written.

Example C21_case :
  (let* s := w_open plat_example (W0 []) two_samples maps_num in
   let* sA := write_traces plat_example s [var_trace [1; 2]] in
   let* sA' := write_trace plat_example sA (var_trace [7; 8]) in
   let* sB := write_traces plat_example s [] in
   let* sB' := write_trace plat_example sB (var_trace [7; 8]) in
   Ok (skipn (Z.to_nat (3600 + 256 + 240)) (fdata (o_file sA')), skipn (Z.to_nat (3600 + 240)) (fdata (o_file sB'))))
  = Ok ([0;0;0;0;0;0;0;7; 0;0;0;0;0;0;0;8], [0;0;0;0;0;0;0;7; 0;0;0;0;0;0;0;8]).
Proof. vm_compute. reflexivity. Qed.

(** What every trace does leave in its sample area, whatever its length: its
    own samples, then what the trace before left, then zeros.  All three
    writers, fixed and own sample counts. *)
Theorem C21_sample_areas : forall p w bh ls ts s s',
  sane_alloc p -> safe_layouts ls -> len (given_texts w) <= 65536 ->
  w_open p w bh ls = Ok s -> write_traces p s ts = Ok s' ->
  let fmt := bh_format_code (o_bh s') in
  let size := sample_area (own_count w bh) (bh_samp_per_tr (o_bh s') mod 2 ^ 16) fmt in
  exists pre recs,
    fdata (o_file s') = pre ++ concat recs /\ len pre = 3600 + 3200 * len (ext_texts w) /\
    Forall2 (fun t r => len r = 240 * header_count w bh + size t) ts recs /\
    areas p (o_endian s) fmt size [] ts (map (fun r => skipn (Z.to_nat (240 * header_count w bh)) r) recs).
Proof. intros p w bh ls ts s s' HA HS Ln Ho Hw. exact (file_areas p w bh ls ts s s' HA HS Ln Ho Hw). Qed.
Print Assumptions C21_sample_areas.

(** Fixed length: a short first trace is padded with zeros, a short third one
    with the samples of the second; own counts: a longer trace after a shorter
    one. *)
Example C21_areas_case :
  (let* s := w_open plat_example (W0 []) two_samples maps_num in
   let* s' := write_traces plat_example s [var_trace [7]; var_trace [5; 6]; var_trace [9]] in
   Ok (map (fun k => slice (3600 + 256 * k + 240) 16 (fdata (o_file s'))) [0; 1; 2]))
  = Ok [[0;0;0;0;0;0;0;7; 0;0;0;0;0;0;0;0]; [0;0;0;0;0;0;0;5; 0;0;0;0;0;0;0;6]; [0;0;0;0;0;0;0;9; 0;0;0;0;0;0;0;6]]
  /\ over [1; 2; 3] [7] 5 = [7; 2; 3; 0; 0].
Proof. split; vm_compute; reflexivity. Qed.

(** A shorter trace is filled up with the samples of the trace before it. *)
Theorem C21_stale_samples_refuted :
  exists s s', w_open plat_example (W0 []) two_samples maps_num = Ok s /\
    write_traces plat_example s [var_trace [7; 8]; var_trace [9]] = Ok s' /\
    exists r ts' r', isegy_open plat_example (fdata (o_file s')) maps_num = Ok r /\
      read_all plat_example 2 r = Ok (ts', r') /\ map t_smp ts' = [[7; 8]; [9; 8]].
Proof.
  assert (K : (let* s := w_open plat_example (W0 []) two_samples maps_num in
               let* s' := write_traces plat_example s [var_trace [7; 8]; var_trace [9]] in
               let* r := isegy_open plat_example (fdata (o_file s')) maps_num in
               let* (ts', r') := read_all plat_example 2 r in Ok (map t_smp ts')) = Ok [[7; 8]; [9; 8]])
    by (vm_compute; reflexivity).
  apply bind_ok in K as (s & E1 & K). apply bind_ok in K as (s' & E2 & K). apply bind_ok in K as (r & E3 & K).
  apply bind_ok in K as ([ts' r'] & E4 & K). injection K as K.
  exists s, s'. split; [exact E1|]. split; [exact E2|]. exists r, ts', r'. auto.
Qed.
Print Assumptions C21_stale_samples_refuted.

(** A longer one is not refused with an exception: the samples are stored past
    the end of the buffer, whatever they are. *)
Theorem C21_longer_trace_undefined_refuted : forall smp, 3 <= len smp ->
  exists s, w_open plat_example (W0 []) two_samples maps_num = Ok s /\
    write_trace plat_example s (var_trace smp) = UB.
Proof.
  intros smp H.
  assert (Ho : is_ok (w_open plat_example (W0 []) two_samples maps_num) = true) by (vm_compute; reflexivity).
  destruct (w_open plat_example (W0 []) two_samples maps_num) as [s| |] eqn:E; try discriminate.
  exists s. split; [reflexivity|].
  assert (K : (let* s := w_open plat_example (W0 []) two_samples maps_num in
     Ok (o_min s, o_maps s, o_add s, o_var s, o_endian s, bh_format_code (o_bh s), len (o_sbuf s)))
     = Ok (MNone, maps_num, false, false, Swapped, 6, 16)) by (vm_compute; reflexivity).
  rewrite E in K. cbn [bind] in K. injection K as K1 K2 K3 K4 K5 K6 K7.
  unfold write_trace. rewrite K1. cbn [bind]. rewrite K2, K3, K4, K5, K6.
  unfold write_trace_header, maps_num.
  assert (G : is_ok (hdr_block plat_example Swapped lay_num (t_hdr (var_trace smp))) = true).
  { destruct (C13_header_block_can_be_written plat_example Swapped lay_num (t_hdr (var_trace smp))) as (blk & ->); [apply lay_num_safe| |reflexivity].
    intros en Hin. cbn in Hin. repeat destruct Hin as [<-|Hin]; try contradiction; split; discriminate. }
  destruct (hdr_block plat_example Swapped lay_num (t_hdr (var_trace smp))) as [blk| |]; try discriminate.
  cbn [bind]. unfold fill_samples. destruct (sample_writer plat_example Swapped 6) as [w| |] eqn:W; try discriminate.
  cbn [bind]. cbn [sample_writer] in W. injection W as <-.
  rewrite (mapM_pure _ (fun d => wr_f64 Swapped d)) by reflexivity. cbn [bind var_trace t_smp].
  unfold upd. rewrite K7.
  assert (L : len (concat (map (fun d => wr_f64 Swapped d) smp)) = 8 * len smp).
  { rewrite (concat_len_const 8); [rewrite len_map; lia|]. apply Forall_forall. intros x Hx. apply in_map_iff in Hx as (d & <- & _).
    apply wr_length. }
  rewrite L. replace ((0 <=? 0) && (0 + 8 * len smp <=? 16)) with false by lia. reflexivity.
Qed.
Print Assumptions C21_longer_trace_undefined_refuted.
