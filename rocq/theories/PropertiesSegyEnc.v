(** C59-C61, C84, C90: what the writers put into a SEG-Y file, by the tables of the
    standard. *)
From Coq Require Import Reals.
From Flocq Require Import Core.
From Verif Require Import BaseFacts Platform Fp FpSpec TraceHdr SegyTypes SegyCodec CodecSpec LayoutSpec LayoutFacts ISegy OSegy
     BinFacts WriterFacts RoundSpec RoundFacts SegyDecSpec SegyDecFacts FileSpec FileFacts SegyEncSpec SegyEncFacts SegyEncFacts2
     SegyEncFacts3 SegyEncFacts4 SegyEncFacts5 PropertiesCodec PropertiesLayout PropertiesRound.
Local Open Scope Z_scope.

(** C59.  Every member of the binary header is found at its place in the
    standard, in the byte order the caller asked for; the byte-order marker
    tells that order unless the caller gave the third marker. *)
Theorem C59_written_binary_header : forall p w bh ls ts s s',
  len (given_texts w) <= 65536 -> bin_ok bh = true ->
  w_open p w bh ls = Ok s -> write_traces p s ts = Ok s' ->
  exists b o, final_header w bh ts b /\ order_asked (bh_endianness bh) = Some o /\
    bin_says (fdata (o_file s')) o b /\ bin2_says (fdata (o_file s')) o b /\
    (bh_endianness bh <> 67305985 -> order_in (fdata (o_file s')) = Some o).
Proof.
  intros p w bh ls ts s s' Ln Hb Ho Hw.
  destruct (header_in_file p w bh ls ts s s' Ln Hb Ho Hw) as (b & o & F & O & _ & B1 & B2 & M & _).
  exists b, o. auto.
Qed.
Print Assumptions C59_written_binary_header.

(** C84, refuted: the third marker asks for big-endian numbers and tells little-endian
    ones. *)
Theorem C84_written_refuted : forall p w bh ls ts s s',
  len (given_texts w) <= 65536 -> bin_ok bh = true -> bh_endianness bh = 67305985 ->
  w_open p w bh ls = Ok s -> write_traces p s ts = Ok s' ->
  order_asked (bh_endianness bh) = Some Big /\ order_in (fdata (o_file s')) = Some Little.
Proof.
  intros p w bh ls ts s s' Ln Hb Hm Ho Hw. rewrite Hm. split; [reflexivity|].
  exact (third_marker p w bh ls ts s s' Ln Hm Ho Hw).
Qed.
Print Assumptions C84_written_refuted.

(** Revision 2, little-endian, an extended text header. *)
Definition enc_bin : bin_hdr := set_endianness (set_rev two_samples 2 1 1) 16909060.
Example C59_case : bin_ok enc_bin = true /\
  (let* s := w_open plat_example (W2 [text_example 65; text_example 66] []) enc_bin maps_num in
   let* s' := write_traces plat_example s [var_trace [7; 8]] in
   Ok (slice 3220 6 (fdata (o_file s')), slice 3296 4 (fdata (o_file s')), slice 3500 6 (fdata (o_file s')))) =
  Ok ([2; 0; 0; 0; 6; 0], [4; 3; 2; 1], [2; 0; 1; 0; 1; 0]) /\
  (let* s := w_open plat_example (W1 []) (set_endianness (set_rev two_samples 1 1 0) 67305985) maps_num in
   let* s' := write_traces plat_example s [var_trace [7; 8]] in Ok (slice 3296 4 (fdata (o_file s')), slice 3224 2 (fdata (o_file s')))) =
  Ok ([4; 3; 2; 1], [0; 6]).
Proof. vm_compute. repeat split. Qed.

(** C60.  The traces follow the text headers without gaps up to the end of the
    file; header fields and samples of each are the numbers of the trace in the
    formats of the layout and of the binary header. *)
Theorem C60_written_traces : forall p w bh ls ts s s',
  sane_alloc p -> safe_layouts ls -> len (given_texts w) <= 65536 -> bin_ok bh = true -> Forall typed ts ->
  w_open p w bh ls = Ok s -> write_traces p s ts = Ok s' ->
  exists b o, final_header w bh ts b /\ order_asked (bh_endianness bh) = Some o /\
    let fmt := bh_format_code b in
    all_written p o (fdata (o_file s')) fmt ls (header_count w bh)
      (sample_area (own_count w bh) (bh_samp_per_tr b mod 2 ^ 16) fmt) (3600 + 3200 * len (ext_texts w)) ts.
Proof.
  intros p w bh ls ts s s' HA HS Ln Hb Ty Ho Hw.
  destruct (header_in_file p w bh ls ts s s' Ln Hb Ho Hw) as (b & o & F & O & Eo & _ & _ & _ & X).
  destruct (file_layout p w bh ls ts s s' HA HS Ln Ho Hw) as (text & bin & recs & b1 & D & L1 & L2 & L3 & _ & _ & _ & R).
  exists b, o. split; [exact F|]. split; [exact O|]. cbv zeta.
  pose proof (f_equal bh_format_code X) as Xf. pose proof (f_equal bh_samp_per_tr X) as Xs.
  cbn [set_ext_text_headers_num bh_format_code bh_samp_per_tr] in Xf, Xs. rewrite <- Xf, <- Xs, Eo, D.
  replace (text ++ bin ++ concat (ext_texts w) ++ concat recs) with ((text ++ bin ++ concat (ext_texts w)) ++ concat recs)
    by (rewrite <- !app_assoc; reflexivity).
  replace (3600 + 3200 * len (ext_texts w)) with (len (text ++ bin ++ concat (ext_texts w))) by (rewrite !len_app; lia).
  apply records_written; [exact HS|destruct w; cbn [header_count]; lia|exact Ty|exact R].
Qed.
Print Assumptions C60_written_traces.

(** With the default layout every field of the trace header of the standard is
    at its place, and with a second header block also every field of the trace
    header extension. *)
Theorem C60_default_layout : forall p w bh t ts1 ts2 s s',
  sane_alloc p -> len (given_texts w) <= 65536 -> bin_ok bh = true -> Forall typed (ts1 ++ t :: ts2) ->
  w_open p w bh default_trace_header = Ok s -> write_traces p s (ts1 ++ t :: ts2) = Ok s' ->
  exists b o, final_header w bh (ts1 ++ t :: ts2) b /\ order_asked (bh_endianness bh) = Some o /\
    let c := fdata (o_file s') in
    let area := sample_area (own_count w bh) (bh_samp_per_tr b mod 2 ^ 16) (bh_format_code b) in
    let pos := 3600 + 3200 * len (ext_texts w) + sum (map (fun t => 240 * header_count w bh + area t) ts1) in
    (forall k x y, In (k, (x, y)) std_header ->
       exists z, number (t_hdr t) k z /\ sgnd c o (pos + x) (pos + y) = as_signed (Z.to_nat (y - x + 1)) z) /\
    (2 <= header_count w bh ->
     (forall k x y, In (k, (x, y)) ext_ints ->
       exists z, number (t_hdr t) k z /\ sgnd c o (pos + 240 + x) (pos + 240 + y) = as_signed (Z.to_nat (y - x + 1)) z) /\
     (forall k x y, In (k, (x, y)) ext_dbls ->
       exists z, number (t_hdr t) k z /\ signed (z <? 0) (rne64 (IZR z)) (unsg c o (pos + 240 + x) (pos + 240 + y)))).
Proof.
  intros p w bh t ts1 ts2 s s' HA Ln Hb Ty Ho Hw.
  destruct (C60_written_traces p w bh default_trace_header _ s s' HA default_safe Ln Hb Ty Ho Hw) as (b & o & F & O & A).
  exists b, o. split; [exact F|]. split; [exact O|]. cbv zeta in *. apply all_written_at in A.
  assert (N : 1 <= header_count w bh) by (clear; destruct w; cbn [header_count]; lia).
  exact (default_written _ _ _ _ _ _ _ _ N A).
Qed.
Print Assumptions C60_default_layout.

(** Two traces after an extended text header: 16-bit samples, the second trace
    starts 244 bytes later. *)
Definition enc_trace (ffid : Z) (smp : list Z) : trace :=
  mkTrace [("FFID"%string, VInt ffid); ("SAMP_NUM"%string, VInt (len smp)); ("COORD_SCALAR"%string, VInt (-100))] smp.
Example C60_case : Forall typed [enc_trace 258 [4611686018427387904; 13830554455654793216]; enc_trace (-2) []] /\
  safe_layouts default_trace_header /\
  (let* s := w_open plat_example (W1 [text_example 65; text_example 66]) (set_rev (set_format_code bin_zero 3) 1 0 1) default_trace_header in
   let* s' := write_traces plat_example s [enc_trace 258 [4611686018427387904; 13830554455654793216]; enc_trace (-2) []] in
   Ok (slice (6800 + 8) 4 (fdata (o_file s')), slice (6800 + 70) 2 (fdata (o_file s')), slice (6800 + 240) 4 (fdata (o_file s')),
       slice (6800 + 244 + 8) 4 (fdata (o_file s')), len (fdata (o_file s')))) =
  Ok ([0; 0; 1; 2], [255; 156], [0; 2; 255; 255], [255; 255; 255; 254], 6800 + 244 + 240).
Proof.
  split; [|split; [exact default_safe|vm_compute; reflexivity]].
  assert (H : forall k f n z, hget [("FFID"%string, VInt f); ("SAMP_NUM"%string, VInt n); ("COORD_SCALAR"%string, VInt (-100))] k = Some (VInt z) ->
     z = f \/ z = n \/ z = -100).
  { intros k f n z. unfold hget. cbn. repeat (destruct (String.eqb _ _); [intros E; injection E as <-; auto|]). discriminate. }
  repeat constructor; try (unfold is_dbl; cbn; lia); cbn [t_hdr enc_trace]; apply H in H0; change (len [4611686018427387904; 13830554455654793216]) with 2 in H0; change (len []) with 0 in H0; lia.
Qed.

(** C61.  A writer opened with a blank binary header: the first trace gives the
    number of samples and the sampling interval, and nothing else changes. *)
Theorem C61_first_trace_completes : forall p w bh ls t ts s s',
  sane_alloc p -> p_pad_eq p = true -> to_complete w bh ->
  w_open p w bh ls = Ok s -> write_traces p s (t :: ts) = Ok s' ->
  exists n v si, hget (t_hdr t) "SAMP_NUM" = Some (VInt n) /\ 0 <= n < 2 ^ 15 /\ hget (t_hdr t) "SAMP_INT" = Some v /\
    (fits16 v -> interval v si) /\ - 2 ^ 15 <= si < 2 ^ 15 /\ si <> 0 /\
    bin_says (fdata (o_file s')) Big (completed_header w n si) /\ bin2_says (fdata (o_file s')) Big (completed_header w n si).
Proof.
  intros p w bh ls t ts s s' HA Hp C Ho Hw.
  destruct (completes p w bh ls t ts s s' HA Hp C Ho Hw) as (n & v & si & H1 & H2 & H3 & H4 & H5 & H6 & _ & H7).
  exists n, v, si. auto 10.
Qed.
Print Assumptions C61_first_trace_completes.

(** More than 32767 samples, or an interval of zero or above 32767, are refused
    with the exception of the library. *)
Theorem C61_bad_first_trace : forall p w bh ls t s n v,
  p_pad_eq p = true -> to_complete w bh -> typed t -> w_open p w bh ls = Ok s ->
  hget (t_hdr t) "SAMP_NUM" = Some (VInt n) -> hget (t_hdr t) "SAMP_INT" = Some v ->
  (2 ^ 15 <= n \/ bad_interval v /\ (forall txts st, w = W2 txts st -> exists z, v = VInt z)) ->
  write_trace p s t = Throw ESedaman.
Proof.
  intros p w bh ls t s n v Hp C (_ & Ty) Ho Hn Hv Bad. rewrite (first_write p w bh ls t s Hp C Ho).
  rewrite (min_refused p (minimal_of w) (t_hdr t) s n v); [reflexivity|exact (opens_first p w bh ls s C Ho)|exact Hn|exact Hv| | |].
  - intros z ->. exact (Ty _ _ Hv).
  - destruct Bad as [Bad|(Bad & K)]; [left; exact Bad|right]. split; [exact Bad|]. intros M.
    destruct w; try discriminate M. exact (K _ _ eq_refl).
  - destruct w; discriminate.
Qed.
Print Assumptions C61_bad_first_trace.

(** C90, refuted: without SAMP_NUM (or, behind it, SAMP_INT) the writer dereferences an empty
    optional. *)
Theorem C90_missing_name_refuted : forall p w bh ls t s,
  p_pad_eq p = true -> to_complete w bh -> w_open p w bh ls = Ok s ->
  (hget (t_hdr t) "SAMP_NUM" = None \/
   (exists n, hget (t_hdr t) "SAMP_NUM" = Some (VInt n) /\ n < 2 ^ 15 /\ hget (t_hdr t) "SAMP_INT" = None)) ->
  write_trace p s t = UB.
Proof.
  intros p w bh ls t s Hp C Ho H. rewrite (first_write p w bh ls t s Hp C Ho). unfold set_min.
  rewrite (opens_first p w bh ls s C Ho), Z.eqb_refl. cbn [negb]. unfold get_req.
  destruct H as [->|(n & -> & L & H)]; [reflexivity|]. cbn [bind get_int].
  replace (32767 <? n) with false by (symmetry; apply Z.ltb_ge; clear - L; lia). cbv zeta. rewrite H. reflexivity.
Qed.
Print Assumptions C90_missing_name_refuted.

(** C90, refuted: the writer compares objects with memcmp: where the padding bytes differ, a
    blank header stays blank. *)
Definition plat_padding : platform :=
  mkPlatform true gcc_d2u (fun _ => Some 65) (2 ^ 40) false true 0 Z.log2 (fun _ => 0) no_exp.
Theorem C90_padding_refuted : to_complete (W1 []) bin_zero /\
  exists s s', w_open plat_padding (W1 []) bin_zero maps_num = Ok s /\ write_traces plat_padding s [var_trace [7; 8]] = Ok s' /\
    slice 3216 2 (fdata (o_file s')) = [0; 0] /\ slice 3220 2 (fdata (o_file s')) = [0; 0].
Proof.
  split; [split; reflexivity|].
  destruct (w_open plat_padding (W1 []) bin_zero maps_num) as [s| |] eqn:E; [|vm_compute in E; discriminate E..].
  assert (Q : (let* s := w_open plat_padding (W1 []) bin_zero maps_num in
     let* s' := write_traces plat_padding s [var_trace [7; 8]] in
     Ok (slice 3216 2 (fdata (o_file s')), slice 3220 2 (fdata (o_file s')))) = Ok ([0; 0], [0; 0])) by (vm_compute; reflexivity).
  rewrite E in Q. cbn [bind] in Q. apply bind_ok in Q as (s' & Ew & Q). injection Q as Q1 Q2. exists s, s'. auto.
Qed.
Print Assumptions C90_padding_refuted.

(** A blank header of revision 0 with an interval of 2.5, and one of revision 2
    completed from a trace of three samples. *)
Definition dbl_int_trace : trace := mkTrace [("SAMP_NUM"%string, VInt 1); ("SAMP_INT"%string, VDbl 4612811918334230528)] [7].
Example C61_case : to_complete (W0 []) bin_zero /\ to_complete (W2 [] []) (set_format_code bin_zero 5) /\
  map (fun w => let* s := w_open plat_example w bin_zero maps_num in
                let* s' := write_traces plat_example s [var_trace [7; 8; 9]; var_trace []] in
                Ok (slice 3216 10 (fdata (o_file s')))) [W2 [] []; W1 []] =
  [Ok [0; 4; 0; 0; 0; 3; 0; 0; 0; 5]; Ok [0; 4; 0; 0; 0; 3; 0; 0; 0; 5]] /\
  (let* s := w_open plat_example (W0 []) bin_zero [("SEG00000"%string, [])] in
   let* s' := write_trace plat_example s dbl_int_trace in Ok (slice 3216 10 (fdata (o_file s')))) = Ok [0; 2; 0; 0; 0; 1; 0; 0; 0; 1] /\
  (let* s := w_open plat_example (W2 [] []) bin_zero maps_num in write_trace plat_example s dbl_int_trace) = Throw EVariant.
Proof. repeat split; vm_compute; reflexivity. Qed.
