(** C42, C43 and C44: whole SEG-D files. *)
From Coq Require Import Reals Permutation.
From Verif Require Import BaseFacts Platform Fp FpSpec TraceHdr SegyTypes SegyCodec ISegy OSegy SegdTypes SegdSpec
  ISegd OSegd SegdFileFacts SegdIoFacts SegdFileProps SegdCountFacts SegdExamples.
Local Open Scope Z_scope.

(** C42.  A record of revision 2.1 with the declared number of traces: the
    writer accepts it and stores exactly the bytes of the standard's layout;
    the reader of this file shows the same headers and returns the traces in
    order, has_trace is false after the last one.

    Partial: each trace has at least one header extension with its number of
    samples (without it the reader returns no samples, C46), the descale
    exponents are integers, the values are those the blocks can represent
    (C36 to C39), the sample format is one of the seven that work (C41) and
    the two trace header buffers are adjacent in memory (C40). *)
Theorem C42_record_round_trip_partial : forall p r hs tcs,
  plat_ok p -> p_chans0 p = 0 -> rec_good p r ->
  in_order (map fst3 (r_N r)) -> Permutation hs (map fst3 (r_N r)) ->
  Forall (fun h => block_fields (gN_block_num (fst3 h)) = None) (r_N r) ->
  Forall (tc_in r) tcs -> len tcs = r_chans r -> len (fr_bytes (r, tcs)) < 2 ^ 63 ->
  exists s s' d0 ts' d1,
    osegd_open p (r_g1 r) (r_g2 r) (map (map fst3) (r_sets r)) (map AN hs) (r_extd r) (r_extl r) [] = Ok s /\
    d_write_all p s (map fst tcs) = Ok s' /\
    fdata (od_file s') = fr_bytes (r, tcs) /\
    isegd_open p (fdata (od_file s')) [] = Ok d0 /\
    d_g1 d0 = gh1_seen (r_g1 r) (r_ext r) /\
    get_g2 d0 = Some (gh2_seen (r_g2 r) gh2_zero) /\
    get_gN d0 = Ok (map fst3 (r_N r)) /\
    d_sets d0 = map (map (fun c => chset_seen (fst3 c))) (r_sets r) /\
    d_extd d0 = r_extd r /\ d_extl d0 = r_extl r /\
    d_read_all p (List.length tcs) d0 = Ok (ts', d1) /\
    Forall2 (fun x t' => trace_same (fst x) (snd x) t') tcs ts' /\
    d_has_trace d1 = false /\ has_record d1 = false.
Proof. exact record_round_trip. Qed.
Print Assumptions C42_record_round_trip_partial.

Example C42_case :
  plat_ok segd_plat /\ p_chans0 segd_plat = 0 /\ rec_good segd_plat ex_rec /\
  in_order (map fst3 (r_N ex_rec)) /\
  Forall (fun h => block_fields (gN_block_num (fst3 h)) = None) (r_N ex_rec) /\
  Forall (tc_in ex_rec) ex_traces /\ len ex_traces = r_chans ex_rec /\
  len (fr_bytes (ex_rec, ex_traces)) = 544 /\
  (exists s s' d0,
    osegd_open segd_plat ex_g1 ex_g2 [[ex_cs 1 1; ex_cs 2 2]] [AN ex_gN] [ex_block] [ex_block] [] = Ok s /\
    d_write_all segd_plat s (map fst ex_traces) = Ok s' /\
    isegd_open segd_plat (fdata (od_file s')) [] = Ok d0 /\
    d_chans d0 = 3 /\
    bind (d_read_all segd_plat 3 d0) (fun x => Ok (map t_smp (fst x))) =
      Ok (repeat [i2d 2; i2d 4; i2d (-6)] 3)).
Proof.
  split; [exact ex_plat_ok|]. split; [reflexivity|]. split; [exact ex_rec_good|]. split.
  { intros i j a b L Ha Hb. destruct i as [|[|]]; destruct j as [|[|]]; cbn in Ha, Hb; try discriminate; lia. }
  split; [repeat constructor|].
  split; [apply ex_fr_ok|]. split; [reflexivity|]. split; [vm_compute; reflexivity|].
  eexists _, _, _. split; [vm_compute; reflexivity|]. split; [vm_compute; reflexivity|].
  split; [vm_compute; reflexivity|]. split; vm_compute; reflexivity.
Qed.

(** C43.  In a file of one or more records with their traces, after any number
    of traces read the reader is inside the record that contains the next
    trace: it shows that record's headers, declares the sum of its channel
    counts, has_trace and has_record are true.  After the last trace both are
    false.  Every trace comes back.

    Partial: every record has at least one trace and no general trailer (the
    reader does not skip trailers, refuted below). *)
Theorem C43_record_cursor_partial : forall p xs,
  plat_ok p -> xs <> [] -> Forall (fr_ok p) xs -> len (concat (map fr_bytes xs)) < 2 ^ 63 ->
  exists s0, isegd_open p (concat (map fr_bytes xs)) [] = Ok s0 /\
  (forall before r done todo after, xs = before ++ (r, done ++ todo) :: after -> todo <> [] ->
     exists ts s, d_take p (List.length (fr_traces before ++ done)) s0 = Ok (ts, s) /\
       Forall2 (fun x t' => trace_same (fst x) (snd x) t') (fr_traces before ++ done) ts /\
       d_g1 s = gh1_seen (r_g1 r) (r_ext r) /\
       get_g2 s = Some (gh2_seen (r_g2 r) gh2_zero) /\
       d_sets s = map (map (fun c => chset_seen (fst3 c))) (r_sets r) /\
       d_extd s = r_extd r /\ d_extl s = r_extl r /\
       d_chans s = r_chans r /\ d_read s = len done /\
       d_has_trace s = true /\ has_record s = true) /\
  (exists ts s, d_take p (List.length (fr_traces xs)) s0 = Ok (ts, s) /\
     Forall2 (fun x t' => trace_same (fst x) (snd x) t') (fr_traces xs) ts /\
     d_has_trace s = false /\ has_record s = false).
Proof. exact record_cursor. Qed.
Print Assumptions C43_record_cursor_partial.

Example C43_case :
  Forall (fr_ok segd_plat) [(ex_rec, ex_traces); (ex_rec, ex_traces)] /\
  len (concat (map fr_bytes [(ex_rec, ex_traces); (ex_rec, ex_traces)])) = 1088.
Proof. split; [repeat (constructor; [exact ex_fr_ok|]); constructor|vm_compute; reflexivity]. Qed.

(** C43, refuted: a file with one general trailer block.  After the last trace
    has_record is true and the reader takes the trailer for a record: reading
    the last trace itself fails. *)
Definition trailer_rec : srec :=
  mkSR ex_g1 32 4 (mkG2 70000 0 1 1 0 2 1 1 0 0 0 0 2 7)
       [(ex_gN, 1001 * 2 ^ 16 + 32768, 2002 * 2 ^ 16 + 16384)]
       [[(ex_cs 1 1, 1024, 0); (ex_cs 2 2, 1024, 0)]] [ex_block] [ex_block].
Theorem C43_trailer_refuted :
  exists p D s0, isegd_open p D [] = Ok s0 /\
    D = fr_bytes (trailer_rec, ex_traces) ++ repeat 0 32 /\ g2_trailer_blocks (d_g2 s0) = 1 /\
    rec_good p trailer_rec /\ d_chans s0 = 3 /\
    (exists ts s, d_take p 2 s0 = Ok (ts, s)) /\ d_take p 3 s0 = Throw ESedaman.
Proof.
  eexists segd_plat, (fr_bytes (trailer_rec, ex_traces) ++ repeat 0 32), _. split; [vm_compute; reflexivity|].
  split; [reflexivity|]. split; [reflexivity|]. split.
  { pose proof ex_rec_good as (K & H). split; [|exact H].
    unfold srec_ok in *. cbn [r_g1 r_k r_e r_g2 r_N r_sets r_extd r_extl ex_rec trailer_rec g2_extended_blocks
      g2_external_blocks ex_g2 g2_major] in *.
    destruct K as (K1 & K2 & K3). split; [exact K1|]. split; [|exact K3]. closed. }
  split; [reflexivity|]. split; [eexists _, _; vm_compute; reflexivity|vm_compute; reflexivity].
Qed.
Print Assumptions C43_trailer_refuted.

(** C44.  A writer of revision 2.1 whose member chans_in_record starts at zero:
    whatever headers it was built from, the tables agree with general header 1,
    and no sequence of traces longer than the declared number of channels is
    accepted; after exactly that many every further trace is refused. *)
Theorem C44_channel_limit_partial : forall p g1 g2 sets adds extd extl ls s n,
  p_chans0 p = 0 ->
  osegd_open p g1 g2 sets adds extd extl ls = Ok s ->
  n = fold_right Z.add 0 (map c_channels (concat sets)) -> 0 <= n < 2 ^ 64 ->
  (0 <= g1_scan_types g1 < 2 ^ 31 -> len sets = g1_scan_types g1) /\
  (0 <= g1_channel_sets g1 < 1665 -> Forall (fun cs => len cs = g1_channel_sets g1) sets) /\
  forall ts s', d_write_all p s ts = Ok s' ->
    len ts <= n /\ (len ts = n -> forall t, d_write_trace p s' t = Throw ESedaman).
Proof. exact channel_limit. Qed.
Print Assumptions C44_channel_limit_partial.

(** The traces below that number are accepted if they are well formed. *)
Theorem C44_accepts_partial : forall p r hs tcs,
  plat_ok p -> p_chans0 p = 0 -> rec_good p r ->
  in_order (map fst3 (r_N r)) -> Permutation hs (map fst3 (r_N r)) ->
  Forall (fun h => block_fields (gN_block_num (fst3 h)) = None) (r_N r) ->
  Forall (tc_in r) tcs -> len tcs <= r_chans r ->
  exists s s',
    osegd_open p (r_g1 r) (r_g2 r) (map (map fst3) (r_sets r)) (map AN hs) (r_extd r) (r_extl r) [] = Ok s /\
    d_write_all p s (map fst tcs) = Ok s'.
Proof. exact accepts_declared. Qed.
Print Assumptions C44_accepts_partial.

(** C81.  Whatever the writer is constructed with, it has the tables the
    general headers announce; the members are counts of 8 and 16 bits. *)
Theorem C81_accepted_tables : forall p g1 g2 sets adds extd extl ls o,
  osegd_open p g1 g2 sets adds extd extl ls = Ok o ->
  len sets = g1_scan_types g1 mod 2 ^ 64 /\
  Forall (fun cs => len cs = (if g1_channel_sets g1 =? 1665 then g2_channel_sets g2 else g1_channel_sets g1) mod 2 ^ 16) sets.
Proof. exact accepted_tables. Qed.
Print Assumptions C81_accepted_tables.

(** C81.  Tables of another size than general header 1 says are refused with
    the exception of the library if everything else can be written. *)
Theorem C81_mismatch_refused : forall p g1 k e g2 N hs sets extd extl ls,
  gh1_range g1 k e -> gh2_range g2 -> g2_major g2 < 3 ->
  Forall (fun h => ghN_range (fst3 h) (snd (fst h)) (snd h)) N ->
  in_order (map fst3 N) -> Permutation hs (map fst3 N) ->
  Forall (fun h => block_fields (gN_block_num (fst3 h)) = None) N ->
  Forall (Forall (fun c => chset_range (fst3 c) (snd (fst c)) (snd c))) sets ->
  In (g1_format_code g1) [8015; 8022; 8024; 8036; 8038; 8042; 8044; 8048; 8058; 8080; 9036; 9038; 9058; 9080] ->
  (len sets <> g1_scan_types g1 \/ Exists (fun cs => len cs <> g1_channel_sets g1) sets) ->
  osegd_open p g1 g2 (map (map fst3) sets) (map AN hs) extd extl ls = Throw ESedaman.
Proof. exact mismatch_refused. Qed.
Print Assumptions C81_mismatch_refused.

Example C81_case :
  (exists o, osegd_open segd_plat ex_g1 ex_g2 [[ex_cs 1 1; ex_cs 2 2]] [AN ex_gN] [ex_block] [ex_block] [] = Ok o) /\
  g1_scan_types ex_g1 = 1 /\ g1_channel_sets ex_g1 = 2 /\
  osegd_open segd_plat ex_g1 ex_g2 [[ex_cs 1 1; ex_cs 2 2; ex_cs 3 3]] [AN ex_gN] [ex_block] [ex_block] []
    = Throw ESedaman /\
  osegd_open segd_plat ex_g1 ex_g2 [[ex_cs 1 1; ex_cs 2 2]; [ex_cs 1 1; ex_cs 2 2]] [AN ex_gN] [ex_block] [ex_block] []
    = Throw ESedaman.
Proof.
  split; [eexists; vm_compute; reflexivity|]. split; [reflexivity|]. split; [reflexivity|]. split; vm_compute; reflexivity.
Qed.

Example C44_case :
  exists s s', osegd_open segd_plat ex_g1 ex_g2 [[ex_cs 1 1; ex_cs 2 2]] [AN ex_gN] [ex_block] [ex_block] [] = Ok s /\
     d_write_all segd_plat s (map fst ex_traces) = Ok s' /\ len ex_traces = 3 /\
     d_write_trace segd_plat s' (ex_trace 1 1) = Throw ESedaman.
Proof.
  eexists _, _. split; [vm_compute; reflexivity|]. split; [vm_compute; reflexivity|].
  split; [reflexivity|vm_compute; reflexivity].
Qed.

(** C44, refuted: the constructor adds the channel counts to the member
    chans_in_record, which nothing initialises.  With 2 in that memory a fourth
    trace is accepted for a record of three channels; with 2^64 - 3 none is. *)
Definition junk_plat (n : Z) : platform :=
  mkPlatform true gcc_d2u (fun _ => Some 65) (2 ^ 40) true true n Z.log2 (fun _ => 0) no_exp.
Theorem C44_uninitialised_refuted :
  (exists s s', osegd_open (junk_plat 2) ex_g1 ex_g2 [[ex_cs 1 1; ex_cs 2 2]] [AN ex_gN] [ex_block] [ex_block] [] = Ok s /\
     r_chans ex_rec = 3 /\
     d_write_all (junk_plat 2) s [ex_trace 1 1; ex_trace 2 2; ex_trace 2 3; ex_trace 2 4] = Ok s') /\
  (exists s, osegd_open (junk_plat (2 ^ 64 - 3)) ex_g1 ex_g2 [[ex_cs 1 1; ex_cs 2 2]] [AN ex_gN] [ex_block] [ex_block] [] = Ok s /\
     d_write_trace (junk_plat (2 ^ 64 - 3)) s (ex_trace 1 1) = Throw ESedaman).
Proof.
  split.
  - eexists _, _. split; [vm_compute; reflexivity|]. split; [reflexivity|vm_compute; reflexivity].
  - eexists. split; [vm_compute; reflexivity|]. vm_compute; reflexivity.
Qed.
Print Assumptions C44_uninitialised_refuted.
