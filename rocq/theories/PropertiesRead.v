(** C22-C27 and C29: reading arbitrary SEG-Y files. *)
From Verif Require Import BaseFacts Platform Fp TraceHdr SegyTypes SegyCodec CodecFacts SampleFacts
     HdrFacts ISegy OSegy OpenFacts CodecSpec LayoutSpec LayoutFacts BinFacts WriterFacts RoundSpec ReaderFacts
     RoundFacts PropertiesCodec PropertiesLayout PropertiesRound
     ReadSpec ReadFacts ReadFacts2 ReadFacts3 ReadFacts4 ReadFacts5.

Lemma run {A B} (x : outcome A) (g : A -> B) v :
  (let* a := x in Ok (g a)) = Ok v -> exists a, x = Ok a /\ g a = v.
Proof. intros H. apply bind_ok in H as (a & E & H). injection H as H. exists a. auto. Qed.

(** C22.  Whenever a number of calls of read_trace would return traces, any
    mixture of read_trace and read_header calls returns the same traces and
    the headers of the same traces, and ends at the same position. *)
Theorem C22_read_header_and_read_trace_agree : forall p content maps s ops ts s1,
  opened p content maps s -> p_max_alloc p < 2 ^ 63 -> len content < 2 ^ 63 ->
  read_mixed p (repeat true (List.length ops)) s = Ok (map Full ts, s1) ->
  exists s2, read_mixed p ops s = Ok (map (fun x => part_of (fst x) (snd x)) (combine ops ts), s2) /\
    i_cur s2 = i_cur s1 /\ i_file s2 = i_file s1 /\ has_trace s2 = has_trace s1.
Proof.
  intros p content maps s ops ts s1 O A L H.
  destruct (opened_inv _ _ _ _ O A L) as (I & _).
  pose proof I as (C & _ & _ & _ & _ & _ & Bf & _).
  destruct (mixed_inv _ A _ _ _ _ I H) as ((C1 & _) & _).
  destruct (mixed_same p A ops ts s s1 s I H (i_bufsz s) Bf ltac:(auto)) as (b' & E).
  { unfold i_set. rewrite C. destruct s; reflexivity. }
  exists (i_set s1 (i_file s1) b'). split; [exact E|]. unfold has_trace. cbn [i_set i_cur i_file i_eod].
  rewrite C1. repeat split.
Qed.
Print Assumptions C22_read_header_and_read_trace_agree.

(** A file of four two-sample traces, written by OSEGYRev1. *)
Definition blank_text : list Z := text_example 64.
Definition file_of (b : bin_hdr) (rest : list Z) : list Z := blank_text ++ bin_block Native b ++ rest.
Definition num_record (a n : Z) (smp : list Z) : list Z :=
  wr Native 2 a ++ zeros 112 ++ wr Native 2 n ++ zeros 124 ++ smp.
(** Format 8 (one byte per sample), revision 1, variable length. *)
Definition var_bytes : bin_hdr := set_rev (set_endianness (set_format_code bin_zero 8) 16909060) 1 0 0.
Definition three_records : list Z :=
  num_record 1 2 [10; 20] ++ num_record 2 0 [] ++ num_record 3 1 [30].
Definition show_item (x : item) :=
  match x with Full t => (true, show_num t) | Head h => (false, ([hget h "A"; hget h "SAMP_NUM"]%string, [])) end.

Example C22_case : exists s,
  opened plat_example (file_of var_bytes three_records) maps_num s /\
  match read_mixed plat_example [true; true; true] s with Ok (l, s1) => Some (map show_item l, has_trace s1) | _ => None end
  = Some ([(true, ([Some (VInt 1); Some (VInt 2)], [4621819117588971520; 4626322717216342016]));
           (true, ([Some (VInt 2); Some (VInt 0)], []));
           (true, ([Some (VInt 3); Some (VInt 1)], [4629137466983448576]))], false) /\
  match read_mixed plat_example [false; true; false] s with Ok (l, s1) => Some (map show_item l, has_trace s1) | _ => None end
  = Some ([(false, ([Some (VInt 1); Some (VInt 2)], []));
           (true, ([Some (VInt 2); Some (VInt 0)], []));
           (false, ([Some (VInt 3); Some (VInt 1)], []))], false).
Proof.
  pose (g s := (match read_mixed plat_example [true; true; true] s with Ok (l, s1) => Some (map show_item l, has_trace s1) | _ => None end,
    match read_mixed plat_example [false; true; false] s with Ok (l, s1) => Some (map show_item l, has_trace s1) | _ => None end)).
  destruct (run (isegy_open plat_example (file_of var_bytes three_records) maps_num) g (Some ([(true, ([Some (VInt 1); Some (VInt 2)], [4621819117588971520; 4626322717216342016]));
           (true, ([Some (VInt 2); Some (VInt 0)], []));
           (true, ([Some (VInt 3); Some (VInt 1)], [4629137466983448576]))], false), Some ([(false, ([Some (VInt 1); Some (VInt 2)], []));
           (true, ([Some (VInt 2); Some (VInt 0)], []));
           (false, ([Some (VInt 3); Some (VInt 1)], []))], false))) as (s & E & G); [vm_compute; reflexivity|].
  exists s. split; [left; exact E|]. unfold g in G. split; [exact (f_equal fst G)|exact (f_equal snd G)].
Qed.

(** C77.  Opening always ends. *)
Theorem C77_open_ends : forall p content maps bh, bytes content ->
  isegy_open p content maps <> Throw ELoop /\ isegy_open_bh p content bh maps <> Throw ELoop.
Proof. intros p content maps bh B. split; apply open_noloop, B. Qed.
Print Assumptions C77_open_ends.

(** A file, one cut in the middle of the binary header, and one that announces
    no end of text headers and has none. *)
Example C77_case :
  is_ok (isegy_open plat_example (file_of var_bytes three_records) maps_num) = true /\
  isegy_open plat_example (firstn 3300 (file_of var_bytes three_records)) maps_num = Throw EIO /\
  isegy_open plat_example (file_of (set_rev (set_endianness (set_format_code bin_zero 8) 16909060) 1 0 (-1)) []) maps_num <> Throw ELoop.
Proof. split; [vm_compute; reflexivity|]. split; [vm_compute; reflexivity|]. vm_compute. discriminate. Qed.


(** The loop of read_trace calls ends, when every trace occupies some bytes. *)
Theorem C23_read_trace_loop_ends_partial : forall p content maps s,
  opened p content maps s -> p_max_alloc p < 2 ^ 63 -> len content < 2 ^ 63 ->
  safe_layouts maps -> add_ok (i_bh s) -> nonempty_traces s ->
  exists n, ended (read_all p n s).
Proof.
  intros p content maps s O A L S Ad NE. destruct (opened_inv _ _ _ _ O A L) as (I & M & _).
  exists (Z.to_nat (2 ^ 63)). apply read_all_ends; auto; [rewrite M; exact S|].
  destruct I as (_ & C & _). rewrite Z2Nat.id; lia.
Qed.
Print Assumptions C23_read_trace_loop_ends_partial.

(** The loop of read_header calls ends, when also the number of samples cannot
    be negative. *)
Theorem C23_read_header_loop_ends_partial : forall p content maps s,
  opened p content maps s -> p_max_alloc p < 2 ^ 63 -> len content < 2 ^ 63 -> bytes content ->
  safe_layouts maps -> add_ok (i_bh s) -> nonempty_traces s ->
  is_fixed (i_bh s) = true \/ unsigned_count maps ->
  exists n, ended (read_all_headers p n s).
Proof.
  intros p content maps s O A L B S Ad NE U. destruct (opened_inv _ _ _ _ O A L) as (I & M & D).
  exists (Z.to_nat (2 ^ 63)). apply read_headers_end; auto; [rewrite M; exact S|rewrite D; exact B|rewrite M; exact U|].
  destruct I as (_ & C & _). rewrite Z2Nat.id; lia.
Qed.
Print Assumptions C23_read_header_loop_ends_partial.

(** Without header blocks and samples the loop never ends: the header
    announces -1 additional trace headers and no samples. *)
Definition no_blocks : bin_hdr := set_add (set_rev (set_endianness (set_format_code bin_zero 8) 16909060) 2 1 0) (-1) 0.
Theorem C23_no_progress_refuted : safe_layouts maps_num /\
  exists s, isegy_open plat_example (file_of no_blocks [0]) maps_num = Ok s /\
    forall fuel, read_all plat_example fuel s = Throw ELoop.
Proof.
  split.
  { intros n l [H|[]]. injection H as <- <-. apply lay_num_safe. }
  set (o := isegy_open plat_example (file_of no_blocks [0]) maps_num).
  assert (K : (let* s := o in Ok (has_trace s, let* (t, s1) := read_trace plat_example s in Ok s1)) =
              (let* s := o in Ok (true, Ok s))) by (vm_compute; reflexivity).
  assert (J : is_ok o = true) by (vm_compute; reflexivity). clearbody o.
  destruct o as [s| |]; [|discriminate|discriminate]. exists s. split; [reflexivity|]. cbn [bind] in K. injection K as HT K.
  apply bind_ok in K as ([t s1] & E & K). injection K as ->. exact (stuck_trace _ _ _ HT E).
Qed.
Print Assumptions C23_no_progress_refuted.

(** A trace that announces -240 one-byte samples makes read_header return to
    its start; read_trace throws. *)
Theorem C23_negative_count_refuted : safe_layouts maps_num /\
  exists s, isegy_open plat_example (file_of var_bytes (num_record 1 (-240) [])) maps_num = Ok s /\
    (forall fuel, read_all_headers plat_example fuel s = Throw ELoop) /\
    read_trace plat_example s = Throw EAlloc.
Proof.
  split.
  { intros n l [H|[]]. injection H as <- <-. apply lay_num_safe. }
  set (o := isegy_open plat_example (file_of var_bytes (num_record 1 (-240) [])) maps_num).
  assert (K : (let* s := o in Ok (has_trace s, read_trace plat_example s, let* (t, s1) := read_header plat_example s in Ok s1)) =
              (let* s := o in Ok (true, Throw EAlloc, Ok s))) by (vm_compute; reflexivity).
  assert (J : is_ok o = true) by (vm_compute; reflexivity). clearbody o.
  destruct o as [s| |]; [|discriminate|discriminate]. exists s. split; [reflexivity|]. cbn [bind] in K. injection K as HT HU K.
  apply bind_ok in K as ([t s1] & E & K). injection K as ->. split; [exact (stuck_header _ _ _ HT E)|exact HU].
Qed.
Print Assumptions C23_negative_count_refuted.

Lemma maps_num_safe : safe_layouts maps_num.
Proof. intros n l [H|[]]. injection H as <- <-. apply lay_num_safe. Qed.

(** A file with junk behind the last complete trace ends by an exception. *)
Definition maps_unsigned : layouts := [("SEG00000"%string, [(0, ("A"%string, I16)); (114, ("SAMP_NUM"%string, U16))])].
Example C23_case : exists s, opened plat_example (file_of var_bytes (three_records ++ [0])) maps_unsigned s /\
  add_ok (i_bh s) /\ nonempty_traces s /\ unsigned_count maps_unsigned /\ safe_layouts maps_unsigned /\
  read_all plat_example 10 s = Throw EIO /\ read_all_headers plat_example 10 s = Throw EIO.
Proof.
  pose (g s := (bh_max_num_add_tr_headers (i_bh s), read_all plat_example 10 s, read_all_headers plat_example 10 s)).
  destruct (run (isegy_open plat_example (file_of var_bytes (three_records ++ [0])) maps_unsigned) g (0, Throw EIO, Throw EIO))
    as (s & E & G); [vm_compute; reflexivity|]. unfold g in G. injection G as G1 G2 G3.
  exists s. split; [left; exact E|]. unfold add_ok, nonempty_traces. rewrite G1. split; [lia|]. split; [left; lia|].
  split.
  { clear. intros n l en [H|[]] H2 H3. injection H as <- <-. cbn [In] in H2.
    destruct H2 as [<-|[<-|[]]]; [discriminate H3|right; left; reflexivity]. }
  split; [|auto].
  intros n l [H|[]]. injection H as <- <-. apply (check_layout_safe "SEG00000" [(0, ("A"%string, I16)); (114, ("SAMP_NUM"%string, U16))]); try reflexivity.
  - intros en H. cbn in H. repeat destruct H as [<-|H]; try contradiction; reflexivity.
  - cbn. lia.
Qed.

(** C24.  A file that could be read to its end is cut after [k] bytes.  Inside
    the text and binary headers the constructor throws.  Otherwise the traces
    that are complete come back unchanged, and then the end is reported if the
    file was cut between two traces, an exception if it was cut inside one. *)
Theorem C24_truncated_files_are_reported : forall p maps open content s fuel ts sE k,
  constructor p maps open -> p_max_alloc p < 2 ^ 63 -> len content < 2 ^ 63 ->
  open content = Ok s -> collect p fuel s = (ts, Ok sE) ->
  bh_num_of_trailer_stanza (i_bh s) = 0 -> add_ok (i_bh s) ->
  0 <= bh_max_num_add_tr_headers (i_bh s) < len maps -> 0 <= k <= len content ->
  let content' := firstn (Z.to_nat k) content in
  if k <? 3600 + 3200 * (len (i_text s) - 1) then open content' = Throw EIO
  else exists s' ts1 ts2 fuel', open content' = Ok s' /\ ts = ts1 ++ ts2 /\
    ((exists sk s1, reads p s ts1 s1 /\ i_cur s1 = k /\ collect p fuel' s' = (ts1, Ok sk)) \/
     (exists s1, reads p s ts1 s1 /\ i_cur s1 <> k /\
        (k < i_cur s1 -> ts1 = []) /\
        (forall t s2, read_trace p s1 = Ok (t, s2) -> k < i_cur s2) /\
        collect p fuel' s' = (ts1, Throw EIO))).
Proof.
  intros p maps open content s fuel ts sE k Co A L O Cl Ns Ad Hm Hk content'.
  assert (T : exists ov b0, forall c, open c = i_open p c maps ov b0).
  { destruct Co as [Co|(bh & Co)]; [exists false, bin_zero|exists true, bh]; exact Co. }
  destruct T as (ov & b0 & T). rewrite T in O.
  pose proof (open_r_inv _ _ _ _ _ _ O A L) as I.
  pose proof (open_shape _ _ _ _ _ _ O) as (_ & Sh).
  pose proof (open_trunc _ _ _ _ _ _ k O Ns Hk L) as (T1 & T2). cbv zeta in T1, T2.
  assert (Ee : i_eod s = len content).
  { apply open_parts in O as (_ & _ & _ & f3 & f4 & f5 & X1 & X2 & X3).
    unfold read_trailer_stanzas in X3. rewrite Ns in X3. cbv zeta in X3. change (0 =? -1) with false in X3. cbv iota in X3.
    change (0 * TEXT_HEADER_SIZE) with 0 in X3. rewrite sarith_ok in X3 by reflexivity. cbn [bind] in X3.
    apply bind_ok in X3 as (f6 & E6 & X3). apply bind_ok in X3 as ([sx f7] & E7 & X3).
    pose proof (fseek_end_inv _ _ _ E6) as (D6 & P6 & _).
    assert (fdata f4 = content).
    { apply ext_data in X1. cbn [fdata] in X1.
      destruct (_ =? 0) in X2; [injection X2 as _ <-; exact X1|].
      apply bind_ok in X2 as (g & Eg & X2). injection X2 as _ <-. apply fseek_inv in Eg as (D4 & _). congruence. }
    assert (i_eod s = fpos f6) by congruence. rewrite H0, P6, H. lia. }
  assert (Em : i_maps s = maps) by (rewrite Sh; reflexivity).
  assert (Ef : fdata (i_file s) = content) by (rewrite Sh; reflexivity).
  assert (Hc : i_cur s = fpos (i_file s)) by (rewrite Sh; reflexivity).
  destruct (Z.ltb_spec k (3600 + 3200 * (len (i_text s) - 1))) as [K|K].
  { rewrite T. apply T2, K. }
  exists (cut k s). destruct (Z.le_gt_cases (i_cur s) k) as [Q|Q].
  - destruct (collect_trunc p A fuel s ts sE Cl I ltac:(rewrite Em; exact Hm) ltac:(rewrite Ef; exact Ee) k ltac:(rewrite Ef; lia))
      as (ts1 & sJ & R & D & ts2 & Ets).
    exists ts1, ts2, fuel. split; [rewrite T; apply T1, K|]. split; [exact Ets|].
    destruct D as [(D1 & D2)|(t & sN & ts3 & D1 & D2 & D3 & D4)].
    + left. exists (cut k sJ), sJ. auto.
    + right. exists sJ. split; [exact R|]. split; [lia|]. split; [lia|]. split; [|exact D4].
      intros t' s2 E. rewrite D2 in E. injection E as <- <-. lia.
  - exists [], ts, 1%nat. split; [rewrite T; apply T1, K|]. split; [reflexivity|]. right. exists s.
    split; [reflexivity|]. split; [lia|]. split; [reflexivity|]. split.
    + intros t s2 E. pose proof (read_trace_inv _ _ _ _ A I E) as ((_ & _ & _ & _ & _ & _ & B & _) & _ & P & _).
      enough (0 <= header_bytes s) by lia. unfold header_bytes. unfold add_ok in Ad. lia.
    + apply behind_end; auto; [rewrite Em; exact Hm|rewrite Ef; exact Hk].
Qed.
Print Assumptions C24_truncated_files_are_reported.

(** The second of three traces is cut inside its header, and the file is cut
    between the second and the third. *)
Example C24_case :
  (let* s := isegy_open plat_example (file_of var_bytes three_records) maps_num in
   let (ts, o) := collect plat_example 9 s in
   Ok (bh_num_of_trailer_stanza (i_bh s), bh_max_num_add_tr_headers (i_bh s), map show_num ts, is_ok o)) =
  Ok (0, 0, [([Some (VInt 1); Some (VInt 2)], [4621819117588971520; 4626322717216342016]);
             ([Some (VInt 2); Some (VInt 0)], []); ([Some (VInt 3); Some (VInt 1)], [4629137466983448576])], true) /\
  map (fun k => let* s := isegy_open plat_example (firstn (Z.to_nat k) (file_of var_bytes three_records)) maps_num in
                let (ts, o) := collect plat_example 9 s in Ok (map show_num ts, let* _ := o in Ok tt))
      [3599; 3600; 4000; 4082; 4083] =
  [Throw EIO; Ok ([], Ok tt);
   Ok ([([Some (VInt 1); Some (VInt 2)], [4621819117588971520; 4626322717216342016])], Throw EIO);
   Ok ([([Some (VInt 1); Some (VInt 2)], [4621819117588971520; 4626322717216342016]);
        ([Some (VInt 2); Some (VInt 0)], [])], Ok tt);
   Ok ([([Some (VInt 1); Some (VInt 2)], [4621819117588971520; 4626322717216342016]);
        ([Some (VInt 2); Some (VInt 0)], [])], Throw EIO)].
Proof. vm_compute. split; reflexivity. Qed.

(** C88, refuted: with more header blocks announced than layouts given the blocks without a
    layout are skipped without being read: a trace cut inside one is returned. *)
Definition one_more : bin_hdr := set_add (set_rev (set_endianness (set_format_code bin_zero 8) 16909060) 2 1 0) 1 0.
Theorem C88_skipped_header_blocks_refuted :
  exists k s ts sE s1 t s2, k < 3600 + 480 /\
    isegy_open plat_example (file_of one_more (zeros 480)) maps_num = Ok s /\
    collect plat_example 2 s = (ts, Ok sE) /\ len ts = 1 /\ i_cur sE = 3600 + 480 /\
    isegy_open plat_example (firstn (Z.to_nat k) (file_of one_more (zeros 480))) maps_num = Ok s1 /\
    read_trace plat_example s1 = Ok (t, s2).
Proof.
  assert (K : (let* s := isegy_open plat_example (file_of one_more (zeros 480)) maps_num in
               let (ts, o) := collect plat_example 2 s in
               let* sE := o in
               let* s1 := isegy_open plat_example (firstn (Z.to_nat 3900) (file_of one_more (zeros 480))) maps_num in
               let* r := read_trace plat_example s1 in Ok (len ts, i_cur sE)) = Ok (1, 4080)) by (vm_compute; reflexivity).
  apply bind_ok in K as (s & E1 & K). destruct (collect plat_example 2 s) as [ts o] eqn:E2.
  apply bind_ok in K as (sE & -> & K). apply bind_ok in K as (s1 & E3 & K). apply bind_ok in K as ([t s2] & E4 & K).
  injection K as K1 K2. exists 3900, s, ts, sE, s1, t, s2. repeat (split; [first [assumption|lia|rewrite K2; lia]|]). exact E4.
Qed.
Print Assumptions C88_skipped_header_blocks_refuted.

(** C25.  The text headers of every file that opens: with a count [n >= 0],
    [n] blocks behind the binary header; with -1, the blocks up to the first
    one that starts with ((SEG: EndText)).  A smaller count never opens.  The
    traces start behind them unless the header says otherwise. *)
Theorem C25_extended_text_headers : forall p content maps s, opened p content maps s ->
  let n := bh_ext_text_headers_num (i_bh s) in
  exists bs, i_text s = slice 0 3200 content :: bs /\ blocks_at content 3600 bs /\ -1 <= n /\
    (0 <= n -> len bs = n) /\
    (n = -1 -> exists pre last, bs = pre ++ [last] /\ Forall (fun b => ~ is_end b) pre /\ is_end last) /\
    (bh_byte_off_of_first_tr (i_bh s) = 0 -> i_cur s = 3600 + 3200 * len bs).
Proof.
  intros p content maps s O n.
  assert (T : exists ov b0, i_open p content maps ov b0 = Ok s).
  { destruct O as [O|(bh & O)]; [exists false, bin_zero|exists true, bh]; exact O. }
  clear O. destruct T as (ov & b0 & O). pose proof (open_shape _ _ _ _ _ _ O) as (_ & Sh).
  assert (Hc : i_cur s = i_first s) by (rewrite Sh; reflexivity). clear Sh.
  apply open_parts in O as (_ & _ & _ & f3 & f4 & f5 & X1 & X2 & _). fold n in X1.
  assert (G : exists bs, i_text s = slice 0 3200 content :: bs /\ blocks_at content 3600 bs /\ -1 <= n /\
    (0 <= n -> len bs = n) /\
    (n = -1 -> exists pre last, bs = pre ++ [last] /\ Forall (fun b => ~ is_end b) pre /\ is_end last) /\
    fpos f3 = 3600 + 3200 * len bs).
  { unfold read_ext_text_headers in X1. destruct (Z.eqb_spec n 0) as [->|N0].
    { injection X1 as <- <-. exists []. split; [reflexivity|]. split; [intros [|i] b H; discriminate|].
      split; [lia|]. split; [reflexivity|]. split; [lia|reflexivity]. }
    destruct (Z.eqb_spec n (-1)) as [N1|N1].
    { apply until_inv in X1 as (bs & b & Ex & -> & Hb & F & El); [|cbn [fpos]; lia].
      exists (bs ++ [b]). split; [exact Ex|]. split; [exact Hb|]. split; [lia|]. split; [lia|]. split.
      - intros _. exists bs, b. auto.
      - cbn [fpos]. rewrite len_app. reflexivity. }
    destruct (Z.lt_ge_cases n 0) as [Q|Q].
    { exfalso. exact (blocks_neg _ _ _ _ _ Q X1). }
    apply blocks_inv in X1 as (bs & Ex & Lb & -> & Hb); [|cbn [fpos]; lia|lia].
    exists bs. split; [exact Ex|]. split; [exact Hb|]. split; [lia|]. split; [auto|]. split; [lia|].
    cbn [fpos]. rewrite Lb. reflexivity. }
  destruct G as (bs & G1 & G2 & G3 & G4 & G5 & G6). exists bs. repeat (split; [assumption|]).
  intros Hz. rewrite Hz in X2. change (0 =? 0) with true in X2. cbv iota in X2. injection X2 as X2 _. congruence.
Qed.
Print Assumptions C25_extended_text_headers.

Definition end_block : list Z := bytes_of_string "((SEG: EndText))" ++ repeat 32 (Z.to_nat 3184).
Definition with_ext (n : Z) : bin_hdr := set_rev (set_endianness (set_format_code bin_zero 8) 16909060) 2 1 n.
Example C25_case : is_end end_block /\ ~ is_end (text_example 65) /\
  map (fun n => let* s := isegy_open plat_example (file_of (with_ext n) (text_example 65 ++ end_block ++ text_example 66)) maps_num in
                Ok (map (firstn 2) (i_text s), i_cur s)) [0; 1; 3; -1; -2; 4] =
  [Ok ([[64; 64]], 3600); Ok ([[64; 64]; [65; 65]], 6800); Ok ([[64; 64]; [65; 65]; [40; 40]; [66; 66]], 13200);
   Ok ([[64; 64]; [65; 65]; [40; 40]], 10000); Throw EIO; Throw EIO].
Proof. split; [reflexivity|]. split; [discriminate|]. vm_compute. reflexivity. Qed.

(** C26.  No file that announces a positive number of trailer stanzas can be
    opened. *)
Theorem C26_announced_stanzas_refuted : forall p content maps s, opened p content maps s ->
  bh_num_of_trailer_stanza (i_bh s) = 0 \/ bh_num_of_trailer_stanza (i_bh s) = -1.
Proof.
  intros p content maps s O.
  assert (T : exists ov b0, i_open p content maps ov b0 = Ok s).
  { destruct O as [O|(bh & O)]; [exists false, bin_zero|exists true, bh]; exact O. }
  clear O. destruct T as (ov & b0 & O).
  apply open_parts in O as (_ & _ & _ & f3 & f4 & f5 & X1 & X2 & X3).
  destruct (Z.eq_dec (bh_num_of_trailer_stanza (i_bh s)) 0) as [|N0]; [left; assumption|].
  destruct (Z.eq_dec (bh_num_of_trailer_stanza (i_bh s)) (-1)) as [|N1]; [right; assumption|].
  exfalso. refine (trailer_never _ _ _ _ _ _ _ N0 N1 X3).
  pose proof (ext_pos _ _ _ _ _ X1 ltac:(cbn [fpos]; lia)) as P3.
  destruct (_ =? 0) in X2; [injection X2 as _ <-; exact P3|].
  apply bind_ok in X2 as (g & Eg & X2). injection X2 as _ <-. apply fseek_inv in Eg as (_ & P4 & R4). lia.
Qed.
Print Assumptions C26_announced_stanzas_refuted.

(** With the number -1 the stanzas of a file of variable-length traces are
    read back, when the number of traces is stored in the header too. *)
Theorem C26_unknown_number_variable_length_partial : forall p maps txt blk exts recs sts last e b bps,
  check_tr_hdr_map bin_zero maps = Ok tt -> len txt = 3200 -> len blk = 400 -> says blk e b ->
  In (bh_format_code b) supported -> bytes_per_sample (bh_format_code b) = Some bps ->
  bh_ext_text_headers_num b = len exts -> Forall (fun t => len t = 3200) exts ->
  bh_byte_off_of_first_tr b = 0 -> bh_num_of_trailer_stanza b = -1 -> bh_fixed_tr_length b = 0 ->
  bh_max_num_add_tr_headers b = 0 -> bh_num_of_tr_in_file b = len recs -> recs <> [] ->
  Forall (own_record e bps) recs ->
  Forall (fun t => len t = 3200 /\ ~ is_end t) sts -> len last = 3200 -> is_end last ->
  0 <= sample_count b * bps -> sample_count b * bps < 2 ^ 31 -> sample_count b * bps <= p_max_alloc p ->
  let content := txt ++ blk ++ concat exts ++ concat recs ++ concat sts ++ last in
  len content < 2 ^ 63 ->
  exists s, isegy_open p content maps = Ok s /\ i_text s = txt :: exts /\ i_stanzas s = sts ++ [last] /\
    i_first s = 3600 + 3200 * len exts /\ i_eod s = i_first s + len (concat recs).
Proof. exact open_stanzas. Qed.
Print Assumptions C26_unknown_number_variable_length_partial.

(** A header with [traces] traces in the file and [stanzas] trailer stanzas. *)
Definition set_counts (b : bin_hdr) (traces stanzas : Z) : bin_hdr :=
  mkBin (bh_job_id b) (bh_line_num b) (bh_reel_num b) (bh_tr_per_ens b) (bh_aux_per_ens b) (bh_samp_int b) (bh_samp_int_orig b) (bh_samp_per_tr b) (bh_samp_per_tr_orig b) (bh_format_code b) (bh_ens_fold b) (bh_sort_code b) (bh_vert_sum_code b) (bh_sw_freq_at_start b) (bh_sw_freq_at_end b) (bh_sw_length b) (bh_sw_type_code b) (bh_sw_ch_tr_num b) (bh_taper_at_start b) (bh_taper_at_end b) (bh_taper_type b) (bh_corr_traces b) (bh_bin_gain_recov b) (bh_amp_recov_meth b) (bh_measure_system b) (bh_impulse_sig_pol b) (bh_vib_pol_code b) (bh_ext_tr_per_ens b) (bh_ext_aux_per_ens b) (bh_ext_samp_per_tr b) (bh_ext_samp_int b) (bh_ext_samp_int_orig b) (bh_ext_samp_per_tr_orig b) (bh_ext_ens_fold b) (bh_endianness b) (bh_SEGY_rev_major_ver b) (bh_SEGY_rev_minor_ver b) (bh_fixed_tr_length b) (bh_ext_text_headers_num b) (bh_max_num_add_tr_headers b) (bh_time_basis_code b) traces (bh_byte_off_of_first_tr b) stanzas.
Definition stanza_hdr (fixed : Z) : bin_hdr :=
  set_counts (set_rev (set_endianness (set_samp_per_tr (set_format_code bin_zero 8) 2) 16909060) 2 fixed 1) 3 (-1).

Example C26_case :
  check_tr_hdr_map bin_zero maps_num = Ok tt /\
  says (bin_block Native (stanza_hdr 0)) Native (stanza_hdr 0) /\
  Forall (own_record Native 1) [num_record 1 2 [10; 20]; num_record 2 0 []; num_record 3 1 [30]] /\
  (let* s := isegy_open plat_example (file_of (stanza_hdr 0) (text_example 70 ++ three_records ++ text_example 65 ++ end_block)) maps_num in
   let* (ts, s') := read_all plat_example 9 s in
   Ok (map (firstn 1) (i_text s), map (firstn 1) (i_stanzas s), map show_num ts, i_eod s)) =
  Ok ([[64]; [70]], [[65]; [40]],
      [([Some (VInt 1); Some (VInt 2)], [4621819117588971520; 4626322717216342016]);
       ([Some (VInt 2); Some (VInt 0)], []); ([Some (VInt 3); Some (VInt 1)], [4629137466983448576])], 7523).
Proof.
  split; [vm_compute; reflexivity|]. split.
  { split; [vm_compute; reflexivity|]. eexists. vm_compute. reflexivity. }
  split; [|vm_compute; reflexivity].
  repeat constructor.
  - exists (wr Native 2 1 ++ zeros 112 ++ wr Native 2 2 ++ zeros 124), [10; 20], 2. vm_compute. intuition (try reflexivity; try discriminate).
  - exists (wr Native 2 2 ++ zeros 112 ++ wr Native 2 0 ++ zeros 124), [], 0. vm_compute. intuition (try reflexivity; try discriminate).
  - exists (wr Native 2 3 ++ zeros 112 ++ wr Native 2 1 ++ zeros 124), [30], 1. vm_compute. intuition (try reflexivity; try discriminate).
Qed.

(** The same file with a fixed trace length cannot be opened: the trace headers
    are left out of the computed start of the stanzas. *)
Theorem C26_unknown_number_fixed_length_refuted :
  exists recs, recs <> [] /\ bh_num_of_tr_in_file (stanza_hdr 1) = len recs /\ Forall (own_record Native 1) recs /\
    Forall (fun r => len r = 240 + sample_count (stanza_hdr 1) * 1) recs /\
    isegy_open plat_example (file_of (stanza_hdr 1) (text_example 70 ++ concat recs ++ text_example 65 ++ end_block)) maps_num
    = Throw EIO.
Proof.
  exists [num_record 1 2 [10; 20]; num_record 2 2 [20; 30]; num_record 3 2 [30; 40]].
  split; [discriminate|]. split; [reflexivity|]. split.
  { repeat constructor.
    - exists (wr Native 2 1 ++ zeros 112 ++ wr Native 2 2 ++ zeros 124), [10; 20], 2. vm_compute. intuition (try reflexivity; try discriminate).
    - exists (wr Native 2 2 ++ zeros 112 ++ wr Native 2 2 ++ zeros 124), [20; 30], 2. vm_compute. intuition (try reflexivity; try discriminate).
    - exists (wr Native 2 3 ++ zeros 112 ++ wr Native 2 2 ++ zeros 124), [30; 40], 2. vm_compute. intuition (try reflexivity; try discriminate). }
  split; [repeat constructor|]. vm_compute. reflexivity.
Qed.
Print Assumptions C26_unknown_number_fixed_length_refuted.

(** C27.  The header of a reader opened with a supplied header is that header
    with the marker of the file; the sample size and count are computed from
    it.  (C25 says the same of the text headers.) *)
Theorem C27_override_is_honoured : forall p content bh maps s,
  isegy_open_bh p content bh maps = Ok s ->
  i_bh s = set_endianness bh (marker content) /\
  endian_of (marker content) = Ok (i_endian s) /\
  i_spt s = sample_count bh /\ bytes_per_sample (bh_format_code bh) = Some (i_bps s).
Proof.
  intros p content bh maps s H. unfold isegy_open_bh in H.
  pose proof (open_shape _ _ _ _ _ _ H) as (Sp & _). pose proof (i_open_inv _ _ _ _ _ _ H) as (_ & Bp & _).
  apply open_parts in H as (_ & Fl & Ee & _). rewrite Fl in Sp, Bp. split; [exact Fl|]. split; [exact Ee|].
  destruct bh. split; [exact Sp|exact Bp].
Qed.
Print Assumptions C27_override_is_honoured.

(** The binary header block of the file is not looked at: two files that differ
    only there, and have the same marker, open alike and give the same traces. *)
Theorem C27_stored_values_do_not_matter : forall p txt blk blk' rest bh maps s fuel ts s1,
  p_max_alloc p < 2 ^ 63 -> len (txt ++ blk ++ rest) < 2 ^ 63 ->
  len txt = 3200 -> len blk = 400 -> len blk' = 400 -> slice 96 4 blk' = slice 96 4 blk ->
  bh_byte_off_of_first_tr bh = 0 -> bh_num_of_trailer_stanza bh = 0 ->
  isegy_open_bh p (txt ++ blk ++ rest) bh maps = Ok s -> read_all p fuel s = Ok (ts, s1) ->
  exists s' s1', isegy_open_bh p (txt ++ blk' ++ rest) bh maps = Ok s' /\ read_all p fuel s' = Ok (ts, s1') /\
    i_bh s' = i_bh s /\ i_text s' = i_text s /\ i_spt s' = i_spt s /\ i_bps s' = i_bps s /\ i_endian s' = i_endian s.
Proof.
  intros p txt blk blk' rest bh maps s fuel ts s1 A L L1 L2 L3 M Of Ns O R.
  set (d := txt ++ blk ++ rest) in *. set (d' := txt ++ blk' ++ rest).
  assert (Hl : len d' = len d) by (unfold d, d'; rewrite !len_app; lia).
  assert (Hs : skipn (Z.to_nat 3600) d' = skipn (Z.to_nat 3600) d).
  { assert (K : forall x, len x = 400 -> skipn (Z.to_nat 3600) (txt ++ x ++ rest) = rest).
    { intros x Lx. rewrite app_assoc, skipn_app, skipn_all2 by (rewrite app_length; unfold len in *; lia).
      replace (_ - _)%nat with 0%nat by (rewrite app_length; unfold len in *; lia). reflexivity. }
    unfold d, d'. rewrite !K by assumption. reflexivity. }
  assert (S1 : slice 0 3200 d' = slice 0 3200 d).
  { rewrite <- L1. transitivity txt; [apply (slice_mid [] txt)|symmetry; apply (slice_mid [] txt)]. }
  assert (S2 : slice 3296 4 d' = slice 3296 4 d).
  { assert (K : forall x, len x = 400 -> slice 3296 4 (txt ++ x ++ rest) = slice 96 4 x).
    { intros x Lx. change 3296 with (3200 + 96). rewrite <- (slice_slice 3200 400 96 4) by lia.
      f_equal. rewrite <- L1, <- Lx. apply slice_mid. }
    unfold d, d'. rewrite !K by assumption. exact M. }
  assert (I : r_inv p s) by (unfold isegy_open_bh in O; exact (open_r_inv _ _ _ _ _ _ O A L)).
  destruct (open_bh_on p d d' Hl Hs maps bh s S1 S2 Of Ns O) as (O' & C & D).
  pose proof (read_all_on p d d' Hl Hs A fuel s ts s1 I R C D) as R'.
  exists (son d' s), (son d' s1). repeat (split; [assumption || reflexivity|]). reflexivity.
Qed.
Print Assumptions C27_stored_values_do_not_matter.

(** Supplying the header of the file itself changes nothing. *)
Theorem C27_own_header : forall p content maps s,
  isegy_open p content maps = Ok s -> check_tr_hdr_map (i_bh s) maps = Ok tt ->
  isegy_open_bh p content (i_bh s) maps = Ok s.
Proof. exact override_same. Qed.
Print Assumptions C27_own_header.

(** A file that says two-sample traces is read with three samples per trace. *)
Example C27_case :
  (let* s := isegy_open_bh plat_example (file_of var_bytes (num_record 1 2 [10; 20; 30])) 
               (set_samp_per_tr (set_format_code bin_zero 8) 3) maps_num in
   let* (ts, _) := read_all plat_example 9 s in
   Ok (i_bh s, i_spt s, map (fun t => len (t_smp t)) ts)) =
  Ok (set_endianness (set_samp_per_tr (set_format_code bin_zero 8) 3) 16909060, 3, [3]) /\
  check_tr_hdr_map var_bytes maps_num = Ok tt.
Proof. vm_compute. split; reflexivity. Qed.

(** C29.  Opening a byte sequence performs no undefined behaviour, when the
    sizes computed from its header stay in 32 bits. *)
Theorem C29_opening_is_safe_partial : forall p content maps bh, len content < 2 ^ 42 ->
  ((forall e b bps, says (slice 3200 400 content) e b -> bytes_per_sample (bh_format_code b) = Some bps -> bounded b bps) ->
   isegy_open p content maps <> UB) /\
  ((forall bps, bytes_per_sample (bh_format_code bh) = Some bps -> bounded bh bps) ->
   - 2 ^ 15 <= bh_ext_text_headers_num bh < 2 ^ 15 ->
   isegy_open_bh p content bh maps <> UB).
Proof.
  intros p content maps bh L. split; intros H; [|intros Hn]; apply open_noub; try exact L.
  - intros b bps Bp (e & c & Ee & F). split; [|exact (fill_ext_range _ _ _ _ _ F)].
    apply (H e); [|exact Bp]. unfold says. rewrite slice_slice by lia. split; [exact Ee|]. exists c. exact F.
  - intros b bps Bp ->. destruct bh. split; [apply H; exact Bp|exact Hn].
Qed.
Print Assumptions C29_opening_is_safe_partial.

(** Reading any number of traces and headers performs no undefined behaviour. *)
Theorem C29_reading_is_safe_partial : forall p content maps s ops,
  opened p content maps s -> p_max_alloc p < 2 ^ 63 -> len content < 2 ^ 63 -> safe_layouts maps ->
  add_ok (i_bh s) -> read_mixed p ops s <> UB.
Proof.
  intros p content maps s ops O A L S Ad. destruct (opened_inv _ _ _ _ O A L) as (I & M & _).
  apply mixed_noub; auto. rewrite M. exact S.
Qed.
Print Assumptions C29_reading_is_safe_partial.

(** Headers whose sizes do not fit an int are undefined behaviour: on opening,
    2^31 - 1 four-byte samples or trailer stanzas; on reading, 2^31 - 1
    additional trace headers. *)
Definition big_hdr (ext add stanzas : Z) : bin_hdr :=
  mkBin 0 0 0 0 0 0 0 0 0 5 0 0 0 0 0 0 0 0 0 0 0 0 0 0 0 0 0 0 0 ext 0 0 0 0 16909060 2 0 1 0 add 0 0 0 stanzas.
Theorem C29_sizes_overflow_refuted : safe_layouts maps_num /\
  isegy_open plat_example (file_of (big_hdr (2 ^ 31 - 1) 0 0) []) maps_num = UB /\
  isegy_open plat_example (file_of (big_hdr 0 0 (2 ^ 31 - 1)) []) maps_num = UB /\
  exists s, isegy_open plat_example (file_of (big_hdr 0 (2 ^ 31 - 1) 0) []) maps_num = Ok s /\
    read_trace plat_example s = UB /\ read_header plat_example s = UB.
Proof.
  split; [exact maps_num_safe|]. split; [vm_compute; reflexivity|]. split; [vm_compute; reflexivity|].
  destruct (run (isegy_open plat_example (file_of (big_hdr 0 (2 ^ 31 - 1) 0) []) maps_num)
                (fun s => (read_trace plat_example s, read_header plat_example s)) (UB, UB)) as (s & E & G);
    [vm_compute; reflexivity|].
  exists s. split; [exact E|]. split; [exact (f_equal fst G)|exact (f_equal snd G)].
Qed.
Print Assumptions C29_sizes_overflow_refuted.

(** A file of zeros and one of nines. *)
Example C29_case :
  (forall e b bps, says (slice 3200 400 (file_of var_bytes three_records)) e b ->
     bytes_per_sample (bh_format_code b) = Some bps -> bounded b bps) /\
  isegy_open plat_example (repeat 9 (Z.to_nat 4000)) maps_num = Throw ESedaman /\
  isegy_open plat_example (zeros 4000) maps_num = Throw ESedaman.
Proof.
  split; [|vm_compute; split; reflexivity].
  intros e b bps (H1 & c & H2) H3. vm_compute in H1. injection H1 as <-. vm_compute in H2. injection H2 as <- <-.
  vm_compute in H3. injection H3 as <-. vm_compute. repeat split; discriminate.
Qed.
