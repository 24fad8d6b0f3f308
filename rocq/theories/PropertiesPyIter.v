(** C68, C69, C72 and C73: iteration over readers and texts in the Python module. *)
From Coq Require Import String Permutation.
From Verif Require Import BaseFacts Platform Fp FpSpec TraceHdr SegyTypes SegyCodec ISegy Sorted1D LayoutSpec Ebcdic SampleFacts BinFacts ReadSpec ReadFacts
  SortedSpec SegdTypes SegdSpec ISegd SegdFileFacts SegdIoFacts SegdFileProps SegdExamples
  PropertiesCodec PropertiesLayout PropertiesRound PropertiesRead PropertiesSorted PropertiesSegdFile
  PyBind PySpec PyFacts PyIterFacts.
Local Open Scope string_scope.
Local Open Scope list_scope.
Local Open Scope Z_scope.

(** C68.  A SEG-Y file whose traces are [ts].  After any calls of read_trace
    and read_header, a [for] loop over the reader runs its body once for each
    of the traces that remain, in order, and ends without an exception; then
    [next] raises StopIteration. *)
Theorem C68_for_loop : forall (A : Type) p content maps s n ts sE ops l s1 (body : A -> trace -> A) a fuel,
  opened p content maps s -> p_max_alloc p < 2 ^ 63 -> len content < 2 ^ 63 ->
  read_all p n s = Ok (ts, sE) -> read_mixed p ops s = Ok (l, s1) -> (List.length ops <= List.length ts)%nat ->
  (List.length ts - List.length ops < fuel)%nat ->
  exists s2, py_for (next_segy p) body fuel a s1 = (fold_left body (skipn (List.length ops) ts) a, Ret s2) /\
    next_segy p s2 = Raise StopIteration.
Proof.
  intros A p content maps s n ts sE ops l s1 body a fuel O Al L R M Lo F.
  destruct (segy_loop p content maps s n ts sE ops l s1 body a fuel O Al L R M Lo F) as (_ & s2 & E & H).
  exists s2. split; [exact E|]. unfold next_segy, step. rewrite H. reflexivity.
Qed.
Print Assumptions C68_for_loop.

(** C68.  The program of the README: the header of the first trace, then a loop
    that looks at the header of every trace together with the one before it. *)
Theorem C68_adjacent_headers : forall p content maps s n t ts sE h s1 fuel,
  opened p content maps s -> p_max_alloc p < 2 ^ 63 -> len content < 2 ^ 63 ->
  read_all p n s = Ok (t :: ts, sE) -> read_header p s = Ok (h, s1) -> (List.length ts < fuel)%nat ->
  exists s2 hl, py_for (next_segy p) (fun a t => (t_hdr t, snd a ++ [(fst a, t_hdr t)])) fuel (h, []) s1 =
    ((hl, combine (map t_hdr (t :: ts)) (map t_hdr ts)), Ret s2).
Proof.
  intros p content maps s n t ts sE h s1 fuel O Al L R H F.
  assert (M : read_mixed p [false] s = Ok ([Head h], s1)).
  { cbn [read_mixed]. rewrite H. reflexivity. }
  destruct (segy_loop p content maps s n (t :: ts) sE [false] [Head h] s1
    (fun a t => (t_hdr t, snd a ++ [(fst a, t_hdr t)])) (h, []) fuel O Al L R M ltac:(cbn; lia) ltac:(cbn; lia)) as (E1 & s2 & E2 & _).
  cbn in E1. injection E1 as ->. cbn [List.length skipn] in E2. rewrite E2. exists s2.
  pose proof (fold_pairs ts (t_hdr t) []) as P.
  destruct (fold_left _ ts (t_hdr t, [])) as [hl ps]. cbn [snd] in P. exists hl. rewrite P. reflexivity.
Qed.
Print Assumptions C68_adjacent_headers.

(** The three traces of C24_case; the second one as a header. *)
Example C68_case :
  (let* s := isegy_open plat_example (file_of var_bytes three_records) maps_num in
   let* (l, s1) := read_mixed plat_example [true] s in
   let (h, r) := py_for (next_segy plat_example) (fun a t => a ++ [show_num t]) 9 [] s1 in
   let (q, _) := py_list (next_segy plat_example) 9 s in
   Ok (h, map show_num q, match r with Ret s2 => next_segy plat_example s2 | _ => PyUB end)) =
  Ok ([([Some (VInt 2); Some (VInt 0)], []); ([Some (VInt 3); Some (VInt 1)], [4629137466983448576])],
      [([Some (VInt 1); Some (VInt 2)], [4621819117588971520; 4626322717216342016]);
       ([Some (VInt 2); Some (VInt 0)], []); ([Some (VInt 3); Some (VInt 1)], [4629137466983448576])],
      Raise StopIteration).
Proof. vm_compute. reflexivity. Qed.

(** C68.  A cut file: the body runs for every complete trace; then the loop
    ends if the file was cut between traces, and raises the exception of the
    reader if it was cut inside one. *)
Theorem C68_cut_files : forall (A : Type) p maps open content s fuel ts sE k (body : A -> trace -> A) a,
  constructor p maps open -> p_max_alloc p < 2 ^ 63 -> len content < 2 ^ 63 ->
  open content = Ok s -> collect p fuel s = (ts, Ok sE) ->
  bh_num_of_trailer_stanza (i_bh s) = 0 -> add_ok (i_bh s) ->
  0 <= bh_max_num_add_tr_headers (i_bh s) < len maps -> 0 <= k <= len content ->
  let content' := firstn (Z.to_nat k) content in
  if k <? 3600 + 3200 * (len (i_text s) - 1) then open content' = Throw EIO
  else exists s' ts1 ts2 fuel', open content' = Ok s' /\ ts = ts1 ++ ts2 /\
    ((exists sk s1, reads p s ts1 s1 /\ i_cur s1 = k /\
        py_for (next_segy p) body fuel' a s' = (fold_left body ts1 a, Ret sk)) \/
     (exists s1, reads p s ts1 s1 /\ i_cur s1 <> k /\
        py_for (next_segy p) body fuel' a s' = (fold_left body ts1 a, Raise (FromCpp EIO)))).
Proof.
  intros A p maps open content s fuel ts sE k body a Co Al L O C Ns Ad Hm Hk content'.
  pose proof (C24_truncated_files_are_reported p maps open content s fuel ts sE k Co Al L O C Ns Ad Hm Hk) as H.
  cbv zeta in H. fold content' in H. destruct (k <? _); [exact H|].
  destruct H as (s' & ts1 & ts2 & fuel' & H1 & H2 & H3). exists s', ts1, ts2, (S fuel'). split; [exact H1|]. split; [exact H2|].
  destruct H3 as [(sk & s1 & R & E & H)|(s1 & R & E & _ & _ & H)].
  - left. exists sk, s1. split; [exact R|]. split; [exact E|]. exact (loop_ends p body fuel' s' ts1 sk a H).
  - right. exists s1. split; [exact R|]. split; [exact E|].
    exact (loop_raises p body EIO ltac:(discriminate) fuel' s' ts1 a H).
Qed.
Print Assumptions C68_cut_files.

Example C68_cut_case :
  map (fun k => let* s := isegy_open plat_example (firstn (Z.to_nat k) (file_of var_bytes three_records)) maps_num in
                let (n, o) := py_for (next_segy plat_example) (fun n _ => n + 1) 9 0 s in
                Ok (n, match o with Ret _ => Ret tt | Raise e => Raise e | PyUB => PyUB end))
      [3599; 3600; 4000; 4082; 4083] =
  [Throw EIO; Ok (0, Ret tt); Ok (1, Raise (FromCpp EIO)); Ok (2, Ret tt); Ok (2, Raise (FromCpp EIO))].
Proof. vm_compute. reflexivity. Qed.

(** C68.  A loop over the sorted reader gets the traces in non-decreasing order
    of the header. *)
Theorem C68_sorted_loop : forall (A : Type) p content maps s name n ts sE (body : A -> trace -> A) a,
  p_max_alloc p < 2 ^ 63 -> len content < 2 ^ 63 -> opened p content maps s ->
  read_all p n s = Ok (ts, sE) -> ts <> [] -> Forall (has_key name) ts ->
  exists so out so', sorted_open p n name s = Ok so /\ sorted_by name ts out /\
    py_for (next_sorted p) body (S (List.length ts)) a so = (fold_left body out a, Ret so') /\
    next_sorted p so' = Raise StopIteration.
Proof.
  intros A p content maps s name n ts sE body a Al L O R Ne F.
  destruct (C31_sorted_iteration p content maps s name n ts sE Al L O R Ne F) as (so & out & so' & E & Sb & R2 & H).
  exists so, out, so'. split; [exact E|]. split; [exact Sb|].
  destruct (sorted_loop p body (List.length ts) so out so' a R2) as (E2 & _). split; [exact E2|].
  unfold next_sorted, step. rewrite H. reflexivity.
Qed.
Print Assumptions C68_sorted_loop.

Example C68_sorted_case :
  (let* s := isegy_open plat_example (file_of var_bytes four_records) maps_num in
   let* so := sorted_open plat_example 9 "A" s in
   let (l, _) := py_for (next_sorted plat_example) (fun a t => a ++ [hget (t_hdr t) "A"]) 9 [] so in Ok l) =
  Ok [Some (VInt (-1)); Some (VInt 3); Some (VInt 7); Some (VInt 7)].
Proof. vm_compute. reflexivity. Qed.

(** C72.  A loop over a SEG-D file of one or more records gets the traces of
    all records.

    Partial: the records are those of C43, without general trailers (refuted
    below). *)
Theorem C72_loop_partial : forall (A : Type) p xs (body : A -> trace -> A) a fuel,
  plat_ok p -> xs <> [] -> Forall (fr_ok p) xs -> len (concat (map fr_bytes xs)) < 2 ^ 63 ->
  (List.length (fr_traces xs) < fuel)%nat ->
  exists s0 ts sE, isegd_open p (concat (map fr_bytes xs)) [] = Ok s0 /\
    Forall2 (fun x t' => trace_same (fst x) (snd x) t') (fr_traces xs) ts /\
    py_for (next_segd p) body fuel a s0 = (fold_left body ts a, Ret sE) /\ next_segd p sE = Raise StopIteration.
Proof.
  intros A p xs body a fuel Hp Ne F L Hf.
  destruct (C43_record_cursor_partial p xs Hp Ne F L) as (s0 & O & H1 & ts & sE & T & Same & _ & Hr).
  exists s0, ts, sE. split; [exact O|]. split; [exact Same|]. split.
  - apply (segd_loop p body (List.length (fr_traces xs)) s0 a ts sE T Hr); [|exact Hf]. intros j Hj.
    enough (G : exists before r done todo after, xs = before ++ (r, done ++ todo) :: after /\ todo <> [] /\
                  List.length (fr_traces before ++ done) = j).
    { destruct G as (before & r & done & todo & after & E1 & E2 & E3).
      destruct (H1 before r done todo after E1 E2) as (ts' & sj & T' & R). exists ts', sj. rewrite <- E3.
      split; [exact T'|]. decompose [and] R. assumption. }
    clear - Hj. revert j Hj. induction xs as [|[r tr] xs IH]; intros j Hj; [cbn in Hj; lia|].
    change (j < List.length (tr ++ fr_traces xs))%nat in Hj. rewrite app_length in Hj.
    destruct (Nat.lt_ge_cases j (List.length tr)) as [Q|Q].
    + exists [], r, (firstn j tr), (skipn j tr), xs. rewrite firstn_skipn. split; [reflexivity|]. split.
      * intros E. apply (f_equal (@List.length _)) in E. rewrite skipn_length in E. cbn in E. lia.
      * cbn. rewrite firstn_length. lia.
    + destruct (IH (j - List.length tr)%nat ltac:(lia)) as (before & r' & done & todo & after & -> & E2 & E3).
      exists ((r, tr) :: before), r', done, todo, after. split; [reflexivity|]. split; [exact E2|].
      change (List.length ((tr ++ fr_traces before) ++ done) = j). rewrite !app_length in *. lia.
  - unfold next_segd, step. rewrite Hr. reflexivity.
Qed.
Print Assumptions C72_loop_partial.

Example C72_case : Forall (fr_ok segd_plat) [(ex_rec, ex_traces); (ex_rec, ex_traces)] /\
  (let* s := isegd_open segd_plat (concat (map fr_bytes [(ex_rec, ex_traces); (ex_rec, ex_traces)])) [] in
   let (l, _) := py_for (next_segd segd_plat) (fun a t => a ++ [len (t_smp t)]) 9 [] s in Ok l) = Ok [3; 3; 3; 3; 3; 3].
Proof. split; [exact (proj1 C43_case)|vm_compute; reflexivity]. Qed.

(** C72, refuted: in a file with a general trailer the loop raises the
    exception of the reader before it has seen the last trace. *)
Theorem C72_trailer_refuted : exists p D s0, isegd_open p D [] = Ok s0 /\
  D = fr_bytes (trailer_rec, ex_traces) ++ repeat 0 32 /\ rec_good p trailer_rec /\ List.length ex_traces = 3%nat /\
  py_for (next_segd p) (fun n _ => n + 1) 9 0 s0 = (2, Raise (FromCpp ESedaman)).
Proof.
  eexists segd_plat, (fr_bytes (trailer_rec, ex_traces) ++ repeat 0 32), _. split; [vm_compute; reflexivity|].
  split; [reflexivity|]. split; [|split; [reflexivity|vm_compute; reflexivity]].
  pose proof ex_rec_good as (K & H). split; [|exact H].
  unfold srec_ok in *. cbn [r_g1 r_k r_e r_g2 r_N r_sets r_extd r_extl ex_rec trailer_rec g2_extended_blocks
    g2_external_blocks ex_g2 g2_major] in *.
  destruct K as (K1 & K2 & K3). split; [exact K1|]. split; [|exact K3]. closed.
Qed.
Print Assumptions C72_trailer_refuted.

(** C69.  text_headers() gives the bytes of the text headers: the first 3200
    bytes of the file and the blocks behind the binary header, as many as C25
    says. *)
Theorem C69_text_headers : forall p content maps s, opened p content maps s ->
  exists bs, py_text_headers s = map PBytes (slice 0 3200 content :: bs) /\ blocks_at content 3600 bs /\
    (0 <= bh_ext_text_headers_num (i_bh s) -> len bs = bh_ext_text_headers_num (i_bh s)).
Proof.
  intros p content maps s O. destruct (C25_extended_text_headers p content maps s O) as (bs & E & B & _ & N & _).
  exists bs. unfold py_text_headers. rewrite E. split; [reflexivity|]. split; [exact B|exact N].
Qed.
Print Assumptions C69_text_headers.

(** C73.  trailer_stanzas() of the files of C26: the stanzas as text, if all of
    them are UTF-8; otherwise UnicodeDecodeError.

    Partial: the user expects to get the stanzas whatever their encoding. *)
Theorem C73_stanzas_partial : forall p maps txt blk exts recs sts last e b bps,
  check_tr_hdr_map bin_zero maps = Ok tt -> len txt = 3200 -> len blk = 400 -> says blk e b ->
  In (bh_format_code b) supported -> bytes_per_sample (bh_format_code b) = Some bps ->
  bh_ext_text_headers_num b = len exts -> Forall (fun t => len t = 3200) exts ->
  bh_byte_off_of_first_tr b = 0 -> bh_num_of_trailer_stanza b = -1 -> bh_fixed_tr_length b = 0 ->
  bh_max_num_add_tr_headers b = 0 -> bh_num_of_tr_in_file b = len recs -> recs <> [] ->
  Forall (own_record e bps) recs ->
  Forall (fun t => len t = 3200 /\ ~ is_end t) sts -> len last = 3200 -> is_end last ->
  0 <= sample_count b * bps -> sample_count b * bps < 2 ^ 31 -> sample_count b * bps <= p_max_alloc p ->
  let content := txt ++ blk ++ concat exts ++ concat recs ++ concat sts ++ last in
  len content < 2 ^ 63 -> Forall bytes sts -> bytes last ->
  exists s, isegy_open p content maps = Ok s /\ texts_shown (sts ++ [last]) (py_trailer_stanzas s).
Proof.
  intros p maps txt blk exts recs sts last e b bps H1 H2 H3 H4 H5 H6 H7 H8 H9 H10 H11 H12 H13 H14 H15 H16 H17 H18 H19 H20 H21
    content H22 F B.
  destruct (C26_unknown_number_variable_length_partial p maps txt blk exts recs sts last e b bps
    H1 H2 H3 H4 H5 H6 H7 H8 H9 H10 H11 H12 H13 H14 H15 H16 H17 H18 H19 H20 H21 H22) as (s & O & _ & E & _).
  exists s. split; [exact O|]. unfold py_trailer_stanzas. rewrite E. apply strings_shown.
  apply Forall_app. split; [exact F|]. constructor; [exact B|constructor].
Qed.
Print Assumptions C73_stanzas_partial.

(** The file of C26_case; the same with a stanza of the letter A in EBCDIC. *)
Definition stanza_file (c : Z) : list Z :=
  file_of (stanza_hdr 0) (text_example 70 ++ three_records ++ text_example c ++ end_block).
Example C69_case :
  (let* s := isegy_open plat_example (stanza_file 65) maps_num in
   Ok (map (fun v => match v with PBytes b => firstn 2 b | _ => [] end) (py_text_headers s),
       match py_trailer_stanzas s with
       | Ret l => Some (map (fun v => match v with PStr u => firstn 2 u | _ => [] end) l) | _ => None end)) =
  Ok ([[64; 64]; [70; 70]], Some [[65; 65]; [40; 40]]).
Proof. vm_compute. reflexivity. Qed.

(** C73, refuted: with a stanza in EBCDIC trailer_stanzas() raises; the stanzas
    cannot be had from Python. *)
Theorem C73_ebcdic_stanzas_refuted : exists p maps s, isegy_open p (stanza_file 0xc1) maps = Ok s /\
  i_stanzas s = [ascii_to_ebcdic (text_example 65); end_block] /\ py_trailer_stanzas s = Raise UnicodeDecodeError.
Proof.
  exists plat_example, maps_num. eexists. split; [vm_compute; reflexivity|]. split; vm_compute; reflexivity.
Qed.
Print Assumptions C73_ebcdic_stanzas_refuted.

(** C73, refuted: the text passed to CommonSEGY.ebcdic_to_ascii or
    ascii_to_ebcdic is not converted, whatever it is. *)
Theorem C73_conversion_refuted :
  (forall v w, py_convert v = Ret w -> w = v) /\
  exists b, py_convert (PBytes b) = Ret (PBytes b) /\ ebcdic_to_ascii b = bytes_of_string "C 1 CLIENT" /\ ebcdic_to_ascii b <> b.
Proof.
  split.
  - intros v w H. unfold py_convert in H. destruct (as_string v); [injection H as <-; reflexivity|discriminate].
  - exists (ascii_to_ebcdic (bytes_of_string "C 1 CLIENT")). split; [reflexivity|]. split; vm_compute; [reflexivity|discriminate].
Qed.
Print Assumptions C73_conversion_refuted.
