(** C56-C58 and C86: what the bytes of a SEG-Y file mean to the reader. *)
From Verif Require Import BaseFacts Platform Fp TraceHdr SegyTypes SegyCodec ISegy CodecSpec LayoutSpec
     ReadSpec ReadFacts ReadFacts4 SegyDecSpec SegyDecFacts SegyDecFacts2 SegyDecFacts3 SegyDecFacts4
     Segd3Examples PropertiesCodec PropertiesRound PropertiesRead.
Local Open Scope Z_scope.

(** C56.  Every member of the binary header is the number written in its bytes
    of the standard, in the byte order of bytes 3297-3300.  The members of
    revision 2 are zero for older revisions.  The byte order member tells the
    order. *)
Theorem C56_binary_header_members : forall p content maps s, bytes content -> isegy_open p content maps = Ok s ->
  exists o, order_in content = Some o /\ bin_says content o (i_bh s) /\
    (if 1 <? bh_SEGY_rev_major_ver (i_bh s) then bin2_says content o (i_bh s) else bin2_zero (i_bh s)) /\
    order_number o (bh_endianness (i_bh s)).
Proof.
  intros p content maps s B H. exists (ord (i_endian s)). split; [exact (open_order p content maps false bin_zero s B H)|].
  exact (open_says _ _ _ _ B H).
Qed.
Print Assumptions C56_binary_header_members.

(** The same for read_binary_header. *)
Theorem C56_read_binary_header : forall p content b, bytes content -> read_binary_header p content = Ok b ->
  exists o, order_in content = Some o /\ bin_says content o b /\
    (if 1 <? bh_SEGY_rev_major_ver b then bin2_says content o b else bin2_zero b) /\ order_number o (bh_endianness b).
Proof.
  intros p content b B H. unfold read_binary_header in H. apply bind_ok in H as (s & H & E). injection E as <-.
  exact (C56_binary_header_members _ _ _ _ B H).
Qed.
Print Assumptions C56_read_binary_header.

(** A reader opened with the caller's header keeps it; only the byte order
    comes from the file. *)
Theorem C56_overridden_header : forall p content bh maps s, bytes content -> isegy_open_bh p content bh maps = Ok s ->
  exists o, order_in content = Some o /\ same_but_order (i_bh s) bh /\ order_number o (bh_endianness (i_bh s)).
Proof.
  intros p content bh maps s B H. exists (ord (i_endian s)). split; [exact (open_order p content maps true bh s B H)|].
  exact (open_bh_says _ _ _ _ _ H).
Qed.
Print Assumptions C56_overridden_header.

(** A big-endian file of revision 1 and a little-endian file of revision 2. *)
Definition big_bin : list Z :=
  [0; 0; 1; 0; 255; 255; 255; 254] ++ zeros 8 ++ [7; 208] ++ zeros 2 ++ [0; 2] ++ zeros 2 ++ [0; 3] ++ zeros 274 ++
  [1; 0; 0; 1] ++ zeros 96.
Definition little_bin : list Z :=
  zeros 20 ++ [2; 0] ++ zeros 2 ++ [8; 0] ++ zeros 46 ++ [0; 0; 0; 0; 0; 0; 240; 63] ++ zeros 16 ++ [4; 3; 2; 1] ++ zeros 200 ++
  [2; 0; 1; 0; 0; 0; 1; 0; 0; 0] ++ zeros 90.
Definition shown_bin (b : bin_hdr) : list Z :=
  [bh_job_id b; bh_line_num b; bh_samp_int b; bh_samp_per_tr b; bh_format_code b; bh_ext_samp_int b;
   bh_SEGY_rev_major_ver b; bh_fixed_tr_length b; bh_max_num_add_tr_headers b; bh_endianness b].
Example C56_case :
  len big_bin = 400 /\ len little_bin = 400 /\
  order_in (blank_text ++ big_bin) = Some Big /\ order_in (blank_text ++ little_bin) = Some Little /\
  order_in (blank_text ++ zeros 96 ++ [2; 1; 4; 3] ++ zeros 300) = None /\
  map (fun c => let* s := isegy_open plat_example c maps_num in Ok (shown_bin (i_bh s)))
    [blank_text ++ big_bin; blank_text ++ little_bin; blank_text ++ zeros 96 ++ [2; 1; 4; 3] ++ zeros 300] =
  [Ok [256; -2; 2000; 2; 3; 0; 1; 1; 0; 0]; Ok [0; 0; 0; 2; 8; 4607182418800017408; 2; 1; 1; 16909060]; Throw ESedaman].
Proof. repeat (split; [vm_compute; reflexivity|]). vm_compute. reflexivity. Qed.

(** C57.  Any sequence of read_trace and read_header calls returns consecutive
    traces of the file: the first one starts behind the text headers, or where
    the header says; each header shows the fields of the layouts; the number of
    samples is the declared one or the one in the trace header; the samples are
    the numbers written in the bytes behind the headers; the next trace follows
    immediately. *)
Theorem C57_traces_decoded : forall p content maps s ops l s', p_left_first p = true -> p_max_alloc p < 2 ^ 63 ->
  bytes content -> len content < 2 ^ 63 -> short_count maps ->
  opened p content maps s -> read_mixed p ops s = Ok (l, s') ->
  exists o next, order_in content = Some o /\
    items_at o (i_bh s) maps content (first_at (i_bh s) (len (i_text s))) l next.
Proof.
  intros p content maps s ops l s' Hp A B L Sc O H. destruct (opened_inv _ _ _ _ O A L) as (I & M & D).
  pose proof (open_first _ _ _ _ O) as F. destruct (opened_open _ _ _ _ O) as (ov & b0 & Oo).
  exists (ord (i_endian s)), (i_cur s'). split; [exact (open_order _ _ _ _ _ _ B Oo)|].
  destruct (open_shape _ _ _ _ _ _ Oo) as (Sp & _). rewrite <- F, <- M, <- D.
  refine (mixed_says p Hp A ops s l s' I _ _ Sp H); [rewrite D; exact B|rewrite M; exact Sc].
Qed.
Print Assumptions C57_traces_decoded.

(** A trace that is completely in the file is read, whatever was read before. *)
Theorem C57_complete_traces_are_read : forall p content maps s ops l s' ns w, p_left_first p = true ->
  p_max_alloc p < 2 ^ 63 -> bytes content -> len content < 2 ^ 63 -> safe_layouts maps -> short_count maps -> add_ok (i_bh s) ->
  opened p content maps s -> read_mixed p ops s = Ok (l, s') ->
  (forall o next, order_in content = Some o ->
     items_at o (i_bh s) maps content (first_at (i_bh s) (len (i_text s))) l next ->
     complete_at o (i_bh s) maps content next ns w) -> ns * w <= p_max_alloc p ->
  (exists t s2, read_trace p s' = Ok (t, s2) /\ len (t_smp t) = ns) /\ exists h s2, read_header p s' = Ok (h, s2).
Proof.
  intros p content maps s ops l s' ns w Hp A B L S Sc Ad O H K Al. destruct (opened_inv _ _ _ _ O A L) as (I & M & D).
  pose proof (open_first _ _ _ _ O) as F. destruct (opened_open _ _ _ _ O) as (ov & b0 & Oo).
  destruct (open_shape _ _ _ _ _ _ Oo) as (Sp & _).
  assert (It : items_at (ord (i_endian s)) (i_bh s) maps content (first_at (i_bh s) (len (i_text s))) l (i_cur s')).
  { rewrite <- F, <- M, <- D. refine (mixed_says p Hp A ops s l s' I _ _ Sp H); [rewrite D; exact B|rewrite M; exact Sc]. }
  specialize (K _ _ (open_order _ _ _ _ _ _ B Oo) It).
  destruct (mixed_inv _ A _ _ _ _ I H) as (I' & (Q1 & Q2 & Q3 & Q4 & Q5 & Q6 & Q7 & Q8 & Q9 & Q10)).
  refine (read_go p s' ns w Hp A I' _ _ _ _ _ Al); rewrite ?Q1, ?Q2, ?Q5, ?Q7, ?Q10, ?M, ?D; assumption.
Qed.
Print Assumptions C57_complete_traces_are_read.

(** C86, refuted: a sample count of 64 bits is multiplied by the sample size without a check:
    the header announces 2^62 samples of 4 bytes, the product is zero, and the
    trace comes back with no samples. *)
Definition maps_wide : layouts := [("SEG00000", [(0, ("SAMP_NUM", I64))])]%string.
Definition var_words : bin_hdr := set_rev (set_endianness (set_format_code bin_zero 2) 16909060) 1 0 0.
Theorem C86_wide_count_refuted : exists s t s1,
  isegy_open plat_example (file_of var_words (wr Native 8 (2 ^ 62) ++ zeros 232)) maps_wide = Ok s /\
  read_trace plat_example s = Ok (t, s1) /\ hget (t_hdr t) "SAMP_NUM" = Some (VInt (2 ^ 62)) /\ t_smp t = [].
Proof.
  assert (K : (let* s := isegy_open plat_example (file_of var_words (wr Native 8 (2 ^ 62) ++ zeros 232)) maps_wide in
               let* (t, s1) := read_trace plat_example s in Ok (hget (t_hdr t) "SAMP_NUM", t_smp t)) =
              Ok (Some (VInt (2 ^ 62)), [])) by (vm_compute; reflexivity).
  apply bind_ok in K as (s & E & K). apply bind_ok in K as ([t s1] & E1 & K). exists s, t, s1.
  split; [exact E|]. split; [exact E1|]. injection K as K1 K2. auto.
Qed.
Print Assumptions C86_wide_count_refuted.

(** Two big-endian traces of two 2-byte samples. *)
Definition two_traces : list Z :=
  [0; 7] ++ zeros 112 ++ [0; 2] ++ zeros 124 ++ [0; 5; 255; 253] ++ [1; 0] ++ zeros 238 ++ [1; 1; 0; 0].
Example C57_case :
  bytes (blank_text ++ big_bin ++ two_traces) /\ short_count maps_num /\ safe_layouts maps_num /\
  (exists s, opened plat_example (blank_text ++ big_bin ++ two_traces) maps_num s /\ add_ok (i_bh s) /\
     complete_at Big (i_bh s) maps_num (blank_text ++ big_bin ++ two_traces) (first_at (i_bh s) (len (i_text s))) 2 2 /\
     match read_mixed plat_example [true; false] s with Ok (l, s1) => Some (map show_item l, has_trace s1) | _ => None end =
     Some ([(true, ([Some (VInt 7); Some (VInt 2)], [4617315517961601024; 13837309855095848960]));
            (false, ([Some (VInt 256); Some (VInt 0)], []))], false)).
Proof.
  split; [apply bytes_check; vm_compute; reflexivity|]. split; [apply short_of; vm_compute; reflexivity|]. split.
  { intros n l [H|[]]. injection H as <- <-. apply lay_num_safe. }
  pose (g s := (add_ok (i_bh s), first_at (i_bh s) (len (i_text s)), i_bh s, match read_mixed plat_example [true; false] s with Ok (l, s1) => Some (map show_item l, has_trace s1) | _ => None end)).
  set (b := mkBin 256 (-2) 0 0 0 2000 0 2 0 3 0 0 0 0 0 0 0 0 0 0 0 0 0 0 0 0 0 0 0 0 0 0 0 0 0 1 0 1 0 0 0 0 0 0).
  destruct (run (isegy_open plat_example (blank_text ++ big_bin ++ two_traces) maps_num) g
    (add_ok b, 3600, b, Some ([(true, ([Some (VInt 7); Some (VInt 2)], [4617315517961601024; 13837309855095848960]));
            (false, ([Some (VInt 256); Some (VInt 0)], []))], false))) as (s & E & G); [vm_compute; reflexivity|].
  exists s. split; [left; exact E|]. unfold g in G. injection G as G1 G2 G3 G4. rewrite G2, G3. split; [unfold add_ok; cbn; lia|].
  split; [|exact G4]. unfold complete_at. split; [reflexivity|]. split; [lia|]. split; [vm_compute; discriminate|reflexivity].
Qed.

(** C58.  With the default layouts a trace with one header block shows the
    trace header of the standard under the names of the library; one with more
    blocks also shows the trace header extension, whose fields replace those of
    the same name. *)
Theorem C58_default_layouts : forall p content s ops l x s', p_left_first p = true -> p_max_alloc p < 2 ^ 63 ->
  bytes content -> len content < 2 ^ 63 -> opened p content default_trace_header s ->
  0 <= bh_max_num_add_tr_headers (i_bh s) -> read_mixed p ops s = Ok (l ++ [x], s') ->
  exists o pos, order_in content = Some o /\
    items_at o (i_bh s) default_trace_header content (first_at (i_bh s) (len (i_text s))) l pos /\
    forall k, hget (header_of x) k =
      if bh_max_num_add_tr_headers (i_bh s) =? 0 then std_shows o (slice pos 240 content) k
      else ext_shows o (slice pos 240 content) (slice (pos + 240) 240 content) k.
Proof.
  intros p content s ops l x s' Hp A B L O Ad H. destruct (opened_inv _ _ _ _ O A L) as (I & M & D).
  pose proof (open_first _ _ _ _ O) as F. destruct (opened_open _ _ _ _ O) as (ov & b0 & Oo).
  destruct (open_shape _ _ _ _ _ _ Oo) as (Sp & _). apply mixed_snoc in H as (ops1 & op & s1 & H1 & H2).
  assert (Sc : short_count (i_maps s)) by (rewrite M; apply default_short).
  assert (Bf : bytes (fdata (i_file s))) by (rewrite D; exact B).
  exists (ord (i_endian s)), (i_cur s1). split; [exact (open_order _ _ _ _ _ _ B Oo)|]. split.
  { rewrite <- F, <- M, <- D. exact (mixed_says p Hp A ops1 s l s1 I Bf Sc Sp H1). }
  destruct (mixed_inv _ A _ _ _ _ I H1) as (I1 & (Q1 & Q2 & Q3 & Q4 & Q5 & Q6 & Q7 & Q8 & Q9 & Q10)).
  pose proof (mixed_says p Hp A [op] s1 [x] s' I1) as X. rewrite Q1, Q2, Q5, Q7, Q10 in X. specialize (X Bf Sc Sp H2).
  apply one_item in X as (ns & X). rewrite M, D in X.
  destruct I1 as (_ & C & _). exact (head_default _ _ _ _ _ _ (proj1 C) Ad X).
Qed.
Print Assumptions C58_default_layouts.

(** C86, refuted: the number of samples of a trace of variable length is an unsigned 16-bit
    number in the standard and a signed one in the default layout: a complete
    trace of 32768 samples is refused. *)
Theorem C86_many_samples_refuted : exists s,
  isegy_open plat_example (file_of var_bytes (num_record 1 32768 (zeros 32768))) default_trace_header = Ok s /\
  unsg (slice 3600 240 (file_of var_bytes (num_record 1 32768 (zeros 32768)))) Little 115 116 = 32768 /\
  len (file_of var_bytes (num_record 1 32768 (zeros 32768))) = 3600 + 240 + 32768 /\
  read_trace plat_example s = Throw EAlloc.
Proof.
  destruct (run (isegy_open plat_example (file_of var_bytes (num_record 1 32768 (zeros 32768))) default_trace_header)
    (fun s => match read_trace plat_example s with Throw EAlloc => true | _ => false end) true) as (s & E & G); [vm_compute; reflexivity|].
  exists s. split; [exact E|]. split; [vm_compute; reflexivity|]. split; [vm_compute; reflexivity|].
  destruct (read_trace plat_example s) as [|[]|]; try discriminate G. reflexivity.
Qed.
Print Assumptions C86_many_samples_refuted.

(** A trace with one header block, and one with an extension: FFID is taken from
    the extension. *)
Definition one_block : list Z := zeros 8 ++ [0; 0; 1; 2] ++ zeros 58 ++ [255; 156] ++ zeros 168 ++ zeros 4.
Definition two_blocks : list Z :=
  zeros 8 ++ [1; 0; 0; 0] ++ zeros 58 ++ [156; 255] ++ zeros 168 ++
  zeros 16 ++ [9; 0; 0; 0; 0; 0; 0; 0] ++ zeros 72 ++ [0; 0; 0; 0; 0; 0; 240; 63] ++ zeros 136 ++ [3; 4].
Example C58_case :
  map (fun c => let* s := isegy_open plat_example c default_trace_header in
                let* (t, s1) := read_trace plat_example s in
                Ok (bh_max_num_add_tr_headers (i_bh s), map (hget (t_hdr t)) ["FFID"; "COORD_SCALAR"; "SOU_X"; "R_DEPTH"]%string))
    [blank_text ++ big_bin ++ one_block; blank_text ++ little_bin ++ two_blocks] =
  [Ok (0, [Some (VInt 258); Some (VInt (-100)); Some (VInt 0); None]);
   Ok (1, [Some (VInt 9); Some (VInt (-100)); Some (VDbl 4607182418800017408); Some (VDbl 0)])] /\
  map (std_shows Big one_block) ["FFID"; "COORD_SCALAR"; "SOU_X"; "R_DEPTH"]%string =
  [Some (VInt 258); Some (VInt (-100)); Some (VInt 0); None].
Proof. split; vm_compute; reflexivity. Qed.
