(** C51 to C54: opening SEG-D files of revision 3. *)
From Coq Require Import Reals Lra.
From Verif Require Import BaseFacts Bcd BcdSpec Platform CodecSpec Fp FpSpec TraceHdr SegyTypes SegyCodec ISegy
  SegdTypes SegdSpec SegdDecSpec Segd3Spec ISegd SegdOpenFacts Segd3Facts Segd3Props FpReal SampleReal SegdExamples SegdTrcExamples Segd3Examples.
Local Open Scope Z_scope.

(** C51.  Whatever bytes a file of revision 3 holds: if the reader opens it,
    general headers 1 and 3, and general header 2 up to the number of trailer
    blocks, are what the standard says.

    Partial: the rest of general header 2 is refuted below. *)
Theorem C51_general_headers_partial : forall p content ls s,
  p_left_first p = true -> bytes content -> len content < 2 ^ 63 -> rev3 content -> isegd_open p content ls = Ok s ->
  gh1_of (slice 0 32 content) (d_g1 s) /\
  (exists g, get_g2 s = Some g /\ gh2_front (slice 32 32 content) g) /\
  (exists g, get_g3 s = Some g /\ gh3_of (slice 64 32 content) g).
Proof. exact headers3. Qed.
Print Assumptions C51_general_headers_partial.

Example C51_case : exists s g2 g3, isegd_open segd_plat ex3 [] = Ok s /\ get_g2 s = Some g2 /\ get_g3 s = Some g3 /\
  g2_extended_blocks g2 = 2 /\ g2_trailer_blocks g2 = 3 /\ g3_time_zero g3 = 0x0102030405060708 /\
  g3_header_size g3 = 0x191a1b1c.
Proof.
  eexists _, _, _. split; [vm_compute; reflexivity|]. split; [vm_compute; reflexivity|]. split; [vm_compute; reflexivity|].
  repeat (split; [vm_compute; reflexivity|]). vm_compute; reflexivity.
Qed.

(** C51, refuted: the record length is not read (it keeps the value 0) and its
    four bytes are taken for the fields that follow it: record set 1, 4464
    additional blocks, sampling interval 7, 3328 external blocks. *)
Theorem C51_general_header2_refuted : exists p s g,
  isegd_open p ex3 [] = Ok s /\ get_g2 s = Some g /\ ~ gh2_of3 (slice 32 32 ex3) g /\
  g2_record_len g = 0 /\ big ex3 48 4 = 70000 /\
  g2_record_set g = 1 /\ big ex3 52 2 = 7 /\
  g2_add_blocks g = 0x1170 /\ big ex3 54 2 = 13 /\
  g2_sampling_int g = 7 /\ big ex3 56 3 = 500 /\
  g2_external_blocks g = 0xd00 /\ big ex3 59 3 = 1.
Proof.
  exists segd_plat. eexists _, _. split; [vm_compute; reflexivity|]. split; [vm_compute; reflexivity|].
  split; [intros (_ & _ & _ & _ & _ & _ & _ & H & _); vm_compute in H; discriminate|].
  repeat (split; [vm_compute; reflexivity|]). vm_compute; reflexivity.
Qed.
Print Assumptions C51_general_header2_refuted.

(** C52.  The additional general header blocks: for each of the 23 types of the
    standard the accessor shows the values of the last block of that type, or
    nothing if the file has none.

    Partial: the offsets of sources, negative line and point numbers, the
    blocks before the last one of a type and counts from general header 2 are
    refuted below; a file with a sensor block cannot be opened at all
    (C48_sensor_block_refuted). *)
Theorem C52_blocks_partial : forall p content ls s cls,
  p_left_first p = true -> bytes content -> len content < 2 ^ 63 -> rev3 content ->
  2 <= add_of content < 15 -> isegd_open p content ls = Ok s ->
  In cls [0x10; 0x11; 0x12; 0x13; 0x14; 0x15; 0x16; 0x17; 0x18; 0x19; 0x1f; 0x20; 0x21; 0x43; 0x44; 0x45;
          0x50; 0x51; 0x52; 0x55; 0x56; 0x60; 0x61] ->
  (exists x vs, last_of (blocks3 content) cls x /\ get_block s cls = Ok (Some vs) /\ block_shown cls x vs) \/
  ((forall x, In x (blocks3 content) -> type_of x <> cls) /\ get_block s cls = Ok None).
Proof. intros p content ls s cls Hp Hb Hl Hr Ha E. exact (blocks_shown3 p content ls s Hp Hb Hl Hr Ha E cls). Qed.
Print Assumptions C52_blocks_partial.

Example C52_case : exists s, isegd_open segd_plat ex3 [] = Ok s /\ map type_of (blocks3 ex3) = [0x15; 0x12; 0x50] /\
  get_block s 0x12 = Ok (Some [BText ([65; 66] ++ repeat 32 29)]) /\
  get_block s 0x15 = Ok (Some ([BInt 1; BDbl (fix16 5 0x8000); BDbl (fix16 6 0x4000); BInt 1; BInt 2; BInt 3; BInt (-2);
                                BInt 4; BInt 5; BInt 6; BInt 7; BInt 8] ++ [BInt 1; BInt 2; BInt 3; BInt 4])) /\
  get_block s 0x50 = Ok (Some [BInt 0x0101010101010101; BInt 0x0101010101010101; BInt 0x01010101; BInt 0x01010101;
                               BInt 9; BInt 1; BInt 2]) /\
  get_block s 0x61 = Ok None.
Proof.
  eexists. split; [vm_compute; reflexivity|]. repeat (split; [vm_compute; reflexivity|]). vm_compute; reflexivity.
Qed.

(** C52, refuted: the offsets of a source are read as one byte each. *)
Theorem C52_source_offsets_refuted : exists p s x vs,
  isegd_open p ex3 [] = Ok s /\ blocks3 ex3 = x :: tl (blocks3 ex3) /\ type_of x = 0x15 /\
  get_block s 0x15 = Ok (Some vs) /\ ~ Forall2 (shows x) source_offsets (skipn 12 vs) /\
  map (fun i => big x i 2) [23; 25; 27; 29]%nat = [0x0102; 0x0304; 0x0506; 0x0708] /\
  skipn 12 vs = [BInt 1; BInt 2; BInt 3; BInt 4].
Proof.
  exists segd_plat. eexists _, _, _. split; [vm_compute; reflexivity|]. split; [vm_compute; reflexivity|].
  split; [vm_compute; reflexivity|]. split; [vm_compute; reflexivity|].
  split; [intros H; inversion H as [|? ? ? ? H1 H2]; vm_compute in H1; discriminate|]. split; vm_compute; reflexivity.
Qed.
Print Assumptions C52_source_offsets_refuted.

(** C52, refuted: line number -1 of a source is shown as 16777215. *)
Definition neg3 : list Z := head3 3 0 0 ++ two3 ++ three3 ++ vib3 [0xff; 0xff; 0xff; 0; 0] ++ sets3.
Theorem C52_negative_line_refuted : exists p s x vs,
  isegd_open p neg3 [] = Ok s /\ blocks3 neg3 = [x] /\ type_of x = 0x15 /\
  as_signed 5 (big x 3 5) = - 2 ^ 16 /\ get_block s 0x15 = Ok (Some vs) /\
  nth 1 vs (BInt 0) = BDbl (i2d 16777215) /\ ~ shows x (Fix 3) (nth 1 vs (BInt 0)).
Proof.
  exists segd_plat. eexists _, _, _. split; [vm_compute; reflexivity|]. split; [vm_compute; reflexivity|].
  split; [vm_compute; reflexivity|]. split; [vm_compute; reflexivity|]. split; [vm_compute; reflexivity|].
  split; [vm_compute; reflexivity|]. intros (d & E & H).
  change (nth 1 _ (BInt 0)) with (BDbl (i2d 16777215)) in E. injection E as <-.
  destruct H as (_ & _ & H). destruct (i2d_holds 16777215 ltac:(lia)) as ((_ & _ & H') & _). rewrite H' in H.
  change (as_signed 5 _) with (-65536) in H.
  pose proof (powerRZ_lt 2 (Z.opp 16) ltac:(lra)). nra.
Qed.
Print Assumptions C52_negative_line_refuted.

(** C52, refuted: of two position blocks only the second can be seen. *)
Definition twice3 : list Z := head3 4 0 0 ++ two3 ++ three3 ++ pos3 9 ++ pos3 8 ++ sets3.
Theorem C52_same_type_refuted : exists p s x y vs,
  isegd_open p twice3 [] = Ok s /\ blocks3 twice3 = [x; y] /\ type_of x = 0x50 /\ type_of y = 0x50 /\
  get_block s 0x50 = Ok (Some vs) /\ nth 4 vs (BInt 0) = BInt 8 /\ big x 24 4 = 9 /\ ~ block_shown 0x50 x vs.
Proof.
  exists segd_plat. eexists _, _, _, _. split; [vm_compute; reflexivity|]. split; [vm_compute; reflexivity|].
  do 5 (split; [vm_compute; reflexivity|]). intros H. unfold block_shown in H. cbn [block_members] in H.
  do 4 (inversion H as [|? ? ? ? _ H']; subst; clear H; rename H' into H). inversion H as [|? ? ? ? H' _]. discriminate.
Qed.
Print Assumptions C52_same_type_refuted.

(** C53.  The channel sets: those of scan type [i] are decoded from the 96-byte
    headers where the standard puts them.

    Partial: the number of channel sets must not be the FF escape
    (C45_channel_sets_refuted); the descale multiplier and the filter delay
    are refuted below. *)
Theorem C53_channel_sets_partial : forall p content ls s,
  p_left_first p = true -> bytes content -> len content < 2 ^ 63 -> rev3 content ->
  2 <= add_of content < 15 -> isegd_open p content ls = Ok s ->
  Forall2 (Forall2 chset_of3) (map (scan3_blocks content) (seq 0 (Z.to_nat (scans_of content)))) (d_sets s).
Proof.
  intros p content ls s Hp Hb Hl Hr Ha E. pose proof (sets_shown3 p content ls s Hp Hb Hl Hr Ha E) as H.
  eapply Forall2_imp; [|exact H]. intros a b. apply Forall2_imp. intros x c Hc. apply Hc.
Qed.
Print Assumptions C53_channel_sets_partial.

Example C53_case : exists s, isegd_open segd_plat ex3 [] = Ok s /\
  map (map (fun c => (c_channels c, c_type c, c_gain c, c_ext_flag c, c_number_of_samples c))) (d_sets s) =
  [[(2, 0x10, 2, 1, Some 2)]; [(1, 0x10, 2, 1, Some 2)]].
Proof. eexists. split; vm_compute; reflexivity. Qed.

(** C53, refuted: the descale multiplier 1.0 is shown as 1065353216, the filter
    delay 300 as 44. *)
Theorem C53_descale_refuted : exists p s x c,
  isegd_open p ex3 [] = Ok s /\ scan3_blocks ex3 0 = [x] /\ nth 0 (d_sets s) [] = [c] /\
  big x 16 4 = 0x3f800000 /\ c_descale c = i2d 1065353216 /\ ~ holds (c_descale c) (flt_val (big x 16 4)).
Proof.
  exists segd_plat. eexists _, _, _. split; [vm_compute; reflexivity|]. split; [vm_compute; reflexivity|].
  split; [vm_compute; reflexivity|]. split; [vm_compute; reflexivity|]. split; [vm_compute; reflexivity|].
  intros (_ & _ & H). change (big _ 16 4) with 0x3f800000 in H. change (c_descale _) with (i2d 1065353216) in H.
  destruct (i2d_holds 1065353216 ltac:(lia)) as ((_ & _ & H') & _). rewrite H' in H.
  destruct (f2d_finite 0x3f800000 ltac:(unfold is_flt; lia) eq_refl) as ((_ & _ & F) & _).
  change (f2d 0x3f800000) with (i2d 1) in F.
  destruct (i2d_holds 1 ltac:(lia)) as ((_ & _ & H1) & _). rewrite H1 in F. rewrite <- F in H. apply eq_IZR in H. discriminate.
Qed.
Print Assumptions C53_descale_refuted.
Theorem C53_filter_delay_refuted : exists p s x c,
  isegd_open p ex3 [] = Ok s /\ scan3_blocks ex3 0 = [x] /\ nth 0 (d_sets s) [] = [c] /\
  big x 64 4 = 300 /\ c_filter_delay c = Some 44.
Proof.
  exists segd_plat. eexists _, _, _. split; [vm_compute; reflexivity|]. split; [vm_compute; reflexivity|].
  split; [vm_compute; reflexivity|]. split; vm_compute; reflexivity.
Qed.
Print Assumptions C53_filter_delay_refuted.

(** C54.  Opening a file of revision 3: the extended and external blocks are
    those at their places behind the channel sets, the reader stands behind
    them, and it expects the channels of all channel sets.

    Partial: the counts of additional and external blocks have to be in
    general header 1 (refuted below for the others). *)
Theorem C54_places_partial : forall p content ls s,
  p_left_first p = true -> bytes content -> len content < 2 ^ 63 -> rev3 content ->
  2 <= add_of content < 15 -> byt content 31 <> 255 -> isegd_open p content ls = Ok s ->
  d_extd s = blocks32 content (extds3_at content) (Z.to_nat (extds3_of content)) /\
  d_extl s = blocks32 content (extds3_at content + 32 * extds3_of content) (Z.to_nat (extls3_of content)) /\
  fdata (d_file s) = content /\ fpos (d_file s) = traces3_at content /\
  d_chans s = fold_right Z.add 0 (map c_channels (concat (d_sets s))) /\ d_read s = 0.
Proof. exact places_shown3. Qed.
Print Assumptions C54_places_partial.

(** Every complete file without sensor blocks is opened. *)
Theorem C54_opens_partial : forall p content ls,
  p_left_first p = true -> bytes content -> len content < 2 ^ 63 -> rev3 content ->
  2 <= add_of content < 15 -> byt content 31 <> 255 -> (forall x, In x (blocks3 content) -> type_of x <> 0x41) ->
  traces3_at content <= len content ->
  In (dec content 4 4) [8015; 8022; 8024; 8036; 8038; 8042; 8044; 8048; 8058; 8080; 9036; 9038; 9058; 9080] ->
  24 * 2 ^ 24 <= p_max_alloc p -> exists s, isegd_open p content ls = Ok s.
Proof. intros p content ls Hp Hb Hl Hr Ha Hx Hn. exact (proj2 (open_safe3 p content ls Hp Hb Hl Hr Ha Hx Hn)). Qed.
Print Assumptions C54_opens_partial.

(** No file of revision 3, complete or not, makes opening undefined, whatever
    its counts are, as long as no block can be taken for a sensor block
    (C48_sensor_block_refuted). *)
Theorem C54_open_safe_partial : forall p content ls,
  p_left_first p = true -> bytes content -> len content < 2 ^ 63 -> rev3 content ->
  (forall i, byt content (127 + 32 * i) <> 0x41) -> isegd_open p content ls <> UB.
Proof. exact open_safe3_any. Qed.
Print Assumptions C54_open_safe_partial.

Example C54_case : exists s, isegd_open segd_plat ex3 [] = Ok s /\
  d_extd s = [repeat 0x11 32; repeat 0x11 32] /\ d_extl s = [repeat 0x22 32] /\ d_chans s = 3 /\
  fpos (d_file s) = 544 /\ (forall x, In x (blocks3 ex3) -> type_of x <> 0x41) /\
  (forall i, byt ex3 (127 + 32 * i) <> 0x41) /\ 24 * 2 ^ 24 <= p_max_alloc segd_plat.
Proof.
  eexists. split; [vm_compute; reflexivity|]. do 4 (split; [vm_compute; reflexivity|]). split; [|split].
  - intros x Hx. vm_compute in Hx. repeat (destruct Hx as [<-|Hx]; [vm_compute; discriminate|]). destruct Hx.
  - intros i. destruct (Nat.ltb_spec i 20) as [Hi|Hi].
    + assert (F : forallb (fun i => negb (byt ex3 (127 + 32 * i) =? 0x41)) (seq 0 20) = true) by (vm_compute; reflexivity).
      rewrite forallb_forall in F. specialize (F i ltac:(apply in_seq; lia)). lia.
    + unfold byt. rewrite nth_overflow; [discriminate|]. change (List.length ex3) with 544%nat. lia.
  - vm_compute. discriminate.
Qed.

(** C54, refuted: general header 1 leaves the number of external blocks to
    general header 2 (FF), which says 1; the reader takes 3328 from the bytes
    of another field and runs into the end of the file. *)
Theorem C54_external_count_refuted :
  let f := head3 2 0 0xff ++ two3 ++ three3 ++ sets3 ++ repeat 0x22 32 in
  rev3 f /\ byt f 31 = 255 /\ extls3_of f = 1 /\ traces3_at f = len f /\ isegd_open segd_plat f [] = Throw EIO.
Proof.
  cbv zeta. split; [split; [vm_compute; discriminate|vm_compute; discriminate]|].
  do 3 (split; [vm_compute; reflexivity|]). vm_compute; reflexivity.
Qed.
Print Assumptions C54_external_count_refuted.

(** C54, refuted: 15 additional blocks in general header 1 leave their number
    to general header 2, which says 13; the reader takes 4464. *)
Theorem C54_additional_count_refuted :
  let f := head3 15 0 0 ++ two3 ++ three3 ++ repeat 0 (11 * 32) ++ sets3 in
  rev3 f /\ add_of f = 15 /\ add3_of f = 13 /\ traces3_at f = len f /\ isegd_open segd_plat f [] = Throw EIO.
Proof.
  cbv zeta. split; [split; [vm_compute; discriminate|vm_compute; discriminate]|].
  do 3 (split; [vm_compute; reflexivity|]). vm_compute; reflexivity.
Qed.
Print Assumptions C54_additional_count_refuted.
