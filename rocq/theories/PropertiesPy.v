(** C66, C67 and C71: header objects of the Python module. *)
From Coq Require Import String Reals.
From Verif Require Import BaseFacts Platform Bcd BcdSpec Fp FpSpec FpReal CodecSpec TraceHdr SegyTypes SegyCodec ISegy LayoutSpec
  SegdTypes SegdSpec SegdDecSpec Segd3Spec ISegd SegdExamples Segd3Examples SegyDecSpec PropertiesCodec PropertiesRound PropertiesRead
  PropertiesSegyDec PyBind PySpec PyFacts PyFacts2.
Local Open Scope string_scope.
Local Open Scope list_scope.
Local Open Scope Z_scope.

(** C66.  A SEG-D file of revision 3 that opens, and a method of ISEGD for one
    block type: it returns None if the file has no block of this type, else an
    object whose attributes are the fields of the last such block, under the
    names of the standard: numbers as [int], coordinates as [float], texts as
    [str]; a text that is not UTF-8 raises UnicodeDecodeError.

    Partial: not for client_name and explosive_info, not for some attributes
    (all refuted below or in C52), and not for sources with a negative line or
    point number (C52_negative_line_refuted). *)
Theorem C66_block_attributes_partial : forall p content ls s m ty names, p_left_first p = true -> bytes content ->
  len content < 2 ^ 63 -> rev3 content -> 2 <= add_of content < 15 -> isegd_open p content ls = Ok s ->
  In (m, ty, names) block_table -> ~ In m wrong_methods ->
  ((forall x, In x (blocks3 content) -> type_of x <> ty) -> py_block s m = Ret None) /\
  (forall x, last_of (blocks3 content) ty x -> exists o, py_block s m = Ret (Some o) /\
     (shown_sign ty x -> forall a f, In (a, f) (named ty names) -> ~ In a (wrong_attrs ty) -> attr_shows x f (getattr o a))).
Proof. exact block_attributes. Qed.
Print Assumptions C66_block_attributes_partial.

(** A vibrator and a position; a line name with an umlaut and one in Latin-1. *)
Definition line3 (u : list Z) : list Z := [65; 66; 67; 68; 69; 70; 71] ++ u ++ repeat 32 (24 - List.length u) ++ [0x14].
Definition lines3 (u : list Z) : list Z := head3 3 0 0 ++ two3 ++ three3 ++ line3 u ++ sets3.
Definition py_attr (r : pyres (option pyobj)) (a : string) : pyres pyval :=
  match r with
  | Ret (Some o) => getattr o a
  | Ret None => Raise AttributeError
  | Raise e => Raise e
  | PyUB => PyUB
  end.
Definition py_attrs (f : list Z) (m : string) (l : list string) : outcome (list (pyres pyval)) :=
  let* s := isegd_open segd_plat f [] in Ok (map (py_attr (py_block s m)) l).
Example C66_case :
  py_attrs ex3 "general_header_vibrator_info" ["sou_line_num"; "sou_point_num"; "phase_angle"; "source_id"] =
    Ok [Ret (PFloat 4617878467915022336); Ret (PFloat 4618722892845154304); Ret (PInt (-2)); Ret (PInt 4)] /\
  py_attrs ex3 "general_header_position_blk_1" ["hor_error_semi_minor"; "position_type"; "gen_hdr_block_type"] =
    Ok [Ret (PInt 9); Ret (PInt 2); Ret (PInt 0x50)] /\
  (let* s := isegd_open segd_plat ex3 [] in Ok (py_block s "general_header_job_id")) = Ok (Ret None) /\
  py_attrs (lines3 [0xc3; 0x84]) "general_header_line_id" ["line_abbr"; "line_id"] =
    Ok [Ret (PStr [65; 66; 67; 68; 69; 70; 71]); Ret (PStr (0xc4 :: repeat 32 22))] /\
  py_attrs (lines3 [0xc4]) "general_header_line_id" ["line_id"] = Ok [Raise UnicodeDecodeError].
Proof. repeat (split; [vm_compute; reflexivity|]). vm_compute. reflexivity. Qed.

(** Blocks of the bytes 1, 2, 3, ...: survey, client, explosives, airgun,
    electromagnetic source and calibration. *)
Definition count3 (ty : Z) : list Z := map Z.of_nat (seq 1 31) ++ [ty].
Definition blocks_file (tys : list Z) : list Z :=
  head3 (2 + len tys) 0 0 ++ two3 ++ three3 ++ concat (map count3 tys) ++ sets3.

(** C66, refuted: general_header_client_name returns the survey, so None for a
    file with a client but no survey, and for one with both an object without
    the name of the client. *)
Theorem C66_client_name_refuted : exists p s s2 o,
  isegd_open p (blocks_file [0x12]) [] = Ok s /\ blocks3 (blocks_file [0x12]) = [count3 0x12] /\
  py_block s "general_header_client_name" = Ret None /\
  isegd_open p (blocks_file [0x11; 0x12]) [] = Ok s2 /\ blocks3 (blocks_file [0x11; 0x12]) = [count3 0x11; count3 0x12] /\
  py_block s2 "general_header_client_name" = Ret (Some o) /\ getattr o "client_name" = Raise AttributeError.
Proof.
  exists segd_plat. eexists _, _, _. split; [vm_compute; reflexivity|]. split; [vm_compute; reflexivity|].
  split; [vm_compute; reflexivity|]. split; [vm_compute; reflexivity|]. split; [vm_compute; reflexivity|].
  split; vm_compute; reflexivity.
Qed.
Print Assumptions C66_client_name_refuted.

(** C66, refuted: general_header_explosive_info returns the airgun. *)
Theorem C66_explosive_info_refuted : exists p s s2 o,
  isegd_open p (blocks_file [0x16]) [] = Ok s /\ blocks3 (blocks_file [0x16]) = [count3 0x16] /\
  py_block s "general_header_explosive_info" = Ret None /\
  isegd_open p (blocks_file [0x16; 0x17]) [] = Ok s2 /\ blocks3 (blocks_file [0x16; 0x17]) = [count3 0x16; count3 0x17] /\
  py_block s2 "general_header_explosive_info" = Ret (Some o) /\ getattr o "charge_length" = Raise AttributeError /\
  fst o = k_GeneralHeaderAir.
Proof.
  exists segd_plat. eexists _, _, _. split; [vm_compute; reflexivity|]. split; [vm_compute; reflexivity|].
  split; [vm_compute; reflexivity|]. split; [vm_compute; reflexivity|]. split; [vm_compute; reflexivity|].
  split; [vm_compute; reflexivity|]. split; vm_compute; reflexivity.
Qed.
Print Assumptions C66_explosive_info_refuted.

(** C66, refuted: of an electromagnetic source group_idx is the depth index,
    of a calibration block the second frequency, amplitude and phase are the
    first ones. *)
Theorem C66_other_field_refuted : exists p s o q,
  isegd_open p (blocks_file [0x19; 0x43]) [] = Ok s /\
  blocks3 (blocks_file [0x19; 0x43]) = [count3 0x19; count3 0x43] /\
  py_block s "general_header_electromagnetic_info" = Ret (Some o) /\
  In ("group_idx", Num 21 1) (named 0x19 (source_names ["source_type"; "moment"])) /\
  big (count3 0x19) 21 1 = 22 /\ getattr o "group_idx" = Ret (PInt 23) /\
  py_block s "general_header_sen_calib_blk" = Ret (Some q) /\
  map (getattr q) ["freq2"; "amp2"; "phase2"] = map (getattr q) ["freq1"; "amp1"; "phase1"] /\
  getattr q "freq2" = Ret (PInt (big (count3 0x43) 0 4)) /\ big (count3 0x43) 12 4 <> big (count3 0x43) 0 4.
Proof.
  exists segd_plat. eexists _, _, _. split; [vm_compute; reflexivity|]. split; [vm_compute; reflexivity|].
  split; [vm_compute; reflexivity|]. split; [vm_compute; auto 20|]. split; [vm_compute; reflexivity|].
  split; [vm_compute; reflexivity|]. split; [vm_compute; reflexivity|]. split; [vm_compute; reflexivity|].
  split; [vm_compute; reflexivity|]. vm_compute. discriminate.
Qed.
Print Assumptions C66_other_field_refuted.

(** C66.  In every header class the attribute with the name of a member shows
    the member, in any object.

    Partial: six members have no attribute, five attributes show another
    member. *)
Theorem C66_same_names_partial : forall c k vals i a t v, In (c, k) classes -> instance (k, vals) ->
  nth_error (k_members k) i = Some (a, t) -> nth_error vals i = Some v ->
  ~ In (c, a) no_attribute -> (forall m, ~ In (c, a, m) other_member) ->
  member_shown v (getattr (k, vals) a).
Proof. exact same_names. Qed.
Print Assumptions C66_same_names_partial.

Definition client_vals : list bval := [BText (map Z.of_nat (seq 65 31)); BInt 0x12].
Example C66_names_case :
  In ("GeneralHeaderCli", k_GeneralHeaderCli) classes /\ instance (k_GeneralHeaderCli, client_vals) /\
  nth_error (k_members k_GeneralHeaderCli) 0 = Some ("client_name", CText 31) /\
  getattr (k_GeneralHeaderCli, client_vals) "client_name" = Ret (PStr (map Z.of_nat (seq 65 31))) /\
  List.length (concat (map (fun c => k_members (snd c)) classes)) = 325%nat.
Proof.
  split; [cbn; auto 20|]. split.
  { repeat constructor; try (apply bytes_check; vm_compute; reflexivity); cbn; lia. }
  repeat (split; [vm_compute; reflexivity|]). vm_compute. reflexivity.
Qed.

(** C66, refuted for the others. *)
Theorem C66_missing_attributes_refuted : forall c a, In (c, a) no_attribute ->
  (exists k t, In (c, k) classes /\ In (a, t) (k_members k)) /\
  forall k vals, In (c, k) classes -> getattr (k, vals) a = Raise AttributeError.
Proof. exact no_attributes. Qed.
Print Assumptions C66_missing_attributes_refuted.

(** C67.  binary_header() of a SEG-Y file: every attribute is the number in its
    bytes of the standard, in the byte order of the file; those of revision 2
    are zero in older files. *)
Theorem C67_binary_header : forall p content maps s, bytes content -> isegy_open p content maps = Ok s ->
  exists o, order_in content = Some o /\
    (forall a f, In (a, f) bin_table -> getattr (py_binary_header s) a = Ret (bin_field content o f)) /\
    (forall a f, In (a, f) bin2_table -> getattr (py_binary_header s) a =
       if 1 <? unsg content o 3501 3501 then Ret (bin_field content o f) else Ret (PInt 0)).
Proof.
  intros p content maps s B H. destruct (C56_binary_header_members _ _ _ _ B H) as (o & E1 & E2 & E3 & E4).
  exists o. split; [exact E1|]. split; [intros a f; apply (bin_shown _ _ _ E2)|]. intros a f Hf.
  assert (M : bh_SEGY_rev_major_ver (i_bh s) = unsg content o 3501 3501).
  { unfold bin_says in E2. decompose [and] E2. assumption. }
  rewrite M in E3. destruct (1 <? unsg content o 3501 3501).
  - exact (bin2_shown _ _ _ E3 a f Hf).
  - exact (bin2_blank _ E3 a f Hf).
Qed.
Print Assumptions C67_binary_header.

(** C67.  What these attributes take: exactly the numbers their fields can
    hold; anything else raises TypeError.  (An [int] for a [float] attribute is
    converted, see below.) *)
Theorem C67_values_taken : forall p content maps s a f v, bytes content -> isegy_open p content maps = Ok s ->
  In (a, f) bin_all ->
  (fits f v -> exists o', setattr (py_binary_header s) a v = Ret o') /\
  (~ fits f v -> (forall x y z, f = BF x y -> v <> PInt z) -> setattr (py_binary_header s) a v = Raise TypeError).
Proof.
  intros p content maps s a f v B H Hf. pose proof (open_instance _ _ _ _ B H (C56_binary_header_members _ _ _ _ B H)) as I.
  exact (bin_accepts _ a f v Hf I).
Qed.
Print Assumptions C67_values_taken.

Definition assigned (c : list Z) (l : list (string * pyval)) (as_ : list string) : outcome (list (pyres pyval)) :=
  let* s := isegy_open plat_example c maps_num in
  Ok (map (fun a => match assign_all (py_binary_header s) l with Ret o => getattr o a | Raise e => Raise e | PyUB => PyUB end) as_).
Example C67_case :
  assigned (blank_text ++ big_bin) [] ["job_id"; "line_num"; "samp_int"; "fixed_tr_length"; "num_of_tr_in_file"] =
    Ok [Ret (PInt 256); Ret (PInt (-2)); Ret (PInt 2000); Ret (PInt 1); Ret (PInt 0)] /\
  assigned (blank_text ++ big_bin) [("samp_int", PInt 500); ("ext_samp_int", PInt 500); ("samp_int", PInt 250)]
    ["samp_int"; "ext_samp_int"; "job_id"] = Ok [Ret (PInt 250); Ret (PFloat (i2d 500)); Ret (PInt 256)] /\
  assigned (blank_text ++ big_bin) [("samp_per_tr", PInt 32768)] ["job_id"] = Ok [Raise TypeError].
Proof. repeat (split; [vm_compute; reflexivity|]). vm_compute. reflexivity. Qed.

(** C67.  After assignments of numbers to attributes of binary_header() every
    attribute shows the last number assigned to it, all others show what they
    did before.  An [int] assigned to a [float] attribute reads back as the
    [float] of this value (if below 2^53). *)
Theorem C67_assignments : forall p content maps s l o', bytes content -> isegy_open p content maps = Ok s ->
  Forall (fun x => is_number (snd x)) l -> assign_all (py_binary_header s) l = Ret o' ->
  forall a, match last_value l a with
            | Some v => shown_after (getattr (py_binary_header s) a) v (getattr o' a)
            | None => getattr o' a = getattr (py_binary_header s) a
            end.
Proof.
  intros p content maps s l o' B H F A.
  pose proof (open_instance _ _ _ _ B H (C56_binary_header_members _ _ _ _ B H)) as I.
  assert (Hc : In ("BinaryHeader", k_BinaryHeader) classes) by (left; reflexivity).
  assert (N : ~ In "BinaryHeader" overlapping) by (cbn; intros [N|[N|[]]]; discriminate).
  exact (proj2 (proj2 (assignments _ _ Hc N l _ o' I F A))).
Qed.
Print Assumptions C67_assignments.

(** C71.  Assignments of numbers to attributes of any header object: every
    attribute shows the last number assigned to it, all others show what they
    did before.  An [int] assigned to a [float] attribute reads back as the
    [float] of this value (if below 2^53).

    Partial: not for the two classes of C71_overlap_refuted. *)
Theorem C71_assignments_partial : forall c k vals l o', In (c, k) classes -> ~ In c overlapping -> instance (k, vals) ->
  Forall (fun x => is_number (snd x)) l -> assign_all (k, vals) l = Ret o' ->
  fst o' = k /\ instance o' /\
  forall a, match last_value l a with
            | Some v => shown_after (getattr (k, vals) a) v (getattr o' a)
            | None => getattr o' a = getattr (k, vals) a
            end.
Proof. intros c k vals l o' Hc N I F H. exact (assignments c k Hc N l vals o' I F H). Qed.
Print Assumptions C71_assignments_partial.

(** C71, refuted: an assignment to freq2 of a calibration block changes freq1;
    one to group_idx of an electromagnetic source changes the depth index and
    leaves the group index. *)
Definition cal_vals : list bval := map BInt [1; 2; 3; 4; 5; 6; 7; 0x43].
Theorem C71_overlap_refuted : exists o o', instance o /\ fst o = k_GeneralHeaderSCa /\
  setattr o "freq2" (PInt 99) = Ret o' /\ getattr o "freq1" = Ret (PInt 1) /\ getattr o' "freq1" = Ret (PInt 99).
Proof.
  exists (k_GeneralHeaderSCa, cal_vals). eexists. split; [repeat constructor|]; [..|split; [reflexivity|]];
    try (cbn; lia). split; [vm_compute; reflexivity|]. split; vm_compute; reflexivity.
Qed.
Print Assumptions C71_overlap_refuted.

(** C71.  A text whose UTF-8 form fits the field of a block, without NUL, can
    be assigned; it reads back followed by NUL characters up to the length of
    the field.

    Partial: the user wants the text itself back, see the next two. *)
Theorem C71_texts_partial : forall m ty names a o n k vals u e, In (m, ty, names) block_table ->
  In (a, Txt o n) (named ty names) -> k_block ty = Some k -> instance (k, vals) ->
  utf8 u e -> ~ In 0 u -> (List.length e <= n)%nat ->
  exists o', setattr (k, vals) a (PStr u) = Ret o' /\ fst o' = k /\
    getattr o' a = Ret (PStr (u ++ repeat 0 (n - List.length e))).
Proof. exact block_text. Qed.
Print Assumptions C71_texts_partial.

Example C71_texts_case :
  In ("client_name", Txt 0 31) (named 0x12 ["client_name"]) /\ utf8 [0xc4; 66] [0xc3; 0x84; 66] /\
  exists o', setattr (k_GeneralHeaderCli, client_vals) "client_name" (PStr [0xc4; 66]) = Ret o' /\
    getattr o' "client_name" = Ret (PStr ([0xc4; 66] ++ repeat 0 28)).
Proof.
  split; [left; reflexivity|]. split.
  - apply (UCons 0xc4 [66] [0xc3; 0x84] [66]); [apply (U2 0xc4 3 4); unfold six; lia|].
    apply (UCons 66 [] [66] []); [apply U1; lia|constructor].
  - eexists. split; vm_compute; reflexivity.
Qed.

(** C71, refuted: a shorter text does not read back equal; a text too long is
    cut inside a character and cannot be read back at all. *)
Theorem C71_texts_refuted : exists o o1 o2 u, instance o /\ fst o = k_GeneralHeaderCli /\
  setattr o "client_name" (PStr [65; 66]) = Ret o1 /\ getattr o1 "client_name" <> Ret (PStr [65; 66]) /\
  List.length u = 16%nat /\ setattr o "client_name" (PStr u) = Ret o2 /\
  getattr o2 "client_name" = Raise UnicodeDecodeError.
Proof.
  exists (k_GeneralHeaderCli, client_vals). eexists _, _, (repeat 0xc4 16). split; [exact (proj1 (proj2 C66_names_case))|].
  split; [reflexivity|]. split; [vm_compute; reflexivity|]. split; [vm_compute; discriminate|]. split; [reflexivity|].
  split; vm_compute; reflexivity.
Qed.
Print Assumptions C71_texts_refuted.
