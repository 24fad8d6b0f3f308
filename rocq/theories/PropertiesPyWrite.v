(** C103 and C104: the writers in the Python module. *)
From Coq Require Import String Sorted Permutation.
From Verif Require Import BaseFacts Platform Fp TraceHdr SegyTypes SegyCodec ISegy OSegy FileSpec CopySpec
  SegdTypes SegdSpec ISegd OSegd SegdIoFacts SegdExamples PropertiesCodec PropertiesRound PropertiesCopy PropertiesSegdFile
  PyBind PySpec PyFacts PyTrace PyDictSpec PyWrite PyWriteSpec PyWriteFacts PropertiesPyIter.
Local Open Scope string_scope.
Local Open Scope list_scope.
Local Open Scope Z_scope.

(** C103.  The layouts that a reader or writer gets from a list of (name, dict)
    in Python are those the list describes: in the same order, and in each of
    them exactly the items of the dict, whatever order they were put in.  If
    there are no such layouts, the call is refused. *)
Theorem C103_layouts : forall a ls, is_arg a -> (to_layouts a = Some ls <-> layouts_are a ls).
Proof. intros a ls H. exact (layouts_ok a H ls). Qed.
Print Assumptions C103_layouts.

(** The layouts the module itself returns can be passed on. *)
Theorem C103_returned : forall ls a, layouts_wf ls = true -> py_layouts ls = Ret a -> to_layouts a = Some ls.
Proof. intros ls a W E. exact (layouts_back ls W a E). Qed.
Print Assumptions C103_returned.

(** Copying a file in Python succeeds exactly when the list describes layouts
    with which copying it in C++ succeeds, and gives the same file. *)
Theorem C103_copy : forall p content a fuel x, is_arg a ->
  (py_copy p content a fuel = Ret x <-> exists ls, layouts_are a ls /\ copy p content ls fuel = Ok x).
Proof.
  intros p content a fuel x H. split.
  - intro E. destruct (to_layouts a) as [ls|] eqn:L.
    + exists ls. split; [apply layouts_ok; assumption|]. exact (proj1 (copy_same p content a ls fuel x L) E).
    + rewrite (proj2 (copy_type p content a fuel) L) in E. discriminate.
  - intros (ls & L & C). apply layouts_ok in L; [|exact H]. exact (proj2 (copy_same p content a ls fuel x L) C).
Qed.
Print Assumptions C103_copy.

(** It is a [TypeError] exactly when the list does not describe layouts. *)
Theorem C103_type_error : forall p content a fuel, is_arg a ->
  (py_copy p content a fuel = Raise TypeError <-> forall ls, ~ layouts_are a ls).
Proof.
  intros p content a fuel H. rewrite copy_type. split.
  - intros E ls L. apply layouts_ok in L; [congruence|exact H].
  - intro N. destruct (to_layouts a) as [ls|] eqn:L; [|reflexivity]. exfalso. apply (N ls). apply layouts_ok; assumption.
Qed.
Print Assumptions C103_type_error.

(** The layout of C62's example with the items in another order, one name as
    [bytes]; the copy is the file itself.  A negative position is refused.  The
    default layouts can be passed on. *)
Definition arg_num : pylayouts :=
  [(PStr (of_string "SEG00000"),
    [(PInt 116, (PStr (of_string "SAMP_INT"), Some I16)); (PInt 0, (PBytes (of_string "A"), Some I16));
     (PInt 114, (PStr (of_string "SAMP_NUM"), Some I16))])].
Lemma arg_num_ok : is_arg arg_num.
Proof.
  assert (T : forall s, exists_val (PStr (of_string s)) /\ exists_val (PBytes (of_string s))).
  { intro s. cbn [exists_val]. unfold of_string, bytes, is_byte.
    split; apply Forall_forall; intros z Hz; apply in_map_iff in Hz; destruct Hz as (c & <- & _);
      pose proof (Ascii.nat_ascii_bounded c); lia. }
  constructor; [|constructor]. cbn [fst snd map]. split; [exact (proj1 (T _))|]. split.
  - repeat (constructor; [cbn [In]; intuition discriminate|]). constructor.
  - repeat (constructor; [cbn [fst snd]; (exact (proj1 (T _)) || exact (proj2 (T _)))|]). constructor.
Qed.
Example C103_case : is_arg arg_num /\ layouts_are arg_num maps_num /\
  py_copy plat_example copy_example arg_num 4 = Ret copy_example /\
  py_copy plat_example copy_example [(PStr (of_string "SEG00000"), [(PInt (-1), (PStr [65], Some I16))])] 4 = Raise TypeError /\
  layouts_wf default_trace_header = true /\
  (exists a, py_layouts default_trace_header = Ret a /\ to_layouts a = Some default_trace_header).
Proof.
  split; [exact arg_num_ok|]. split; [apply (proj1 (layouts_ok arg_num arg_num_ok maps_num)); vm_compute; reflexivity|].
  split; [vm_compute; reflexivity|]. split; [vm_compute; reflexivity|]. split; [vm_compute; reflexivity|].
  eexists. split; [vm_compute; reflexivity|]. vm_compute. reflexivity.
Qed.

(** C104.  A SEG-D record is written in Python and iterating over the file
    gives its traces.

    Partial: the record has no additional general headers and no extended and
    external headers (refuted below), and the conditions of C42. *)
Theorem C104_record_partial : forall (A : Type) p r tcs (body : A -> trace -> A) a fuel,
  plat_ok p -> p_chans0 p = 0 -> rec_good p r -> r_N r = [] -> r_extd r = [] -> r_extl r = [] ->
  tcs <> [] -> Forall (tc_in r) tcs -> len tcs = r_chans r -> len (fr_bytes (r, tcs)) < 2 ^ 63 ->
  (List.length tcs < fuel)%nat ->
  exists w w', py_osegd p (r_g1 r) (r_g2 r) (map (map fst3) (r_sets r)) [] = Called (Ret w) /\
    d_write_all p w (map fst tcs) = Ok w' /\ fdata (od_file w') = fr_bytes (r, tcs) /\
    exists s ts sE, isegd_open p (fdata (od_file w')) [] = Ok s /\
      Forall2 (fun x t' => trace_same (fst x) (snd x) t') tcs ts /\
      py_for (next_segd p) body fuel a s = (fold_left body ts a, Ret sE).
Proof.
  intros A p r tcs body a fuel Hp Hc Hr HN He Hl Ne F L Len Hf.
  destruct (C42_record_round_trip_partial p r [] tcs) as (w & w' & _ & _ & _ & O & W & D & _); try assumption.
  { intros i j x y _ H _. rewrite HN in H. destruct i; discriminate. }
  { rewrite HN. constructor. }
  { rewrite HN. constructor. }
  rewrite He, Hl in O. cbn [map] in O. exists w, w'. split; [unfold py_osegd; rewrite O; reflexivity|].
  split; [exact W|]. split; [exact D|].
  assert (B : len tcs < 2 ^ 63).
  { unfold fr_bytes in Len. cbn [fst snd] in Len. rewrite len_app in Len.
    assert (len tcs <= len (tc_bytes tcs)).
    { clear - F p. unfold tc_bytes. induction F as [|x tcs T _ IH]; [vm_compute; discriminate|].
      cbn [map concat]. rewrite len_app, len_cons. pose proof (trc_len r (fst x) (snd x) p T). lia. }
    pose proof (len_nonneg (rec_hdr r)). lia. }
  destruct (C72_loop_partial A p [(r, tcs)] body a fuel Hp) as (s & ts & sE & O' & S & P & _).
  - discriminate.
  - constructor; [|constructor]. unfold fr_ok. cbn [fst snd]. auto.
  - cbn [map concat]. rewrite app_nil_r. exact Len.
  - unfold fr_traces. cbn [map concat snd]. rewrite app_nil_r. exact Hf.
  - cbn [map concat] in O'. rewrite app_nil_r in O'. unfold fr_traces in S. cbn [map concat snd] in S. rewrite app_nil_r in S.
    exists s, ts, sE. rewrite D. auto.
Qed.
Print Assumptions C104_record_partial.

Example C104_case : rec_good segd_plat py_rec /\ Forall (tc_in py_rec) ex_traces /\ len ex_traces = r_chans py_rec /\
  len (fr_bytes (py_rec, ex_traces)) = 448 /\
  exists w, py_osegd segd_plat py_g1 ex_g2 [[ex_cs 1 1; ex_cs 2 2]] [] = Called (Ret w) /\ len (fdata (od_file w)) = 160.
Proof.
  split; [exact py_rec_good|]. split; [exact py_traces_in|]. split; [reflexivity|]. split; [vm_compute; reflexivity|].
  eexists. split; [vm_compute; reflexivity|]. vm_compute. reflexivity.
Qed.

(** C104, refuted: additional general headers, which the C++ class writes, are
    refused in Python. *)
Theorem C104_additional_headers_refuted : exists p g1 g2 sets h s,
  osegd_open p g1 g2 sets [AN h] [] [] [] = Ok s /\ py_osegd p g1 g2 sets [AN h] = CastError.
Proof.
  exists segd_plat, py_g1, ex_g2, [[ex_cs 1 1; ex_cs 2 2]], ex_gN. eexists. split; [vm_compute; reflexivity|reflexivity].
Qed.
Print Assumptions C104_additional_headers_refuted.

(** C104, refuted: when the general headers announce extended or external
    headers, the constructor reads blocks that do not exist. *)
Theorem C104_announced_refuted : forall p g1 g2 sets extd extl s,
  osegd_open p g1 g2 sets [] extd extl [] = Ok s ->
  announces (g1_extended_blocks g1) (g2_extended_blocks g2) \/
  announces (g1_external_blocks g1) (g2_external_blocks g2) ->
  py_osegd p g1 g2 sets [] = Called PyUB.
Proof. intros p g1 g2 sets extd extl s O A. unfold py_osegd. rewrite (announced _ _ _ _ _ _ _ O A). reflexivity. Qed.
Print Assumptions C104_announced_refuted.

Example C104_announced_case : exists s,
  osegd_open segd_plat ex_g1 ex_g2 [[ex_cs 1 1; ex_cs 2 2]] [] [ex_block] [ex_block] [] = Ok s /\
  announces (g1_extended_blocks ex_g1) (g2_extended_blocks ex_g2).
Proof. eexists. split; [vm_compute; reflexivity|]. unfold announces. cbn. lia. Qed.
