(** C101, C102: constructing a writer for a file that exists. *)
From Coq Require Import String.
From Verif Require Import BaseFacts Platform CodecSpec Fp TraceHdr SegyTypes SegyCodec ISegy OSegy SegdTypes OSegd StepX SegdExamples PropertiesCodec
  Procs CtorX CtorSpec CtorFacts.
Local Open Scope string_scope.
Local Open Scope list_scope.
Local Open Scope Z_scope.

(** C101.  A constructor of a writer that throws leaves every file as it was.

    False: the files are emptied before the arguments are looked at.  What holds
    is that files of other names are untouched, and that nothing happens when
    the operating system refuses to open the file. *)
Theorem C101_untouched_partial : forall p can name k d e d',
  new_file can name (construct p k) d = (Throw e, d') ->
  (forall n, n <> name -> d' n = d n) /\ (can name = false -> d' name = d name /\ e = EIO).
Proof.
  intros p can name k d e d' H. unfold new_file in H. destruct (can name) eqn:C.
  - destruct (construct p k empty_file) as [o f]. injection H as _ <-. split; [|discriminate]. intros n N. unfold store.
    destruct (String.eqb_spec n name) as [E|_]; [contradiction|reflexivity].
  - injection H as <- <-. split; [reflexivity|]. intros _. split; reflexivity.
Qed.
Print Assumptions C101_untouched_partial.

(** A directory with the files "a" and "b". *)
Definition ex_disk : disk := store (store (fun _ => None) "a" [1; 2; 3]) "b" [4; 5].
Example C101_case : exists d', new_file (fun _ => false) "a" (construct plat_example (NewRev0 [] bin_zero default_trace_header)) ex_disk = (Throw EIO, d') /\
  d' "a" = Some [1; 2; 3] /\ d' "b" = Some [4; 5].
Proof. eexists. split; [vm_compute; reflexivity|]. split; reflexivity. Qed.

(** A text header one character short empties an existing file; so does an
    unknown sample format of a SEG-D file.  An unknown byte order replaces its
    content by a text header. *)
Definition short_text : list Z := repeat 32 (Z.to_nat 3199).
Definition odd_order : bin_hdr := set_endianness bin_zero 7.
Definition odd_format : osegd_args :=
  mkOA (mkG1 123 8059 120 19 2 200 12 34 56 20 1234 345678 (i2d 2) 1 16 8 51 1 2 1 1 1) ex_g2 [[ex_cs 1 1; ex_cs 2 2]] [] [ex_block] [ex_block] [].
Theorem C101_existing_file_refuted :
  (exists d', new_file (fun _ => true) "a" (construct plat_example (NewRev1 [short_text] bin_zero default_trace_header)) ex_disk = (Throw ESedaman, d') /\
     ex_disk "a" = Some [1; 2; 3] /\ d' "a" = Some []) /\
  (exists d', new_file (fun _ => true) "a" (construct segd_plat (NewSegd odd_format)) ex_disk = (Throw ESedaman, d') /\ d' "a" = Some []) /\
  (exists d' c, new_file (fun _ => true) "a" (construct plat_example (NewRev2 [] odd_order [] default_trace_header)) ex_disk = (Throw ESedaman, d') /\
     d' "a" = Some c /\ len c = 3200).
Proof.
  split; [eexists; split; [vm_compute; reflexivity|split; reflexivity]|]. split; [eexists; split; [vm_compute; reflexivity|reflexivity]|].
  eexists _, _. split; [vm_compute; reflexivity|]. split; [reflexivity|vm_compute; reflexivity].
Qed.
Print Assumptions C101_existing_file_refuted.

(** C102.  What a constructor leaves in its file does not depend on what was
    there, and no other file changes.  If the construction succeeds, it is the
    file described by the properties of the writers; if it throws, it is one of
    the states listed by [ctor_left], which says for each state when it occurs. *)
Theorem C102_content : forall p can name k, can name = true -> exists c,
  match opened p k with
  | Ok s => c = fdata (file_of s)
  | Throw e => ctor_left k e c
  | UB => True
  end /\
  forall d, exists d', new_file can name (construct p k) d = (opened p k, d') /\ d' name = Some c /\ forall n, n <> name -> d' n = d n.
Proof.
  intros p can name k C. destruct (construct_described p k) as [H1 H2]. exists (fdata (snd (construct p k empty_file))). split.
  - destruct (opened p k); [rewrite H2; reflexivity|exact H2|exact I].
  - intros d. exists (store d name (fdata (snd (construct p k empty_file)))). unfold new_file. rewrite C.
    destruct (construct p k empty_file) as [o f]. cbn [fst snd] in *. subst o. split; [reflexivity|]. unfold store. split.
    + rewrite String.eqb_refl. reflexivity.
    + intros n N. destruct (String.eqb_spec n name) as [E|_]; [contradiction|reflexivity].
Qed.
Print Assumptions C102_content.

(** All four classes, and every state but lack of memory. *)
Definition blank_text : list Z := repeat 32 (Z.to_nat 3200).
Definition two_types : osegd_args :=
  mkOA (mkG1 123 8058 120 19 2 200 12 34 56 20 1234 345678 (i2d 2) 1 16 8 51 2 2 1 1 1) ex_g2 [[ex_cs 1 1; ex_cs 2 2]; [ex_cs 1 1]] [] [ex_block] [ex_block] [].
Definition left_in_a (p : platform) (k : ctor) : outcome unit * option Z :=
  let (o, d) := new_file (fun _ => true) "a" (construct p k) ex_disk in
  (match o with Ok _ => Ok tt | Throw e => Throw e | UB => UB end, option_map len (d "a")).
Example C102_case :
  left_in_a plat_example (NewRev0 [] bin_zero default_trace_header) = (Ok tt, Some 3600) /\
  left_in_a plat_example (NewRev1 [blank_text; blank_text] bin_zero default_trace_header) = (Ok tt, Some 6800) /\
  left_in_a plat_example (NewRev1 [blank_text; short_text] bin_zero default_trace_header) = (Throw ESedaman, Some 0) /\
  left_in_a plat_example (NewRev1 [blank_text; blank_text] odd_order default_trace_header) = (Throw ESedaman, Some 3200) /\
  left_in_a plat_example (NewRev2 [blank_text; blank_text] (set_format_code bin_zero 4) [blank_text] default_trace_header) = (Throw ESedaman, Some 6800) /\
  left_in_a segd_plat (NewSegd odd_format) = (Throw ESedaman, Some 0) /\
  left_in_a segd_plat (NewSegd two_types) = (Throw ESedaman, Some 160).
Proof. do 6 (split; [vm_compute; reflexivity|]). vm_compute; reflexivity. Qed.
