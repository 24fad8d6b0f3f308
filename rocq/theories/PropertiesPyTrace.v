(** C91-C93: traces and their headers in Python. *)
From Coq Require Import String Reals Permutation Lia.
From Verif Require Import Base FpSpec Fp TraceHdr PyBind PySpec PyTrace PyTraceSpec PyTraceFacts PyDictSpec PyDictFacts.
Local Open Scope list_scope.
Local Open Scope Z_scope.

(** C91.  A Python program makes headers and traces, binds and deletes names,
    takes the header of a trace, sets and gets values, writes traces.  What it
    sees is what it would see if objects were never destroyed and a header
    taken from a trace were the header of that trace: no access to freed
    memory, no stale copy, no lost change, however references are dropped. *)
Theorem C91_python_objects : forall prog, exists os st, run start prog = Some (os, st) /\
  os = fst (fst (mrun [] (fun _ => None) prog)).
Proof.
  intro prog. destruct start_ok as (I & N). destruct (run_ok prog start [] _ I N) as (os & st & R & H).
  exists os, st. split; [exact R |]. destruct (mrun [] (fun _ => None) prog) as [[os' M] E]. destruct H as (-> & _). reflexivity.
Qed.
Print Assumptions C91_python_objects.

(** And nothing is kept longer than that: after any program the C++ objects
    that have not been deleted are those that a name refers to, directly or
    through the header of the trace. *)
Theorem C91_nothing_leaks : forall prog os st, run start prog = Some (os, st) ->
  forall a, at_ (s_cells st) a <> None <-> exists x i, snd (mrun [] (fun _ => None) prog) x = Some (a, i).
Proof.
  intros prog os st R a. destruct start_ok as (I & N). destruct (run_ok prog start [] _ I N) as (os' & st' & R' & H).
  rewrite R in R'. injection R' as <- <-. destruct (mrun [] (fun _ => None) prog) as [[os' M] E].
  destruct H as (_ & I' & N'). exact (live_named _ _ _ _ I' N').
Qed.
Print Assumptions C91_nothing_leaks.

(** [t = Trace({"A": 1}, [1.0]); h = t.header(); del t; h.set("A", 2)],
    [h.get("A")]; a header of a trace that has no name; [t.header() is t.header()];
    a change through [t.header()] is in what is written; a header object has
    no samples. *)
Definition key_A : pyval := PStr [65].
Definition d_one : Z := 1023 * 2 ^ 52.
Definition life : list pstmt :=
  [Assign 0 (ENewTrace [(key_A, PInt 1)] [PFloat d_one]); Assign 1 (EHeaderOf (EVar 0)); Del 0;
   SetItem (EVar 1) key_A (PInt 2); GetItem (EVar 1) key_A;
   GetItem (EHeaderOf (ENewTrace [(key_A, PInt 7)] [])) key_A;
   Assign 0 (ENewTrace [(key_A, PInt 3)] [PInt 1]); Is (EHeaderOf (EVar 0)) (EHeaderOf (EVar 0)); Is (EHeaderOf (EVar 0)) (EVar 1);
   SetItem (EHeaderOf (EVar 0)) (PStr [0x416]) (PFloat d_one); Write (EVar 0); Samples (EVar 1); GetItem (EVar 2) key_A;
   Keys (EHeaderOf (EVar 0)); Del 1].
Example C91_case : exists st,
  run start life = Some
    ([ONothing; ONothing; ONothing; ONothing; OValue (Some (VInt 2)); OValue (Some (VInt 7)); ONothing; OBool true; OBool false;
      ONothing; OWritten (mkTrace [(to_string [65], VInt 3); (to_string [0xd0; 0x96], VDbl d_one)] [d_one]);
      ORaised AttributeError; ORaised NameError; OKeys [[65]; [0x416]]; ONothing], st) /\
  map (fun a => match at_ (s_cells st) a with Some _ => true | None => false end) [0; 1; 2]%nat = [false; false; true].
Proof. eexists. split; vm_compute; reflexivity. Qed.

(** C92.  A header is a dict: after [x.set(k, v)] every name [y] for the same
    header gets [v] for [k], and what it got before for the other keys; other
    headers are untouched.  [str] and [bytes] of the same UTF-8 bytes are the
    same key.

    Partial: [v] is a [float] or an [int] of at most 64 bits. *)
Theorem C92_set_get_partial : forall prog x y k k' b b' v os same w w' st,
  key_text k b -> key_text k' b' -> number64 v ->
  run start (prog ++ [Is (EVar x) (EVar y); GetItem (EVar x) k; GetItem (EVar y) k'])
    = Some (os ++ [OBool same; OValue w; OValue w'], st) ->
  exists st' u, run start (prog ++ [SetItem (EVar x) k v; GetItem (EVar y) k']) = Some (os ++ [ONothing; OValue u], st') /\
    (same = true -> b = b' -> exists n, u = Some n /\ is_value v n) /\
    (same = false \/ b <> b' -> u = w').
Proof. exact set_get. Qed.
Print Assumptions C92_set_get_partial.

Example C92_case :
  let prog := [Assign 0 (ENewTrace [(key_A, PInt 1)] []); Assign 1 (EHeaderOf (EVar 0)); Assign 2 (EHeaderOf (EVar 0))] in
  key_text key_A [65] /\ key_text (PBytes [65]) [65] /\ number64 (PInt (- 2 ^ 63)) /\
  (exists st, run start (prog ++ [Is (EVar 1) (EVar 2); GetItem (EVar 1) key_A; GetItem (EVar 2) (PBytes [65])])
     = Some ([ONothing; ONothing; ONothing] ++ [OBool true; OValue (Some (VInt 1)); OValue (Some (VInt 1))], st)) /\
  (exists st, run start (prog ++ [SetItem (EVar 1) key_A (PInt (- 2 ^ 63)); GetItem (EVar 2) (PBytes [65])])
     = Some ([ONothing; ONothing; ONothing] ++ [ONothing; OValue (Some (VInt (- 2 ^ 63)))], st)).
Proof.
  cbv zeta. split; [exact utf8_A |].
  split; [split; [reflexivity | repeat constructor; unfold is_byte; lia] |].
  split; [split; [reflexivity | cbn; lia] |].
  split; eexists; vm_compute; reflexivity.
Qed.

(** An [int] beyond 64 bits is taken without an exception, but as the nearest
    [float]: [h.set("A", 2**63 + 1)] makes [h.get("A")] return 2.0**63. *)
Theorem C92_big_int_refuted : exists st,
  run start [Assign 0 (ENewHeader []); SetItem (EVar 0) key_A (PInt (2 ^ 63 + 1)); GetItem (EVar 0) key_A]
  = Some ([ONothing; ONothing; OValue (Some (VDbl (d_pow2 63)))], st).
Proof. eexists. vm_compute. reflexivity. Qed.
Print Assumptions C92_big_int_refuted.

(** C93.  [Trace(d, l)] has the samples [l], its header has the keys of [d] and
    the values of [d] under them, and no others. *)
Theorem C93_new_trace : forall prog x items smp k b, dict items -> sample_list smp -> key_text k b ->
  exists os st ds us w,
    run start (prog ++ [Assign x (ENewTrace items smp); Samples (EVar x); Keys (EHeaderOf (EVar x));
                        GetItem (EHeaderOf (EVar x)) k])
    = Some (os ++ [ONothing; OSamples ds; OKeys us; OValue w], st) /\
    Forall2 sample smp ds /\ Permutation (map PStr us) (map fst items) /\
    (forall u v, In (PStr u, v) items -> utf8 u b -> exists n, w = Some n /\ is_value v n) /\
    ((forall u v, In (PStr u, v) items -> ~ utf8 u b) -> w = None).
Proof. exact new_trace. Qed.
Print Assumptions C93_new_trace.

Example C93_case :
  dict [(key_A, PInt 5); (PStr [66], PFloat d_one)] /\ sample_list [PInt 1; PFloat d_one] /\ key_text (PStr [66]) [66] /\
  exists st, run start [Assign 0 (ENewTrace [(key_A, PInt 5); (PStr [66], PFloat d_one)] [PInt 1; PFloat d_one]);
    Samples (EVar 0); Keys (EHeaderOf (EVar 0)); GetItem (EHeaderOf (EVar 0)) (PStr [66])]
  = Some ([ONothing; OSamples [d_one; d_one]; OKeys [[65]; [66]]; OValue (Some (VDbl d_one))], st).
Proof.
  split; [split |].
  - cbn [map fst]. constructor; [intros [H | []]; discriminate | constructor; [intros [] | constructor]].
  - constructor; [split; [exists [65], [65]; split; [reflexivity | exact utf8_A] | split; [discriminate | reflexivity]] |].
    constructor; [split; [exists [66], [66]; split; [reflexivity | exact utf8_B] | exact Logic.I] | constructor].
  - split; [constructor; [vm_compute; discriminate | constructor; [exact Logic.I | constructor]] |].
    split; [exact utf8_B | eexists; vm_compute; reflexivity].
Qed.
