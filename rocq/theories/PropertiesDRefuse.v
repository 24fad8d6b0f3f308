(** C96 and C98: a SEG-D writer that goes on after an exception. *)
From Coq Require Import Reals String.
From Verif Require Import BaseFacts Platform CodecSpec Fp TraceHdr SegyTypes SegyCodec ISegy OSegy SegdTypes SegdSpec ISegd OSegd StepX OSegdX
  RefuseSpec DRefuseSpec WriterFacts RoundSpec SegdCountFacts SegdExamples SegdTrcExamples DRefuseFacts.
Local Open Scope string_scope.
Local Open Scope list_scope.
Local Open Scope Z_scope.

(** A call has the outcome given in OSegd.v, and a successful call leaves the
    object given there. *)
Theorem C96_same_calls : forall p t s,
  fst (xd_write_trace p t s) = (let* _ := d_write_trace p s t in Ok tt) /\
  (forall s', d_write_trace p s t = Ok s' -> snd (xd_write_trace p t s) = s').
Proof.
  intros p t s. pose proof (write_run p t s) as H. destruct (d_write_trace p s t) as [s1|e|]; cbn [bind].
  - rewrite H. split; [reflexivity|]. intros s' K. injection K as <-. reflexivity.
  - destruct H as (bs & -> & _). split; [reflexivity|discriminate].
  - destruct H as (s' & ->). split; [reflexivity|discriminate].
Qed.
Print Assumptions C96_same_calls.

(** C96.  A client that goes on after refused traces ends with the object, and
    the file, of a client that wrote the accepted traces alone.

    Partial: nothing about a trace comes to light after its header was written. *)
Theorem C96_refused_traces_partial : forall p g1 g2 sets adds extd extl ls ts s bs s',
  p_max_alloc p < 2 ^ 63 -> osegd_open p g1 g2 sets adds extd extl ls = Ok s ->
  Forall (d_early p (g2_major g2) ls) ts -> d_attempt p s ts = Ok (bs, s') ->
  d_write_all p s (accepted bs ts) = Ok s'.
Proof.
  intros p g1 g2 sets adds extd extl ls ts s bs s' A O F H.
  destruct (open_end _ _ _ _ _ _ _ _ _ O) as (_ & G1 & G2 & GL & W). subst.
  exact (attempt_early p A ts s bs s' W F H).
Qed.
Print Assumptions C96_refused_traces_partial.

(** C98.  Whatever the traces are like: a refused trace takes no channel of the
    record, what was in the file stays there, and what is added to the file is
    nothing or the 20 bytes of the trace header and extension blocks of 32
    bytes, at most as many as the trace announces. *)
Theorem C98_what_stays : forall p g1 g2 sets adds extd extl ls ts s bs s1 t x s2,
  osegd_open p g1 g2 sets adds extd extl ls = Ok s ->
  d_attempt p s ts = Ok (bs, s1) -> xd_write_trace p t s1 = (Throw x, s2) ->
  (exists added, fdata (od_file s1) = fdata (od_file s) ++ added) /\
  (exists stray, fdata (od_file s2) = fdata (od_file s1) ++ stray /\
     (stray = [] \/
      exists k m, len stray = 20 + 32 * k /\ 0 <= k <= m mod 256 /\
        match hget (t_hdr t) "TR_HDR_EXT" with Some v => v = VInt m | None => m = 0 end)) /\
  od_written s1 = len (accepted bs ts) /\ od_written s2 = od_written s1 /\ len (accepted bs ts) <= od_chans s.
Proof.
  intros p g1 g2 sets adds extd extl ls ts s bs s1 t x s2 O H T.
  destruct (open_end _ _ _ _ _ _ _ _ _ O) as (A & _). destruct (open_inv _ _ _ _ _ _ _ _ _ O) as (_ & _ & C & W).
  assert (Hn : 0 <= od_chans s < 2 ^ 64) by (rewrite C; apply wrapu_bound; lia).
  destruct (attempt_inv p (od_chans s) Hn ts s bs s1 A eq_refl ltac:(lia) H) as (A1 & C1 & W1 & B1 & added & D1).
  split; [exists added; exact D1|].
  pose proof (write_run p t s1) as R. destruct (d_write_trace p s1 t) as [s'|e|].
  - rewrite R in T. discriminate T.
  - destruct R as (ks & R & L). rewrite R in T. injection T as _ <-. cbn [with_file od_upd od_file od_written].
    destruct (put_all_end ks _ A1) as [D2 _]. split.
    + exists (concat ks). split; [exact D2|]. destruct L as [->|(hd & es & m & -> & Lh & Fe & Im & Le)]; [left; reflexivity|]. right.
      exists (len es), m. cbn [concat]. rewrite len_app, (len_blocks es Fe). split; [unfold len at 1; rewrite Lh; reflexivity|].
      split; [split; [apply len_nonneg|exact Le]|]. unfold opt_int in Im. destruct (hget (t_hdr t) "TR_HDR_EXT") as [[z|z]|]; cbn [get_int] in Im;
        [injection Im as ->; reflexivity|discriminate Im|injection Im as <-; reflexivity].
    + split; [lia|]. split; [reflexivity|lia].
  - destruct R as (s' & R). rewrite R in T. discriminate T.
Qed.
Print Assumptions C98_what_stays.

(** Three channels.  The header extensions have the words A and SAMP_NUM. *)
Definition a_layout : ext_layouts := [[(0, ("A", I16)); (2, ("SAMP_NUM", U16))]].
Definition a_trace (chan : value) (more : hdr) : trace :=
  mkTrace ([("FFID", VInt 70000); ("SCAN_TYPE_NUM", VInt 1); ("CH_SET_NUM", VInt 1); ("CHAN", chan);
            ("TR_HDR_EXT", VInt 1); ("SAMP_NUM", VInt 3)] ++ more) [i2d 2; i2d 4; i2d (-6)].
Definition with_a (chan : Z) : trace := a_trace (VInt chan) [("A", VInt 7)].
Definition d_writer : outcome osegd :=
  osegd_open segd_plat ex_g1 ex_g2 [[ex_cs 1 1; ex_cs 2 2]] [AN ex_gN] [ex_block] [ex_block] a_layout.
(** What the calls returned and the bytes of the file; the file of the traces
    alone; the channels of the traces that a reader gets from a file. *)
Definition d_going_on (ts : list trace) : outcome (list bool * list Z) :=
  let* s := d_writer in let* (bs, s') := d_attempt segd_plat s ts in Ok (bs, fdata (od_file s')).
Definition d_alone (ts : list trace) : outcome (list Z) :=
  let* s := d_writer in let* s' := d_write_all segd_plat s ts in Ok (fdata (od_file s')).
Definition d_channels (c : list Z) : outcome (list (option value)) :=
  let* s := isegd_open segd_plat c a_layout in
  let* (ts, _) := d_read_all segd_plat 9 s in Ok (map (fun t => hget (t_hdr t) "CHAN") ts).

(** The second trace is refused for its header, the last for the number of
    channels.  The file is that of the other traces. *)
Example C96_case :
  Forall (d_early segd_plat (g2_major ex_g2) a_layout)
    [with_a 1; a_trace (VDbl 0) [("A", VInt 7)]; with_a 2; with_a 3; with_a 4] /\
  exists c, d_going_on [with_a 1; a_trace (VDbl 0) [("A", VInt 7)]; with_a 2; with_a 3; with_a 4]
              = Ok ([true; false; true; true; false], c) /\
    d_alone [with_a 1; with_a 2; with_a 3] = Ok c /\ len c = 448 /\
    d_channels c = Ok [Some (VInt 1); Some (VInt 2); Some (VInt 3)].
Proof.
  split.
  - assert (E : forall ch, ext_complete 2 a_layout (t_hdr (a_trace ch [("A", VInt 7)]))).
    { intros ch z Hz _. vm_compute in Hz. injection Hz as <-. intros [|i] l en _ Hl Hin; [|destruct i; discriminate Hl].
      injection Hl as <-. destruct Hin as [<-|[<-|[]]]; eexists; split; reflexivity. }
    repeat constructor; try apply E; vm_compute; discriminate.
  - eexists. do 3 (split; [vm_compute; reflexivity|]). vm_compute; reflexivity.
Qed.

(** Without the condition: a trace that lacks a word of the layout, and one with
    a real number under an integer word, are refused after their header was
    written.  The 20 bytes stay between the traces around them, and the file can
    no longer be read, where that of the accepted traces can. *)
Theorem C96_extension_refuted : forall t,
  t = a_trace (VInt 2) [] \/ t = a_trace (VInt 2) [("A", VDbl 0)] ->
  exists x s s' a b stray,
    d_writer = Ok s /\ (let* s1 := d_write_trace segd_plat s (with_a 1) in d_write_trace segd_plat s1 t) = Throw x /\
    d_going_on [with_a 1; t; with_a 2; with_a 3] = Ok ([true; false; true; true], s') /\
    d_alone [with_a 1; with_a 2; with_a 3] = Ok (a ++ b) /\ d_alone [with_a 1] = Ok a /\
    s' = a ++ stray ++ b /\ len stray = 20 /\
    d_channels (a ++ b) = Ok [Some (VInt 1); Some (VInt 2); Some (VInt 3)] /\ d_channels s' = Throw EIO.
Proof.
  assert (Hs : exists s, d_writer = Ok s) by (eexists; vm_compute; reflexivity). destruct Hs as [s Hs].
  set (a := match d_alone [with_a 1] with Ok c => c | _ => [] end).
  set (b := skipn 320 (match d_alone [with_a 1; with_a 2; with_a 3] with Ok c => c | _ => [] end)).
  assert (Hw : forall t, (let* s1 := d_write_trace segd_plat s (with_a 1) in d_write_trace segd_plat s1 t)
    = (let* s := d_writer in let* s1 := d_write_trace segd_plat s (with_a 1) in d_write_trace segd_plat s1 t))
    by (intro t; rewrite Hs; reflexivity).
  intros t [->| ->].
  - set (c := match d_going_on [with_a 1; a_trace (VInt 2) []; with_a 2; with_a 3] with Ok (_, c) => c | _ => [] end).
    exists ESedaman, s, c, a, b, (slice 320 20 c). split; [exact Hs|]. rewrite Hw.
    do 7 (split; [vm_compute; reflexivity|]). vm_compute; reflexivity.
  - set (c := match d_going_on [with_a 1; a_trace (VInt 2) [("A", VDbl 0)]; with_a 2; with_a 3] with Ok (_, c) => c | _ => [] end).
    exists EVariant, s, c, a, b, (slice 320 20 c). split; [exact Hs|]. rewrite Hw.
    do 7 (split; [vm_compute; reflexivity|]). vm_compute; reflexivity.
Qed.
Print Assumptions C96_extension_refuted.

(** After an accepted trace: one refused for its header, and one whose
    extension block lacks a word. *)
Definition refused (t : trace) : option (exn * Z * Z * Z) :=
  match d_writer with
  | Ok s => match d_attempt segd_plat s [with_a 1] with
            | Ok (_, s1) => match xd_write_trace segd_plat t s1 with
                            | (Throw x, s2) => Some (x, len (fdata (od_file s2)) - len (fdata (od_file s1)), od_written s1, od_written s2)
                            | _ => None
                            end
            | _ => None
            end
  | _ => None
  end.
Example C98_case :
  refused (a_trace (VDbl 0) [("A", VInt 7)]) = Some (EVariant, 0, 1, 1) /\ refused (a_trace (VInt 2) []) = Some (ESedaman, 20, 1, 1).
Proof. split; vm_compute; reflexivity. Qed.
