(** Specification for C94: a client that copies a SEG-Y file and sets fields of
    the trace headers on the way. *)
From Verif Require Import Base Platform CodecSpec TraceHdr SegyTypes ISegy OSegy LayoutSpec SegyDecSpec FileSpec CopySpec.
Local Open Scope Z_scope.

(** The header calls of the client: [h.set(k, v)] for each pair. *)
Definition set_all (h : hdr) (l : list (string * Z)) : hdr :=
  fold_left (fun h kv => hset h (fst kv) (VInt (snd kv))) l h.
Definition set_fields (t : trace) (l : list (string * Z)) : trace := mkTrace (set_all (t_hdr t) l) (t_smp t).

(** The loop: while there is a trace, read it, set [f i t] in trace number [i],
    write it. *)
Fixpoint edit_loop (p : platform) (f : nat -> trace -> list (string * Z)) (i fuel : nat) (s : isegy) (w : osegy) : outcome osegy :=
  if has_trace s then
    match fuel with
    | O => Throw ELoop
    | S k =>
      let* (t, s1) := read_trace p s in
      let* w1 := write_trace p w (set_fields t (f i t)) in
      edit_loop p f (S i) k s1 w1
    end
  else Ok w.

(** The program: open both files, run the loop, destroy the writer. *)
Definition edit (p : platform) (content : list Z) (ls : layouts) (f : nat -> trace -> list (string * Z)) (fuel : nat) : outcome (list Z) :=
  let* s := isegy_open p content ls in
  let w := writer_for (i_bh s) (i_text s) in
  let* s2 := w_open p w (i_bh s) ls in
  let* s3 := edit_loop p f 0 fuel s s2 in
  match w with
  | W2 _ _ => let* x := rev2_close s3 in Ok (fdata x)
  | _ => Ok (fdata (o_file s3))
  end.

(** The number [v] can be stored in the field [k] of the layout, and the field
    is not the one that tells the length of the trace. *)
Definition settable (b : bin_hdr) (l : layout) (kv : string * Z) : Prop :=
  exists en g, In en l /\ e_name en = fst kv /\ int_field (e_type en) = Some g /\ g (snd kv) = snd kv /\
    (fst kv = "SAMP_NUM"%string -> same_length b = true).

(** Where trace number [i] starts when the first one starts at [pos]. *)
Definition trace_start (fmt pos : Z) (ts : list trace) (i : nat) : Z :=
  fold_left (fun a t => a + 240 + sample_width fmt * len (t_smp t)) (firstn i ts) pos.

(** [c'] is [c] after the client's changes: byte [j] differs only if it belongs
    to a field that was set, and every field shows what the client left in the
    header. *)
Definition edited (o : order) (fmt : Z) (l : layout) (f : nat -> trace -> list (string * Z)) (ts : list trace)
  (pos : Z) (c c' : list Z) : Prop :=
  len c' = len c /\
  (forall j, 0 <= j < len c -> nth_error c' (Z.to_nat j) = nth_error c (Z.to_nat j) \/
     exists i t en, nth_error ts i = Some t /\ In en l /\ In (e_name en) (map fst (f i t)) /\
       trace_start fmt pos ts i + e_off en <= j < trace_start fmt pos ts i + e_off en + width (e_type en)) /\
  (forall i t en, nth_error ts i = Some t -> In en l ->
     exists v, hget (set_all (t_hdr t) (f i t)) (e_name en) = Some v /\
       shown o (e_type en) (slice (trace_start fmt pos ts i + e_off en) (width (e_type en)) c') v).
