(** Specification for C109: the SEG-D program of DiskD.v on a disk without an end. *)
From Verif Require Import Base Platform TraceHdr SegyTypes ISegy OSegy SegdTypes SegdSpec ISegd OSegd StepX OSegdX Procs CtorX.

(** Which calls of write_trace return ([None]: the constructor throws), and the
    file in the end. *)
Definition on_endless (p : platform) (a : osegd_args) (ts : list trace) : outcome (option (list bool) * list Z) :=
  match x_segd p a empty_file with
  | (Ok s, _) => let* (bs, s') := d_attempt p s ts in Ok (Some bs, fdata (od_file s'))
  | (Throw _, f) => Ok (None, fdata f)
  | (UB, _) => UB
  end.

(** ** Reading what is there of a record *)

(** Where the first [k] traces of the record end. *)
Definition ends (r : srec) (tcs : list (trace * strc)) (k : nat) : Z := len (rec_hdr r) + len (tc_bytes (firstn k tcs)).

(** A reader of [found] gives the first [k] traces and throws at the next. *)
Definition gives (p : platform) (found : list Z) (tcs : list (trace * strc)) (k : nat) : Prop :=
  exists s ts s1, isegd_open p found [] = Ok s /\ d_take p k s = Ok (ts, s1) /\
    Forall2 (fun x t' => trace_same (fst x) (snd x) t') (firstn k tcs) ts /\ d_has_trace s1 = true /\ d_read_trace p s1 = Throw EIO.

(** What is found is no longer than the record; without complete headers a
    reader gives no trace; traces that are not complete are not given, all
    others are; if everything is there the reader comes to the end. *)
Definition record_cut (p : platform) (r : srec) (tcs : list (trace * strc)) (found : list Z) : Prop :=
  len found <= ends r tcs (List.length tcs) /\
  (len found < len (rec_hdr r) -> isegd_open p found [] = Throw EIO \/ gives p found tcs 0) /\
  (forall k, (k < List.length tcs)%nat -> ends r tcs k <= len found < ends r tcs (S k) -> gives p found tcs k) /\
  (len found = ends r tcs (List.length tcs) -> exists s ts s1, isegd_open p found [] = Ok s /\ d_read_all p (List.length tcs) s = Ok (ts, s1) /\
    Forall2 (fun x t' => trace_same (fst x) (snd x) t') tcs ts).

(** What the constructor is given to write the record (the additional general
    headers in any order, see C42). *)
Definition record_args (r : srec) (hs : list ghN) : osegd_args :=
  mkOA (r_g1 r) (r_g2 r) (map (map fst3) (r_sets r)) (map AN hs) (r_extd r) (r_extl r) [].
