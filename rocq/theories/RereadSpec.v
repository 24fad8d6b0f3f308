(** What a client of the readers that goes on after an exception relies on. *)
From Verif Require Import Base Platform TraceHdr SegyTypes ISegy Sorted1D StepX ISegyX.

(** A client that makes the calls [cs] whatever they throw, and the results. *)
Fixpoint go_on {S C A} (call : C -> St S A) (s : S) (cs : list C) : outcome (list (outcome A) * S) :=
  match cs with
  | [] => Ok ([], s)
  | c :: cs' =>
    match call c s with
    | (UB, _) => UB
    | (o, s1) => let* (rs, s2) := go_on call s1 cs' in Ok (o :: rs, s2)
    end
  end.

(** A client that stops at the first exception. *)
Fixpoint run {S C A} (call : C -> S -> outcome (A * S)) (s : S) (cs : list C) : outcome (list A * S) :=
  match cs with
  | [] => Ok ([], s)
  | c :: cs' =>
    let* (a, s1) := call c s in
    let* (l, s2) := run call s1 cs' in Ok (a :: l, s2)
  end.

(** The calls that returned, and what they returned. *)
Fixpoint returned {C A} (cs : list C) (rs : list (outcome A)) : list C :=
  match cs, rs with
  | c :: cs', Ok _ :: rs' => c :: returned cs' rs'
  | _ :: cs', _ :: rs' => returned cs' rs'
  | _, _ => []
  end.
Fixpoint results {A} (rs : list (outcome A)) : list A :=
  match rs with
  | [] => []
  | Ok a :: rs' => a :: results rs'
  | _ :: rs' => results rs'
  end.

(** The calls of a reader. *)
Inductive rcall : Type := CTrace | CHeader.
Inductive rresult : Type := RTrace (t : trace) | RHeader (h : hdr).
Definition rd_call (p : platform) (c : rcall) (s : isegy) : outcome (rresult * isegy) :=
  match c with
  | CTrace => let* (t, s1) := read_trace p s in Ok (RTrace t, s1)
  | CHeader => let* (h, s1) := read_header p s in Ok (RHeader h, s1)
  end.
Definition xrd_call (p : platform) (c : rcall) : R rresult :=
  match c with
  | CTrace => let! t := xread_trace p in xret (RTrace t)
  | CHeader => let! h := xread_header p in xret (RHeader h)
  end.

(** The calls of a sorted reader. *)
Inductive scall : Type := SNext (c : rcall) | STraces (v : value) (n : Z) | SHeaders (v : value) (n : Z).
Inductive sresult : Type := SOne (r : rresult) | SManyT (l : list trace) | SManyH (l : list hdr).
Definition srd_call (p : platform) (c : scall) (s : sorted) : outcome (sresult * sorted) :=
  match c with
  | SNext CTrace => let* (t, s1) := s_read_trace p s in Ok (SOne (RTrace t), s1)
  | SNext CHeader => let* (h, s1) := s_read_header p s in Ok (SOne (RHeader h), s1)
  | STraces v n => let* (l, s1) := get_traces p s v n in Ok (SManyT l, s1)
  | SHeaders v n => let* (l, s1) := get_headers p s v n in Ok (SManyH l, s1)
  end.
Definition xsrd_call (p : platform) (c : scall) : St xsorted sresult :=
  match c with
  | SNext CTrace => let! t := xs_read (xread_trace p) in xret (SOne (RTrace t))
  | SNext CHeader => let! h := xs_read (xread_header p) in xret (SOne (RHeader h))
  | STraces v n => let! l := xget_by (xread_trace p) v n in xret (SManyT l)
  | SHeaders v n => let! l := xget_by (xread_header p) v n in xret (SManyH l)
  end.

(** The readers right after their constructors. *)
Definition fresh (s : isegy) : reader := mkR s false.
Definition fresh_sorted (s : sorted) : xsorted := mkXS (fresh (s_base s)) (s_map s) (s_rest s).
