(** Vocabulary for the sorted reader (C31-C33). *)
From Coq Require Import Permutation Sorted.
From Verif Require Import Base Platform Fp TraceHdr SegyTypes ISegy Sorted1D.

(** The order of header values: integers by value, before all floating point
    numbers, which are ordered as C++ orders doubles. *)
Definition before (a b : value) : bool :=
  match a, b with
  | VInt x, VInt y => x <? y
  | VInt _, VDbl _ => true
  | VDbl _, VInt _ => false
  | VDbl x, VDbl y => d_lt x y
  end.
Definition same_key (a b : value) : bool := negb (before a b) && negb (before b a).

(** Not a NaN. *)
Definition number (v : value) : Prop := match v with VInt _ => True | VDbl d => d_is_nan d = false end.

(** The trace has the header [name], with a number in it. *)
Definition has_key (name : string) (t : trace) : Prop := exists v, hget (t_hdr t) name = Some v /\ number v.

(** The traces with a given key, in order. *)
Definition with_key (name : string) (v : value) (ts : list trace) : list trace :=
  filter (fun t => match hget (t_hdr t) name with Some x => same_key x v | None => false end) ts.

(** [out] is [ts] in non-decreasing order of the header [name], traces with
    equal keys in the order of [ts]. *)
Definition sorted_by (name : string) (ts out : list trace) : Prop :=
  Permutation ts out /\
  StronglySorted (fun a b => forall x y, hget (t_hdr a) name = Some x -> hget (t_hdr b) name = Some y ->
                                         before y x = false) out /\
  forall v, number v -> with_key name v out = with_key name v ts.

(** [ks] are the keys of [ts], increasing, each once. *)
Definition keys_of (name : string) (ts : list trace) (ks : list value) : Prop :=
  StronglySorted (fun a b => before a b = true) ks /\
  (forall k, In k ks -> exists t, In t ts /\ hget (t_hdr t) name = Some k) /\
  (forall t x, In t ts -> hget (t_hdr t) name = Some x -> exists k, In k ks /\ same_key x k = true).

(** The calls of a client. *)
Inductive call : Type :=
| CTrace | CHeader
| CTraces (v : value) (max_num : Z) | CHeaders (v : value) (max_num : Z)
| CKeys | CHas.
Inductive answer : Type :=
| ATrace (t : trace) | AHeader (h : hdr)
| ATraces (l : list trace) | AHeaders (l : list hdr)
| AKeys (l : list value) | AHas (b : bool).

Definition do_call (p : platform) (c : call) (s : sorted) : outcome (answer * sorted) :=
  match c with
  | CTrace => let* (t, s1) := s_read_trace p s in Ok (ATrace t, s1)
  | CHeader => let* (h, s1) := s_read_header p s in Ok (AHeader h, s1)
  | CTraces v n => let* (l, s1) := get_traces p s v n in Ok (ATraces l, s1)
  | CHeaders v n => let* (l, s1) := get_headers p s v n in Ok (AHeaders l, s1)
  | CKeys => Ok (AKeys (get_keys s), s)
  | CHas => Ok (AHas (s_has_trace s), s)
  end.
Fixpoint do_calls (p : platform) (cs : list call) (s : sorted) : outcome (list answer * sorted) :=
  match cs with
  | [] => Ok ([], s)
  | c :: cs' =>
    let* (a, s1) := do_call p c s in
    let* (l, s2) := do_calls p cs' s1 in
    Ok (a :: l, s2)
  end.

(** What the calls must answer for a file with the traces [ts], keys [ks] and
    [rest] still to be visited in sorted order; [None] when the program reads
    beyond the last trace. *)
Fixpoint answers (name : string) (ts : list trace) (ks : list value) (rest : list trace) (cs : list call)
  : option (list answer) :=
  match cs with
  | [] => Some []
  | CTrace :: cs' =>
    match rest with [] => None | t :: r => option_map (cons (ATrace t)) (answers name ts ks r cs') end
  | CHeader :: cs' =>
    match rest with [] => None | t :: r => option_map (cons (AHeader (t_hdr t))) (answers name ts ks r cs') end
  | CTraces v n :: cs' =>
    option_map (cons (ATraces (firstn (Z.to_nat n) (with_key name v ts)))) (answers name ts ks rest cs')
  | CHeaders v n :: cs' =>
    option_map (cons (AHeaders (map t_hdr (firstn (Z.to_nat n) (with_key name v ts))))) (answers name ts ks rest cs')
  | CKeys :: cs' => option_map (cons (AKeys ks)) (answers name ts ks rest cs')
  | CHas :: cs' => option_map (cons (AHas (match rest with [] => false | _ => true end))) (answers name ts ks rest cs')
  end.

(** The arguments a client may give: a number to search for and a count. *)
Definition good_call (c : call) : Prop :=
  match c with
  | CTraces v n | CHeaders v n => number v /\ 0 <= n
  | _ => True
  end.
