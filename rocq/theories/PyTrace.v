(** Traces and trace headers as Python objects.  Models the classes [Trace] and
    [Trace.Header] of src/pybind/pybind.cpp:29-59 on top of Trace.cpp, together
    with the rules of CPython and pybind11 that decide when an object lives.

    A Python object has a reference count; it is destroyed when the count
    becomes 0, and then the C++ object it owns is deleted.  [Trace.header] has
    the policy [reference_internal]: the Python object it returns does not own
    the header inside the trace; it holds a reference to the Python object of
    the trace instead, taken when it is created and dropped when it is
    destroyed.  While such an object exists, [header] returns it again
    (pybind11 looks up the C++ address in its registered instances).  Access to
    a deleted C++ object is undefined behaviour, and so is deleting it twice.

    Simplifications: new C++ objects and new Python objects get fresh
    addresses; programs are sequences of statements over global names
    (functions, containers and cycles of references are left out); exceptions
    are caught after every statement; [int], [float], [str] and [bytes] have no
    subclasses here.  No proofs in this file. *)
From Coq Require Import String Ascii.
From Verif Require Import Base Platform Fp TraceHdr SegyTypes SegdTypes PyBind.
Local Open Scope string_scope.
Local Open Scope list_scope.
Local Open Scope Z_scope.

(** ** Arguments *)

(** An argument of type [std::string]: the UTF-8 bytes of a [str], or the bytes
    of a [bytes]. *)
Definition to_string (l : list Z) : string :=
  string_of_list_ascii (map (fun b => ascii_of_nat (Z.to_nat b)) l).
Definition of_string (s : string) : list Z :=
  map (fun c => Z.of_nat (nat_of_ascii c)) (list_ascii_of_string s).
Definition to_key (v : pyval) : option string := option_map to_string (as_string v).

(** An argument of type [variant<int64_t, double>] (Trace.hpp:41): first the
    alternatives without conversion, then with; only then a [double] takes an
    [int]. *)
Definition to_value (v : pyval) : option value :=
  match v with
  | PInt z =>
    if in_i 64 z then Some (VInt z)
    else if d_lt (d_abs (i2d z)) d_inf then Some (VDbl (i2d z)) else None
  | PFloat d => Some (VDbl d)
  | _ => None
  end.

(** An argument of type [unordered_map<string, Value>] from a [dict], given by
    its items in order: [emplace], which keeps what is there. *)
Fixpoint to_map (h : hdr) (items : list (pyval * pyval)) : option hdr :=
  match items with
  | [] => Some h
  | (k, v) :: r =>
    match to_key k, to_value v with
    | Some k, Some v => to_map (match hget h k with Some _ => h | None => h ++ [(k, v)] end) r
    | _, _ => None
    end
  end.

(** An argument of type [vector<double>] from a [list]. *)
Fixpoint to_doubles (l : list pyval) : option (list Z) :=
  match l with
  | [] => Some []
  | v :: r =>
    match as_member CD v, to_doubles r with
    | Some (BDbl d), Some ds => Some (d :: ds)
    | _, _ => None
    end
  end.

(** ** Memory *)

(** A C++ object: a [Trace::Header], or a [Trace] with its header and samples. *)
Definition cell : Type := hdr * option (list Z).

(** A Python object: the [Header] or the [Trace] at an address, which it owns,
    or the header inside the trace at an address, with the Python object of
    that trace. *)
Inductive okind : Type := OHeader (a : nat) | OTrace (a : nat) | OInner (owner a : nat).
Record pobj : Type := mkObj { o_refs : nat; o_kind : okind }.

(** [None]: deleted. *)
Record pst : Type := mkSt {
  s_cells : list (option cell);
  s_objs : list (option pobj);
  s_env : list (nat * nat)        (* global names and the objects they name *)
}.

Definition at_ {A} (l : list (option A)) (i : nat) : option A :=
  match nth_error l i with Some x => x | None => None end.
Fixpoint set_at {A} (l : list A) (i : nat) (x : A) : list A :=
  match l, i with
  | [], _ => []
  | _ :: r, O => x :: r
  | y :: r, S i' => y :: set_at r i' x
  end.

Definition with_objs (st : pst) (os : list (option pobj)) : pst := mkSt (s_cells st) os (s_env st).
Definition with_cells (st : pst) (cs : list (option cell)) : pst := mkSt cs (s_objs st) (s_env st).
Definition with_env (st : pst) (en : list (nat * nat)) : pst := mkSt (s_cells st) (s_objs st) en.

(** Py_INCREF.  [None] here and below: undefined behaviour. *)
Definition incref (st : pst) (o : nat) : option pst :=
  match at_ (s_objs st) o with
  | Some (mkObj n k) => Some (with_objs st (set_at (s_objs st) o (Some (mkObj (S n) k))))
  | None => None
  end.

(** [delete] of the C++ object at an address (Trace.cpp:72, 105 destructors). *)
Definition delete (st : pst) (a : nat) : option pst :=
  match at_ (s_cells st) a with
  | Some _ => Some (with_cells st (set_at (s_cells st) a None))
  | None => None
  end.

(** Py_DECREF.  Destroying the Python object of an inner header drops the
    reference to its trace, and the trace may follow; nothing else does, so two
    rounds are enough. *)
Fixpoint decref (fuel : nat) (st : pst) (o : nat) : option pst :=
  match fuel with
  | O => None
  | S f =>
    match at_ (s_objs st) o with
    | None => None
    | Some (mkObj n k) =>
      if (2 <=? n)%nat then Some (with_objs st (set_at (s_objs st) o (Some (mkObj (n - 1) k))))
      else
        let st' := with_objs st (set_at (s_objs st) o None) in
        match k with
        | OHeader a | OTrace a => delete st' a
        | OInner owner _ => decref f st' owner
        end
    end
  end.
Definition drop (st : pst) (o : nat) : option pst := decref 2 st o.

(** A new C++ object with the Python object that owns it. *)
Definition create (st : pst) (c : cell) : pst * nat :=
  let a := List.length (s_cells st) in
  let k := match snd c with None => OHeader a | Some _ => OTrace a end in
  (mkSt (s_cells st ++ [Some c]) (s_objs st ++ [Some (mkObj 1 k)]) (s_env st),
   List.length (s_objs st)).

(** The registered Python object of the header inside the trace at [a]. *)
Fixpoint find_inner (os : list (option pobj)) (a : nat) : option nat :=
  match os with
  | [] => None
  | x :: r =>
    let rest := option_map S (find_inner r a) in
    match x with
    | Some (mkObj _ (OInner _ a')) => if (a =? a')%nat then Some O else rest
    | _ => rest
    end
  end.

(** ** Expressions

    Evaluation gives a new reference or an exception, and the state; [None]:
    undefined behaviour. *)
Inductive expr : Type :=
| EVar (x : nat)
| EHeaderOf (e : expr)                                        (* e.header() *)
| ENewHeader (items : list (pyval * pyval))                    (* Trace.Header({...}) *)
| ENewTrace (items : list (pyval * pyval)) (smp : list pyval)  (* Trace({...}, [...]) *)
| ERead (t : trace).                                           (* a trace from a reader *)

Definition eres (A : Type) : Type := option (pst * (A + pyexn)).

Fixpoint lookup (en : list (nat * nat)) (x : nat) : option nat :=
  match en with
  | [] => None
  | (y, o) :: r => if (x =? y)%nat then Some o else lookup r x
  end.

(** A call with the object [o] as [self]; the reference to it is dropped when
    the call is over. *)
Definition call {A} (st : pst) (o : nat) (f : pst -> pobj -> eres A) : eres A :=
  match at_ (s_objs st) o with
  | None => None
  | Some ob =>
    match f st ob with
    | None => None
    | Some (st', r) => option_map (fun st'' => (st'', r)) (drop st' o)
    end
  end.

(** pybind.cpp:32-33 [header] of the Python object [o] *)
Definition m_header (o : nat) (st : pst) (ob : pobj) : eres nat :=
  match o_kind ob with
  | OTrace a =>
    match at_ (s_cells st) a with
    | None => None
    | Some _ =>
      match find_inner (s_objs st) a with
      | Some i => option_map (fun st' => (st', inl i)) (incref st i)
      | None =>
        match incref st o with
        | None => None
        | Some st' =>
          Some (with_objs st' (s_objs st' ++ [Some (mkObj 1 (OInner o a))]),
                inl (List.length (s_objs st')))
        end
      end
    end
  | _ => Some (st, inr AttributeError)
  end.

Fixpoint eval (st : pst) (e : expr) : eres nat :=
  match e with
  | EVar x =>
    match lookup (s_env st) x with
    | Some o => option_map (fun st' => (st', inl o)) (incref st o)
    | None => Some (st, inr NameError)
    end
  | EHeaderOf e =>
    match eval st e with
    | Some (st', inl o) => call st' o (m_header o)
    | r => r
    end
  | ENewHeader items =>
    match to_map [] items with
    | Some h => let (st', o) := create st (h, None) in Some (st', inl o)
    | None => Some (st, inr TypeError)
    end
  | ENewTrace items smp =>
    match to_map [] items, to_doubles smp with
    | Some h, Some s => let (st', o) := create st (h, Some s) in Some (st', inl o)
    | _, _ => Some (st, inr TypeError)
    end
  | ERead t => let (st', o) := create st (t_hdr t, Some (t_smp t)) in Some (st', inl o)
  end.

(** ** Statements *)
Inductive pstmt : Type :=
| Assign (x : nat) (e : expr)          (* x = e *)
| Del (x : nat)                        (* del x *)
| SetItem (e : expr) (k v : pyval)     (* e.set(k, v) *)
| GetItem (e : expr) (k : pyval)       (* e.get(k) *)
| Keys (e : expr)                      (* e.keys() *)
| Samples (e : expr)                   (* e.samples() *)
| Write (e : expr)                     (* writer.write_trace(e) *)
| Is (e1 e2 : expr).                   (* e1 is e2 *)

(** What a statement shows: nothing, a value or [None], keys, samples, the
    trace a writer is given, a truth value, or an exception. *)
Inductive pyout : Type :=
| ONothing | OValue (v : option value) | OKeys (l : list (list Z)) | OSamples (l : list Z)
| OWritten (t : trace) | OBool (b : bool) | ORaised (e : pyexn).

(** The C++ header an object refers to: its address, and the contents. *)
Definition hdr_of (st : pst) (ob : pobj) : option (nat * option cell) :=
  match o_kind ob with
  | OHeader a | OInner _ a => Some (a, at_ (s_cells st) a)
  | OTrace _ => None
  end.

(** Trace.cpp:42-47; pybind.cpp:54-58 *)
Definition m_set (k v : pyval) (st : pst) (ob : pobj) : eres pyout :=
  match hdr_of st ob with
  | None => Some (st, inr AttributeError)
  | Some (a, c) =>
    match to_key k, to_value v with
    | Some k, Some v =>
      match c with
      | None => None
      | Some (h, s) => Some (with_cells st (set_at (s_cells st) a (Some (hset h k v, s))), inl ONothing)
      end
    | _, _ => Some (st, inr TypeError)
    end
  end.
Definition m_get (k : pyval) (st : pst) (ob : pobj) : eres pyout :=
  match hdr_of st ob with
  | None => Some (st, inr AttributeError)
  | Some (_, c) =>
    match to_key k with
    | Some k => match c with None => None | Some (h, _) => Some (st, inl (OValue (hget h k))) end
    | None => Some (st, inr TypeError)
    end
  end.

(** Trace.cpp:49-57; pybind.cpp:59.  Every key becomes a [str]. *)
Fixpoint decode_keys (l : list string) : option (list (list Z)) :=
  match l with
  | [] => Some []
  | k :: r =>
    match utf8_dec (of_string k), decode_keys r with Some u, Some us => Some (u :: us) | _, _ => None end
  end.
Definition m_keys (st : pst) (ob : pobj) : eres pyout :=
  match hdr_of st ob with
  | None => Some (st, inr AttributeError)
  | Some (_, None) => None
  | Some (_, Some (h, _)) =>
    Some (st, match decode_keys (hkeys h) with Some l => inl (OKeys l) | None => inr UnicodeDecodeError end)
  end.

(** Trace.cpp:40; pybind.cpp:34.  A new list. *)
Definition m_samples (st : pst) (ob : pobj) : eres pyout :=
  match o_kind ob with
  | OTrace a =>
    match at_ (s_cells st) a with
    | Some (_, Some s) => Some (st, inl (OSamples s))
    | _ => None
    end
  | _ => Some (st, inr AttributeError)
  end.

(** pybind.cpp:243-244, 1220 [write_trace] takes a reference to the trace and
    only reads it (OSEGYRev0.cpp:63-97, OSEGDRev2_1.cpp:75-83); shown is the
    trace the writer is given. *)
Definition m_write (st : pst) (ob : pobj) : eres pyout :=
  match o_kind ob with
  | OTrace a =>
    match at_ (s_cells st) a with
    | Some (h, Some s) => Some (st, inl (OWritten (mkTrace h s)))
    | _ => None
    end
  | _ => Some (st, inr TypeError)
  end.

Definition on {A} (m : eres nat) (f : pst -> nat -> eres A) : eres A :=
  match m with
  | None => None
  | Some (st, inr e) => Some (st, inr e)
  | Some (st, inl o) => f st o
  end.

(** Binding a name: the new reference is stored before the old one is dropped. *)
Fixpoint bind_name (en : list (nat * nat)) (x o : nat) : list (nat * nat) :=
  match en with
  | [] => [(x, o)]
  | (y, o') :: r => if (x =? y)%nat then (x, o) :: r else (y, o') :: bind_name r x o
  end.
Fixpoint unbind_name (en : list (nat * nat)) (x : nat) : list (nat * nat) :=
  match en with
  | [] => []
  | (y, o) :: r => if (x =? y)%nat then r else (y, o) :: unbind_name r x
  end.

Definition exec (st : pst) (s : pstmt) : eres pyout :=
  match s with
  | Assign x e =>
    on (eval st e) (fun st o =>
      let st' := with_env st (bind_name (s_env st) x o) in
      match lookup (s_env st) x with
      | None => Some (st', inl ONothing)
      | Some old => option_map (fun st'' => (st'', inl ONothing)) (drop st' old)
      end)
  | Del x =>
    match lookup (s_env st) x with
    | None => Some (st, inr NameError)
    | Some o =>
      option_map (fun st' => (st', inl ONothing)) (drop (with_env st (unbind_name (s_env st) x)) o)
    end
  | SetItem e k v => on (eval st e) (fun st o => call st o (m_set k v))
  | GetItem e k => on (eval st e) (fun st o => call st o (m_get k))
  | Keys e => on (eval st e) (fun st o => call st o m_keys)
  | Samples e => on (eval st e) (fun st o => call st o m_samples)
  | Write e => on (eval st e) (fun st o => call st o m_write)
  | Is e1 e2 =>
    on (eval st e1) (fun st o1 =>
      match eval st e2 with
      | None => None
      | Some (st, inr e) => option_map (fun st' => (st', inr e)) (drop st o1)
      | Some (st, inl o2) =>
        match drop st o1 with
        | None => None
        | Some st => option_map (fun st' => (st', inl (OBool (o1 =? o2)%nat))) (drop st o2)
        end
      end)
  end.

(** A program; exceptions are caught after each statement. *)
Definition shown (r : pyout + pyexn) : pyout := match r with inl o => o | inr e => ORaised e end.
Fixpoint run (st : pst) (l : list pstmt) : option (list pyout * pst) :=
  match l with
  | [] => Some ([], st)
  | s :: r =>
    match exec st s with
    | None => None
    | Some (st', o) => option_map (fun '(os, st'') => (shown o :: os, st'')) (run st' r)
    end
  end.
Definition start : pst := mkSt [] [] [].
