(** Specification for C91: headers and traces never die, names refer to them.
    An object is its number; the header inside a trace is the pair of the
    number of the trace and [true]. *)
From Coq Require Import String.
From Verif Require Import Base TraceHdr SegyTypes PyBind PyTrace.
Local Open Scope string_scope.
Local Open Scope list_scope.

Definition ref : Type := nat * bool.
Definition store : Type := list (hdr * option (list Z)).
Definition names : Type := nat -> option ref.
Definition refer (E : names) (x : nat) (r : option ref) : names := fun y => if Nat.eqb x y then r else E y.

(** A reference is to a trace. *)
Definition is_trace (M : store) (r : ref) : bool :=
  match nth_error M (fst r) with Some (_, Some _) => negb (snd r) | _ => false end.
Definition replace (M : store) (i : nat) (h : hdr) : store :=
  firstn i M ++ match nth_error M i with Some (_, s) => [(h, s)] | None => [] end ++ skipn (S i) M.

Fixpoint meval (M : store) (E : names) (e : expr) : store * (ref + pyexn) :=
  match e with
  | EVar x => (M, match E x with Some r => inl r | None => inr NameError end)
  | EHeaderOf e =>
    match meval M E e with
    | (M', inl r) => (M', if is_trace M' r then inl (fst r, true) else inr AttributeError)
    | r => r
    end
  | ENewHeader items =>
    match to_map [] items with
    | Some h => (M ++ [(h, None)], inl (List.length M, false))
    | None => (M, inr TypeError)
    end
  | ENewTrace items smp =>
    match to_map [] items, to_doubles smp with
    | Some h, Some s => (M ++ [(h, Some s)], inl (List.length M, false))
    | _, _ => (M, inr TypeError)
    end
  | ERead t => (M ++ [(t_hdr t, Some (t_smp t))], inl (List.length M, false))
  end.

(** [e.f(...)] for a header method: what it shows and what the header becomes. *)
Definition on_header (M : store) (E : names) (e : expr) (f : hdr -> hdr * pyout) : store * pyout :=
  match meval M E e with
  | (M', inr x) => (M', ORaised x)
  | (M', inl r) =>
    match nth_error M' (fst r) with
    | Some (h, _) =>
      if is_trace M' r then (M', ORaised AttributeError)
      else (replace M' (fst r) (fst (f h)), snd (f h))
    | None => (M', ORaised AttributeError)
    end
  end.
Definition on_trace (M : store) (E : names) (e : expr) (other : pyexn) (f : trace -> pyout) : store * pyout :=
  match meval M E e with
  | (M', inr x) => (M', ORaised x)
  | (M', inl r) =>
    match nth_error M' (fst r), snd r with
    | Some (h, Some s), false => (M', f (mkTrace h s))
    | _, _ => (M', ORaised other)
    end
  end.

Definition mexec (M : store) (E : names) (s : pstmt) : store * names * pyout :=
  match s with
  | Assign x e =>
    match meval M E e with
    | (M', inl r) => (M', refer E x (Some r), ONothing)
    | (M', inr ex) => (M', E, ORaised ex)
    end
  | Del x =>
    match E x with
    | Some _ => (M, refer E x None, ONothing)
    | None => (M, E, ORaised NameError)
    end
  | SetItem e k v =>
    let (M', o) := on_header M E e (fun h =>
      match to_key k, to_value v with
      | Some k, Some v => (hset h k v, ONothing)
      | _, _ => (h, ORaised TypeError)
      end) in (M', E, o)
  | GetItem e k =>
    let (M', o) := on_header M E e (fun h =>
      (h, match to_key k with Some k => OValue (hget h k) | None => ORaised TypeError end)) in (M', E, o)
  | Keys e =>
    let (M', o) := on_header M E e (fun h =>
      (h, match decode_keys (hkeys h) with Some l => OKeys l | None => ORaised UnicodeDecodeError end)) in
    (M', E, o)
  | Samples e =>
    let (M', o) := on_trace M E e AttributeError (fun t => OSamples (t_smp t)) in (M', E, o)
  | Write e =>
    let (M', o) := on_trace M E e TypeError OWritten in (M', E, o)
  | Is e1 e2 =>
    match meval M E e1 with
    | (M1, inr ex) => (M1, E, ORaised ex)
    | (M1, inl r1) =>
      match meval M1 E e2 with
      | (M2, inr ex) => (M2, E, ORaised ex)
      | (M2, inl r2) => (M2, E, OBool (Nat.eqb (fst r1) (fst r2) && Bool.eqb (snd r1) (snd r2)))
      end
    end
  end.

Fixpoint mrun (M : store) (E : names) (l : list pstmt) : list pyout * store * names :=
  match l with
  | [] => ([], M, E)
  | s :: r =>
    let '(M', E', o) := mexec M E s in
    let '(os, M'', E'') := mrun M' E' r in
    (o :: os, M'', E'')
  end.
