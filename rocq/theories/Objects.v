(** Trace, Trace::Header and Exception as C++ objects: a pointer to an
    implementation on the heap.  Models src/Trace.cpp:12-36, 59-125 and
    src/Exception.cpp.  References to a header are evaluated at the call that
    uses them; programs that keep one beyond the life of its trace are not
    modelled. *)
From Verif Require Import Base TraceHdr.

Definition var := nat.
Definition addr := nat.

(** What std::unordered_map and std::vector leave in the source of a move, from
    the old contents of the destination and of the source: the standard only
    says that it is valid. *)
Record moves : Type := mkMoves {
  left_map : hdr -> hdr -> hdr;
  left_vec : list Z -> list Z -> list Z
}.

(** Cells of the heap; a freed cell is [None].
    Trace.cpp:13-20 [Trace::Header::Impl] is a map,
    Trace.cpp:22-36 [Trace::Impl] is a Header (the address of its
    implementation) and the samples. *)
Record heap : Type := mkHeap {
  hcells : list (option hdr);
  tcells : list (option (addr * list Z))
}.

(** Named objects: the pimpl of a Header or of a Trace. *)
Inductive obj : Type := OHeader (a : addr) | OTrace (a : addr).
Record mem : Type := mkMem { m_heap : heap; m_env : list (var * obj) }.

Fixpoint env_get (e : list (var * obj)) (x : var) : option obj :=
  match e with
  | [] => None
  | (y, o) :: e' => if Nat.eqb x y then Some o else env_get e' x
  end.

Definition env_drop (e : list (var * obj)) (x : var) : list (var * obj) :=
  filter (fun b => negb (Nat.eqb x (fst b))) e.

(** Access through a pointer: a freed or unallocated cell is undefined. *)
Definition load {A} (l : list (option A)) (a : addr) : outcome A :=
  match nth_error l a with Some (Some v) => Ok v | _ => UB end.
Definition store {A} (l : list (option A)) (a : addr) (v : option A) : list (option A) :=
  firstn a l ++ v :: skipn (S a) l.

Definition ld_h (h : heap) (a : addr) : outcome hdr := load (hcells h) a.
Definition ld_t (h : heap) (a : addr) : outcome (addr * list Z) := load (tcells h) a.
Definition st_h (h : heap) (a : addr) (v : hdr) : heap := mkHeap (store (hcells h) a (Some v)) (tcells h).
Definition st_t (h : heap) (a : addr) (v : addr * list Z) : heap := mkHeap (hcells h) (store (tcells h) a (Some v)).
Definition free_h (h : heap) (a : addr) : heap := mkHeap (store (hcells h) a None) (tcells h).
Definition free_t (h : heap) (a : addr) : heap := mkHeap (hcells h) (store (tcells h) a None).

(** make_unique<Header::Impl>(map) *)
Definition new_h (h : heap) (v : hdr) : addr * heap :=
  (List.length (hcells h), mkHeap (hcells h ++ [Some v]) (tcells h)).
Definition new_t (h : heap) (v : addr * list Z) : addr * heap :=
  (List.length (tcells h), mkHeap (hcells h) (tcells h ++ [Some v])).

(** Trace.cpp:59-62 copy constructor of Header, from the pimpl [a]. *)
Definition header_copy (h : heap) (a : addr) : outcome (addr * heap) :=
  let* v := ld_h h a in Ok (new_h h v).

(** Trace.cpp:64-67 move constructor of Header: a new implementation takes the
    contents, the source keeps its own. *)
Definition header_move (m : moves) (h : heap) (a : addr) : outcome (addr * heap) :=
  let* v := ld_h h a in
  Ok (new_h (st_h h a (left_map m [] v)) v).

(** Trace.cpp:76-81 and 83-88: assignment; [same] is [&o == this]. *)
Definition header_assign (h : heap) (same : bool) (dst src : addr) : outcome heap :=
  if same then Ok h else
  let* v := ld_h h src in
  let* _ := ld_h h dst in
  Ok (st_h h dst v).
Definition header_move_assign (m : moves) (h : heap) (same : bool) (dst src : addr) : outcome heap :=
  if same then Ok h else
  let* v := ld_h h src in
  let* w := ld_h h dst in
  Ok (st_h (st_h h src (left_map m w v)) dst v).

(** Trace.cpp:24-28 [Impl(Header h, vector s)]: the parameter [h] (pimpl [a])
    is moved into the member and destroyed. *)
Definition trace_impl (m : moves) (h : heap) (a : addr) (smp : list Z) : outcome (addr * heap) :=
  let* (b, h1) := header_move m h a in
  Ok (new_t (free_h h1 a) (b, smp)).

(** Trace.cpp:90-93 copy constructor, 95-99 move constructor, 101-104 from a
    map and samples (the member is built from the map: Trace.cpp:29-33). *)
Definition trace_copy (m : moves) (h : heap) (a : addr) : outcome (addr * heap) :=
  let* (ha, smp) := ld_t h a in
  let* (tmp, h1) := header_copy h ha in
  trace_impl m h1 tmp smp.
Definition trace_move (m : moves) (h : heap) (a : addr) : outcome (addr * heap) :=
  let* (ha, smp) := ld_t h a in
  let* (tmp, h1) := header_move m h ha in
  trace_impl m (st_t h1 a (ha, left_vec m [] smp)) tmp smp.
Definition trace_new (h : heap) (v : hdr) (smp : list Z) : addr * heap :=
  let (b, h1) := new_h h v in new_t h1 (b, smp).

(** Trace.cpp:108-115 and 117-124: the inner Header objects of two different
    traces are different objects. *)
Definition trace_assign (h : heap) (same : bool) (dst src : addr) : outcome heap :=
  if same then Ok h else
  let* (ha, smp) := ld_t h src in
  let* (hb, _) := ld_t h dst in
  let* h1 := header_assign h false hb ha in
  Ok (st_t h1 dst (hb, smp)).
Definition trace_move_assign (m : moves) (h : heap) (same : bool) (dst src : addr) : outcome heap :=
  if same then Ok h else
  let* (ha, smp) := ld_t h src in
  let* (hb, old) := ld_t h dst in
  let* h1 := header_move_assign m h false hb ha in
  Ok (st_t (st_t h1 src (ha, left_vec m old smp)) dst (hb, smp)).

(** An expression of type Header&: a named header or [t.header()]
    (Trace.cpp:38). *)
Inductive href : Type := RVar (x : var) | ROf (x : var).
Definition href_eqb (a b : href) : bool :=
  match a, b with
  | RVar x, RVar y | ROf x, ROf y => Nat.eqb x y
  | _, _ => false
  end.

(** The statements of a program. *)
Inductive stmt : Type :=
| NewHeader (x : var) (v : hdr)
| CopyHeader (x : var) (r : href)
| MoveHeader (x : var) (r : href)
| AssignHeader (d s : href)
| MoveAssignHeader (d s : href)
| SetHeader (r : href) (k : string) (v : value)
| NewTrace (x : var) (v : hdr) (smp : list Z)
| CopyTrace (x y : var)
| MoveTrace (x y : var)
| AssignTrace (x y : var)
| MoveAssignTrace (x y : var)
| Destroy (x : var).

(** The pimpl of the header a reference denotes. *)
Definition resolve (s : mem) (r : href) : outcome addr :=
  match r with
  | RVar x => match env_get (m_env s) x with Some (OHeader a) => Ok a | _ => UB end
  | ROf x => match env_get (m_env s) x with
             | Some (OTrace a) => let* (ha, _) := ld_t (m_heap s) a in Ok ha
             | _ => UB
             end
  end.
Definition trace_of (s : mem) (x : var) : outcome addr :=
  match env_get (m_env s) x with Some (OTrace a) => Ok a | _ => UB end.

(** A new name; redeclaring a live one does not compile. *)
Definition declare (s : mem) (x : var) (h : heap) (o : obj) : outcome mem :=
  match env_get (m_env s) x with
  | Some _ => UB
  | None => Ok (mkMem h ((x, o) :: m_env s))
  end.
Definition with_heap (s : mem) (h : heap) : mem := mkMem h (m_env s).

Definition exec (m : moves) (s : mem) (c : stmt) : outcome mem :=
  let h := m_heap s in
  match c with
  | NewHeader x v => let (a, h1) := new_h h v in declare s x h1 (OHeader a)
  | CopyHeader x r =>
    let* a := resolve s r in
    let* (b, h1) := header_copy h a in declare s x h1 (OHeader b)
  | MoveHeader x r =>
    let* a := resolve s r in
    let* (b, h1) := header_move m h a in declare s x h1 (OHeader b)
  | AssignHeader d r =>
    let* a := resolve s d in
    let* b := resolve s r in
    let* h1 := header_assign h (href_eqb d r) a b in Ok (with_heap s h1)
  | MoveAssignHeader d r =>
    let* a := resolve s d in
    let* b := resolve s r in
    let* h1 := header_move_assign m h (href_eqb d r) a b in Ok (with_heap s h1)
  | SetHeader r k v =>
    let* a := resolve s r in
    let* w := ld_h h a in
    Ok (with_heap s (st_h h a (hset w k v)))
  | NewTrace x v smp => let (a, h1) := trace_new h v smp in declare s x h1 (OTrace a)
  | CopyTrace x y =>
    let* a := trace_of s y in
    let* (b, h1) := trace_copy m h a in declare s x h1 (OTrace b)
  | MoveTrace x y =>
    let* a := trace_of s y in
    let* (b, h1) := trace_move m h a in declare s x h1 (OTrace b)
  | AssignTrace x y =>
    let* a := trace_of s x in
    let* b := trace_of s y in
    let* h1 := trace_assign h (Nat.eqb x y) a b in Ok (with_heap s h1)
  | MoveAssignTrace x y =>
    let* a := trace_of s x in
    let* b := trace_of s y in
    let* h1 := trace_move_assign m h (Nat.eqb x y) a b in Ok (with_heap s h1)
  | Destroy x =>
    match env_get (m_env s) x with
    | None => UB
    | Some (OHeader a) =>
      let* _ := ld_h h a in
      Ok (mkMem (free_h h a) (env_drop (m_env s) x))
    | Some (OTrace a) =>
      (* the members of Trace::Impl go with it *)
      let* (ha, _) := ld_t h a in
      let* _ := ld_h h ha in
      Ok (mkMem (free_t (free_h h ha) a) (env_drop (m_env s) x))
    end
  end.

Fixpoint exec_all (m : moves) (s : mem) (cs : list stmt) : outcome mem :=
  match cs with
  | [] => Ok s
  | c :: cs' => let* s1 := exec m s c in exec_all m s1 cs'
  end.

Definition mem0 : mem := mkMem (mkHeap [] []) [].

(** What get, keys and samples show of a named object. *)
Definition view (s : mem) (x : var) : outcome (hdr * option (list Z)) :=
  match env_get (m_env s) x with
  | Some (OHeader a) => let* v := ld_h (m_heap s) a in Ok (v, None)
  | Some (OTrace a) =>
    let* (ha, smp) := ld_t (m_heap s) a in
    let* v := ld_h (m_heap s) ha in Ok (v, Some smp)
  | None => UB
  end.

(** ** Exceptions

    An object is its pimpl, null after a move (Exception.cpp:48-51). *)
Definition exc_obj : Type := option addr.

(** Decimal digits of an unsigned number ([operator<<]). *)
Fixpoint digits (fuel : nat) (n : Z) : list Z :=
  match fuel with
  | O => []
  | S f => (if n <? 10 then [] else digits f (n / 10)) ++ [48 + n mod 10]
  end.

(** Exception.cpp:31-38 [join_message]; strings are lists of characters. *)
Definition join_message (file_ : list Z) (line : Z) (msg : list Z) : list Z :=
  file_ ++ [32] ++ digits 20 line ++ [32] ++ msg.

(** Exception.cpp:52-61: construction. *)
Definition exc_new (h : list (option (list Z))) (file_ : list Z) (line : Z) (msg : list Z)
  : exc_obj * list (option (list Z)) :=
  (Some (List.length h), h ++ [Some (join_message file_ line msg)]).

(** Exception.cpp:44-47: copy.  The member pimpl is default constructed, hence
    null, and then dereferenced. *)
Definition exc_copy (h : list (option (list Z))) (src : exc_obj)
  : outcome (exc_obj * list (option (list Z))) :=
  let this : exc_obj := None in
  match this with
  | None => UB
  | Some a =>
    match src with
    | None => UB
    | Some b => let* m := load h b in Ok (this, store h a (Some m))
    end
  end.

(** Exception.cpp:48-51: move; returns the new object and the source. *)
Definition exc_move (src : exc_obj) : exc_obj * exc_obj := (src, None).

(** Exception.cpp:40-43 [what]. *)
Definition exc_what (h : list (option (list Z))) (e : exc_obj) : outcome (list Z) :=
  match e with None => UB | Some a => load h a end.
