(** Writers in the Python module, and a Python program that copies a SEG-Y
    file.  Models src/pybind/pybind.cpp:72-73, 164-178, 246-275 and 1220-1230.

    Rules of pybind11 used here (part of the trusted base): an argument of type
    [vector<pair<string, map<uint32_t, pair<string, ValueType>>>>] is a list of
    pairs of a name and a [dict]; each item of the dict is converted and then
    put into the map with [emplace], which keeps an entry that is there; a
    [uint32_t] takes an [int] in range and nothing else; a [ValueType] takes an
    object of the enum.  When some part does not fit, no constructor matches and
    the call is a [TypeError].  [def_readonly_static] of a value of that type
    gives the list of pairs, with the names as [str].

    Simplifications: a pair is a Python tuple of two objects (other sequences
    and wrong lengths are left out); names and keys are the values of PyBind.v.
    No proofs in this file. *)
From Coq Require Import String.
From Verif Require Import Base Platform TraceHdr SegyTypes SegdTypes ISegy OSegy OSegd FileSpec PyBind PyTrace.
Local Open Scope string_scope.
Local Open Scope list_scope.
Local Open Scope Z_scope.

(** ** Layouts as arguments *)

(** The items of a [dict] in the order of their insertion; a value is a name and
    a member of the enum ([None]: any other object). *)
Definition pydict : Type := list (pyval * (pyval * option vtype)).
Definition pylayouts : Type := list (pyval * pydict).

(** [std::map::emplace] *)
Fixpoint emplace (l : layout) (e : entry) : layout :=
  match l with
  | [] => [e]
  | x :: l' =>
    if e_off e <? e_off x then e :: l
    else if e_off e =? e_off x then l
    else x :: emplace l' e
  end.

Definition to_entry (i : pyval * (pyval * option vtype)) : option entry :=
  match i with
  | (PInt k, (n, Some t)) =>
    if in_u 32 k then option_map (fun s => (k, (s, t))) (to_key n) else None
  | _ => None
  end.
Fixpoint to_layout (l : layout) (d : pydict) : option layout :=
  match d with
  | [] => Some l
  | i :: d' => match to_entry i with Some e => to_layout (emplace l e) d' | None => None end
  end.
Fixpoint to_layouts (a : pylayouts) : option layouts :=
  match a with
  | [] => Some []
  | (n, d) :: a' =>
    match to_key n, to_layout [] d, to_layouts a' with
    | Some s, Some l, Some ls => Some ((s, l) :: ls)
    | _, _, _ => None
    end
  end.

(** ** Layouts as results (pybind.cpp:72-73) *)
Definition py_name (s : string) : pyres pyval :=
  match utf8_dec (of_string s) with Some u => Ret (PStr u) | None => Raise UnicodeDecodeError end.
Fixpoint py_layout (l : layout) : pyres pydict :=
  match l with
  | [] => Ret []
  | (k, (s, t)) :: l' =>
    match py_name s with
    | Ret n => match py_layout l' with Ret d => Ret ((PInt k, (n, Some t)) :: d) | Raise e => Raise e | PyUB => PyUB end
    | Raise e => Raise e
    | PyUB => PyUB
    end
  end.
Fixpoint py_layouts (ls : layouts) : pyres pylayouts :=
  match ls with
  | [] => Ret []
  | (s, l) :: ls' =>
    match py_name s with
    | Ret n =>
      match py_layout l with
      | Ret d => match py_layouts ls' with Ret a => Ret ((n, d) :: a) | Raise e => Raise e | PyUB => PyUB end
      | Raise e => Raise e
      | PyUB => PyUB
      end
    | Raise e => Raise e
    | PyUB => PyUB
    end
  end.

(** ** The writers of SEG-Y files (pybind.cpp:246-275) *)

(** An argument of type [vector<string>] *)
Fixpoint to_strings (l : list pyval) : option (list (list Z)) :=
  match l with
  | [] => Some []
  | v :: l' => match as_string v, to_strings l' with Some s, Some r => Some (s :: r) | _, _ => None end
  end.

Inductive pywriter : Type :=
| PW0 (text : pyval) | PW1 (texts : list pyval) | PW2 (texts stanzas : list pyval).
Definition to_writer (w : pywriter) : option writer :=
  match w with
  | PW0 t => option_map W0 (as_string t)
  | PW1 ts => option_map W1 (to_strings ts)
  | PW2 ts st => match to_strings ts, to_strings st with Some a, Some b => Some (W2 a b) | _, _ => None end
  end.
Definition py_open (p : platform) (w : pywriter) (b : bin_hdr) (a : pylayouts) : pyres osegy :=
  match to_writer w, to_layouts a with
  | Some w, Some ls => from_cpp (w_open p w b ls)
  | _, _ => Raise TypeError
  end.

(** [del w]: OSEGYRev2.cpp:169-174; the other destructors close the file. *)
Definition py_del (w : pywriter) (o : osegy) : pyres (list Z) :=
  match w with
  | PW2 _ _ => match rev2_close o with Ok f => Ret (fdata f) | Throw _ => PyUB | UB => PyUB end
  | _ => Ret (fdata (o_file o))
  end.

(** ** A program that copies a file
<<
    r = ISEGY(a, tr_hdr_map=m)
    h = r.binary_header(); x = r.text_headers()
    if   h.SEGY_rev_major_ver == 0: w = OSEGYRev0(b, x[0] if x else "", h, m)
    elif h.SEGY_rev_major_ver == 1: w = OSEGYRev1(b, x, h, m)
    else:                           w = OSEGYRev2(b, x, h, [], m)
    for t in r: w.write_trace(t)
    del w
>>
    The content of the new file at the end; [Raise (FromCpp ELoop)]: the loop
    has not ended after [fuel] rounds. *)
Definition py_reader (p : platform) (content : list Z) (a : pylayouts) : pyres isegy :=
  match to_layouts a with Some ls => from_cpp (isegy_open p content ls) | None => Raise TypeError end.
Definition py_choice (s : isegy) : pywriter :=
  match bh_SEGY_rev_major_ver (i_bh s) with
  | 0 => PW0 (hd (PStr []) (py_text_headers s))
  | 1 => PW1 (py_text_headers s)
  | _ => PW2 (py_text_headers s) []
  end.
Fixpoint py_write_all (p : platform) (fuel : nat) (s : isegy) (o : osegy) : pyres osegy :=
  match next_segy p s with
  | Raise StopIteration => Ret o
  | Raise e => Raise e
  | PyUB => PyUB
  | Ret (t, s1) =>
    match fuel with
    | O => Raise (FromCpp ELoop)
    | S k =>
      match from_cpp (write_trace p o t) with
      | Ret o1 => py_write_all p k s1 o1
      | Raise e => Raise e
      | PyUB => PyUB
      end
    end
  end.
Definition py_copy (p : platform) (content : list Z) (a : pylayouts) (fuel : nat) : pyres (list Z) :=
  match py_reader p content a with
  | Raise e => Raise e
  | PyUB => PyUB
  | Ret s =>
    match py_open p (py_choice s) (i_bh s) a with
    | Raise e => Raise e
    | PyUB => PyUB
    | Ret o =>
      match py_write_all p fuel s o with
      | Raise e => Raise e
      | PyUB => PyUB
      | Ret o1 => py_del (py_choice s) o1
      end
    end
  end.

(** ** The writer of SEG-D files (pybind.cpp:1222-1230) *)

(** The constructor takes no extended header, no external header, no layouts of
    trace header extensions (the C++ defaults: empty) and
    [vector<shared_ptr<AdditionalGeneralHeader>>].  The class of these headers
    is registered without a holder type (pybind.cpp:385-386), so loading any
    element of that vector throws pybind11's [cast_error] before the
    constructor is called; Python sees a [RuntimeError]. *)
Inductive called (A : Type) : Type := Called (r : pyres A) | CastError.
Arguments Called {A}. Arguments CastError {A}.
Definition py_osegd (p : platform) (g1 : gh1) (g2 : gh2) (sets : list (list chset)) (blocks : list addblk)
  : called osegd :=
  match blocks with
  | [] => Called (from_cpp (osegd_open p g1 g2 sets [] [] [] []))
  | _ :: _ => CastError
  end.
