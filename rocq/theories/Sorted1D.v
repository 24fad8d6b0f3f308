(** The sorted SEG-Y reader.  Models src/ISEGYSorted1D.cpp. *)
From Verif Require Import Base Platform Fp TraceHdr SegyTypes SegyCodec ISegy.

(** [operator<] of variant<int64_t, double>: the alternative index first. *)
Definition vlt (a b : value) : bool :=
  match a, b with
  | VInt x, VInt y => x <? y
  | VInt _, VDbl _ => true
  | VDbl _, VInt _ => false
  | VDbl x, VDbl y => d_lt x y
  end.

(** A NaN key violates the strict weak ordering std::map requires of its
    comparison: undefined. *)
Definition key_ok (v : value) : bool :=
  match v with VInt _ => true | VDbl d => negb (d_is_nan d) end.

(** map<Value, vector<streampos>> in key order. *)
Definition kmap : Type := list (value * list Z).

(** [trc_map[v].push_back(pos)], ISEGYSorted1D.cpp:33 *)
Fixpoint kadd (m : kmap) (v : value) (pos : Z) : kmap :=
  match m with
  | [] => [(v, [pos])]
  | (k, ps) :: m' =>
    if vlt k v then (k, ps) :: kadd m' v pos
    else if vlt v k then (v, [pos]) :: m
    else (k, ps ++ [pos]) :: m'
  end.

(** [trc_map.find(v)] *)
Fixpoint kfind (m : kmap) (v : value) : option (list Z) :=
  match m with
  | [] => None
  | (k, ps) :: m' =>
    if vlt k v then kfind m' v
    else if vlt v k then None
    else Some ps
  end.

(** ISEGYSorted1D.cpp:27-34: the scan of the whole file. *)
Fixpoint scan (p : platform) (fuel : nat) (name : string) (s : isegy) (m : kmap)
  : outcome (kmap * isegy) :=
  if has_trace s then
    match fuel with
    | O => Throw ELoop
    | S k =>
      let pos := fpos (i_file s) in
      let* (h, s1) := read_header p s in
      match hget h name with
      | None => Throw ESedaman
      | Some v =>
        if key_ok v then scan p k name s1 (kadd m v pos) else UB
      end
    end
  else Ok (m, s).

(** ISEGYSorted1D.cpp:14-24.  The pair of iterators (map_cur, vec_cur) is the
    list of what they have still to visit. *)
Record sorted : Type := mkS {
  s_base : isegy;
  s_map : kmap;
  s_rest : kmap
}.

(** ISEGYSorted1D.cpp:26-40: [map_cur->second] of an empty map is undefined. *)
Definition sorted_open (p : platform) (fuel : nat) (name : string) (s : isegy)
  : outcome sorted :=
  let* (m, s1) := scan p fuel name s [] in
  match m with
  | [] => UB
  | _ => Ok (mkS s1 m m)
  end.

(** ISEGYSorted1D.cpp:42 *)
Definition s_has_trace (s : sorted) : bool :=
  match s_rest s with [] => false | _ => true end.

(** [file.seekg(pos)] on the shared file. *)
Definition seek_base (s : isegy) (pos : Z) : outcome isegy :=
  let* f := fseek pos (i_file s) in
  Ok (mkI f (i_bh s) (i_maps s) (i_text s) (i_stanzas s) (i_endian s) (i_bps s)
          (i_spt s) (i_bufsz s) (i_first s) (i_cur s) (i_eod s)).

(** ISEGYSorted1D.cpp:47-54, 61-68 *)
Definition advance (r : kmap) : kmap :=
  match r with
  | (k, _ :: ((_ :: _) as ps)) :: m => (k, ps) :: m
  | (_, [_]) :: m => m
  | _ => []
  end.

(** ISEGYSorted1D.cpp:58-70 [read_trace] and 44-56 [read_header]; reading past
    the last trace dereferences an end iterator. *)
Definition s_read {A} (rd : isegy -> outcome (A * isegy)) (s : sorted)
  : outcome (A * sorted) :=
  match s_rest s with
  | (_, pos :: _) :: _ =>
    let* b := seek_base (s_base s) pos in
    let* (a, b1) := rd b in
    Ok (a, mkS b1 (s_map s) (advance (s_rest s)))
  | _ => UB
  end.
Definition s_read_trace (p : platform) := s_read (read_trace p).
Definition s_read_header (p : platform) := s_read (read_header p).

(** ISEGYSorted1D.cpp:72-81 *)
Definition get_keys (s : sorted) : list value := map fst (s_map s).

(** ISEGYSorted1D.cpp:89-95, 106-112: visit at most [max_num] positions. *)
Fixpoint read_at {A} (rd : isegy -> outcome (A * isegy)) (ps : list Z)
         (max_num : Z) (b : isegy) : outcome (list A * isegy) :=
  match ps with
  | [] => Ok ([], b)
  | pos :: ps' =>
    if max_num =? 0 then Ok ([], b)
    else
      let* b1 := seek_base b pos in
      let* (a, b2) := rd b1 in
      let* (l, b3) := read_at rd ps' (max_num - 1) b2 in
      Ok (a :: l, b3)
  end.

(** ISEGYSorted1D.cpp:83-98 and 100-115 *)
Definition get_by {A} (rd : isegy -> outcome (A * isegy)) (s : sorted)
           (v : value) (max_num : Z) : outcome (list A * sorted) :=
  match kfind (s_map s) v with
  | None => Ok ([], s)
  | Some ps =>
    let* (l, b) := read_at rd ps max_num (s_base s) in
    Ok (l, mkS b (s_map s) (s_rest s))
  end.
Definition get_traces (p : platform) := get_by (read_trace p).
Definition get_headers (p : platform) := get_by (read_header p).

(** The client loop [while (s.has_trace()) v.push_back(s.read_trace())]. *)
Fixpoint s_read_all (p : platform) (fuel : nat) (s : sorted)
  : outcome (list trace * sorted) :=
  if s_has_trace s then
    match fuel with
    | O => Throw ELoop
    | S k =>
      let* (t, s1) := s_read_trace p s in
      let* (ts, s2) := s_read_all p k s1 in
      Ok (t :: ts, s2)
    end
  else Ok ([], s).
