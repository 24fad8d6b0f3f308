(** Trace headers and traces as values.  Models include/Trace.hpp and
    src/Trace.cpp:12-57. *)
From Verif Require Import Base.

(** Trace.hpp:41 [Header::Value = variant<int64_t, double>]. *)
Inductive value : Type :=
| VInt (z : Z)      (* int64_t *)
| VDbl (d : Z).     (* double, as a bit pattern *)

(** [std::get<int64_t>(v)]. *)
Definition get_int (v : value) : outcome Z :=
  match v with VInt z => Ok z | VDbl _ => Throw EVariant end.

(** unordered_map<string, Value>.  The iteration order of an unordered_map is
    unspecified; the model keeps insertion order and no theorem depends on
    it. *)
Definition hdr : Type := list (string * value).

(** Trace.cpp:42-46 [Header::get] *)
Fixpoint hget (h : hdr) (k : string) : option value :=
  match h with
  | [] => None
  | (k', v) :: h' => if String.eqb k k' then Some v else hget h' k
  end.

(** Trace.cpp:47 [Header::set]: [d_hdr[key] = v]. *)
Fixpoint hset (h : hdr) (k : string) (v : value) : hdr :=
  match h with
  | [] => [(k, v)]
  | (k', v') :: h' =>
    if String.eqb k k' then (k', v) :: h' else (k', v') :: hset h' k v
  end.

(** Trace.cpp:49-57 [Header::keys] *)
Definition hkeys (h : hdr) : list string := map fst h.

(** [Value v = hdr[key]]: a missing key is inserted with int64 0
    (ISEGY.cpp:517, 537). *)
Definition hidx (h : hdr) (k : string) : value * hdr :=
  match hget h k with
  | Some v => (v, h)
  | None => (VInt 0, hset h k (VInt 0))
  end.

(** src/Trace.cpp:22-36 [Trace::Impl]; samples are doubles (bit patterns). *)
Record trace : Type := mkTrace { t_hdr : hdr; t_smp : list Z }.
