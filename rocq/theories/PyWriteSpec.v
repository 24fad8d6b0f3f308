(** Specification for C103 and C104: what a list of dicts says about trace
    headers; announced blocks. *)
From Coq Require Import String Sorted.
From Verif Require Import Base TraceHdr SegyTypes PyBind PySpec PyTrace PyDictSpec PyWrite.
Local Open Scope list_scope.
Local Open Scope Z_scope.

(** Objects that exist: code points of a [str], bytes of [bytes]. *)
Definition exists_val (v : pyval) : Prop :=
  match v with PStr u => Forall (fun c => 0 <= c < 0x110000) u | PBytes b => bytes b | _ => True end.

(** The keys of a [dict] are distinct. *)
Definition is_arg (a : pylayouts) : Prop :=
  Forall (fun x => exists_val (fst x) /\ NoDup (map fst (snd x)) /\
                   Forall (fun i => exists_val (fst (snd i))) (snd x)) a.

(** The item [position: (name, type)] of a dict, as an entry of a layout. *)
Definition item_is (i : pyval * (pyval * option vtype)) (e : entry) : Prop :=
  fst i = PInt (e_off e) /\ 0 <= e_off e < 2 ^ 32 /\
  (exists b, key_text (fst (snd i)) b /\ e_name e = to_string b) /\
  snd (snd i) = Some (e_type e).

(** The layout of a dict: its items, ordered by position. *)
Definition dict_is (d : pydict) (l : layout) : Prop :=
  (forall i, In i d -> exists e, item_is i e /\ In e l) /\
  (forall e, In e l -> exists i, In i d /\ item_is i e) /\
  StronglySorted (fun x y => e_off x < e_off y) l.

(** The layouts of a list: in the same order, with the same names. *)
Definition layouts_are (a : pylayouts) (ls : layouts) : Prop :=
  Forall2 (fun x y => (exists b, key_text (fst x) b /\ fst y = to_string b) /\ dict_is (snd x) (snd y)) a ls.

(** A number of header blocks in general header 1, or 165 (FF) there and the
    number in general header 2. *)
Definition announces (c1 c2 : Z) : Prop :=
  0 < (if c1 =? 165 then c2 else c1) < 2 ^ 32.
