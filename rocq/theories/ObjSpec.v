(** Specification for C35: objects as plain values, nothing shared. *)
From Verif Require Import Base TraceHdr Objects.

(** The value of an object: header contents, and samples if it is a trace. *)
Definition val : Type := hdr * option (list Z).
Definition vstore : Type := var -> option val.
Definition vset (st : vstore) (x : var) (v : option val) : vstore := fun y => if Nat.eqb x y then v else st y.

(** The header a reference denotes, and replacing it. *)
Definition vhdr (st : vstore) (r : href) : option hdr :=
  match r with
  | RVar x => match st x with Some (h, None) => Some h | _ => None end
  | ROf x => match st x with Some (h, Some _) => Some h | _ => None end
  end.
Definition rname (r : href) : var := match r with RVar x => x | ROf x => x end.
Definition vput (st : vstore) (r : href) (h : hdr) : vstore :=
  match st (rname r) with
  | Some (_, s) => vset st (rname r) (Some (h, s))
  | None => st
  end.
Definition vdecl (st : vstore) (x : var) (v : val) : option vstore :=
  match st x with None => Some (vset st x (Some v)) | Some _ => None end.

(** The effect of a statement; [None] for a program that does not compile. *)
Definition vstep (m : moves) (st : vstore) (c : stmt) : option vstore :=
  match c with
  | NewHeader x v => vdecl st x (v, None)
  | CopyHeader x r => match vhdr st r with Some v => vdecl st x (v, None) | None => None end
  | MoveHeader x r =>
    match vhdr st r with Some v => vdecl (vput st r (left_map m [] v)) x (v, None) | None => None end
  | AssignHeader d r =>
    match vhdr st d, vhdr st r with Some _, Some v => Some (vput st d v) | _, _ => None end
  | MoveAssignHeader d r =>
    match vhdr st d, vhdr st r with
    | Some w, Some v => if href_eqb d r then Some st else Some (vput (vput st r (left_map m w v)) d v)
    | _, _ => None
    end
  | SetHeader r k v => match vhdr st r with Some w => Some (vput st r (hset w k v)) | None => None end
  | NewTrace x v smp => vdecl st x (v, Some smp)
  | CopyTrace x y => match st y with Some (v, Some smp) => vdecl st x (v, Some smp) | _ => None end
  | MoveTrace x y =>
    match st y with
    | Some (v, Some smp) =>
      vdecl (vset st y (Some (left_map m [] v, Some (left_vec m [] smp)))) x (v, Some smp)
    | _ => None
    end
  | AssignTrace x y =>
    match st x, st y with
    | Some (_, Some _), Some (v, Some smp) => Some (vset st x (Some (v, Some smp)))
    | _, _ => None
    end
  | MoveAssignTrace x y =>
    match st x, st y with
    | Some (w, Some old), Some (v, Some smp) =>
      if Nat.eqb x y then Some st
      else Some (vset (vset st y (Some (left_map m w v, Some (left_vec m old smp)))) x (Some (v, Some smp)))
    | _, _ => None
    end
  | Destroy x => match st x with Some _ => Some (vset st x None) | None => None end
  end.

Fixpoint vrun (m : moves) (st : vstore) (cs : list stmt) : option vstore :=
  match cs with
  | [] => Some st
  | c :: cs' => match vstep m st c with Some st1 => vrun m st1 cs' | None => None end
  end.
