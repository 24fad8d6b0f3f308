(** What it means that the writers of a program do not disturb each other: each
    of them, alone in a program, would have given the same results and the same
    file. *)
From Verif Require Import Base Platform TraceHdr SegyTypes SegdTypes ISegy OSegd OSegdX Procs.

(** A program with a single writer: the results of its calls of write_trace,
    and the writer at the end. *)
Fixpoint d_calls (p : platform) (s : osegd) (ts : list trace) : outcome (list (outcome unit) * osegd) :=
  match ts with
  | [] => Ok ([], s)
  | t :: ts' =>
    match xd_write_trace p t s with
    | (UB, _) => UB
    | (o, s1) => let* (os, s2) := d_calls p s1 ts' in Ok (o :: os, s2)
    end
  end.

(** The writers that a program constructs, in order, as they are at first. *)
Fixpoint writers (p : platform) (cs : list cmd) : list osegd :=
  match cs with
  | [] => []
  | CNew a :: cs' => match args_open p a with Ok s => s :: writers p cs' | _ => writers p cs' end
  | CWrite _ _ :: cs' => writers p cs'
  end.

(** The traces given to the [i]-th writer, and what these calls returned. *)
Fixpoint traces_of (i : nat) (cs : list cmd) : list trace :=
  match cs with
  | [] => []
  | CNew _ :: cs' => traces_of i cs'
  | CWrite j t :: cs' => if Nat.eqb i j then t :: traces_of i cs' else traces_of i cs'
  end.
Fixpoint results_of {R} (i : nat) (cs : list cmd) (rs : list R) : list R :=
  match cs, rs with
  | CNew _ :: cs', _ :: rs' => results_of i cs' rs'
  | CWrite j _ :: cs', r :: rs' => if Nat.eqb i j then r :: results_of i cs' rs' else results_of i cs' rs'
  | _, _ => []
  end.

(** Format 8015. *)
Definition packed (s : osegd) : Prop := g1_format_code (od_g1 s) = 8015.

(** A program names only writers that it has constructed before; [n] exist. *)
Fixpoint scoped (p : platform) (n : nat) (cs : list cmd) : Prop :=
  match cs with
  | [] => True
  | CNew a :: cs' => scoped p (match args_open p a with Ok _ => S n | _ => n end) cs'
  | CWrite i _ :: cs' => (i < n)%nat /\ scoped p n cs'
  end.

(** All traces given to writers of format 8015 have a number of samples
    divisible by four; at most one of the writers has that format. *)
Definition in_fours (p : platform) (cs : list cmd) : Prop := forall i t s,
  In (CWrite i t) cs -> nth_error (writers p cs) i = Some s -> packed s -> (4 | len (t_smp t)).
Definition one_packed (p : platform) (cs : list cmd) : Prop := forall i j s s',
  nth_error (writers p cs) i = Some s -> nth_error (writers p cs) j = Some s' -> packed s -> packed s' -> i = j.
