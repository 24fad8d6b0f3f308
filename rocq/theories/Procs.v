(** Several SEG-D writers in one program.  The lambda that writes samples of
    format 8015 (src/OSEGD.cpp:1092-1113) keeps up to four values in static
    variables, and these exist once in the program, not once per writer.  The
    state of the program is here the values in that array and the writers; a
    call finds the array as the last call of any writer left it.  The other
    variables with static storage duration of the library are tables that are
    only read (src/CommonSEGD.cpp:283-764, src/CommonSEGY.cpp:229-279) and the
    array of the 8015 sample reader (src/ISEGD.cpp:923-924).  One thread; every
    writer has a file of its own; writers are not destroyed, which would not
    change the array. *)
From Verif Require Import Base Platform Fp TraceHdr SegyTypes SegyCodec ISegy SegdTypes OSegd StepX OSegdX.

(** The arguments of the constructor, OSEGDRev2_1.cpp:24-69. *)
Record osegd_args : Type := mkOA {
  oa_g1 : gh1; oa_g2 : gh2; oa_sets : list (list chset); oa_adds : list addblk;
  oa_extd : list (list Z); oa_extl : list (list Z); oa_layouts : ext_layouts
}.
Definition args_open (p : platform) (a : osegd_args) : outcome osegd :=
  osegd_open p (oa_g1 a) (oa_g2 a) (oa_sets a) (oa_adds a) (oa_extd a) (oa_extl a) (oa_layouts a).

(** What a program does: construct a writer, or call write_trace of the writer
    that was the [i]-th to be constructed. *)
Inductive cmd : Type :=
| CNew (a : osegd_args)
| CWrite (i : nat) (t : trace).

(** The array of OSEGD.cpp:1093-1094 and the writers. *)
Record proc : Type := mkProc { pr_pend : list Z; pr_objs : list osegd }.
Definition proc0 : proc := mkProc [] [].

Definition with_pend (q : list Z) (s : osegd) : osegd := od_upd s (od_file s) (od_written s) q (od_sbuf s).

Fixpoint set_nth {A} (l : list A) (i : nat) (x : A) : list A :=
  match l, i with
  | [], _ => []
  | _ :: l', O => x :: l'
  | y :: l', S i' => y :: set_nth l' i' x
  end.

(** One command: what it returned or threw, and the program afterwards.  A
    constructor that throws gives no writer.  Naming a writer that does not
    exist is undefined. *)
Definition p_step (p : platform) (c : cmd) : St proc unit := fun pr =>
  match c with
  | CNew a =>
    match args_open p a with
    | Ok s => (Ok tt, mkProc (pr_pend pr) (pr_objs pr ++ [with_pend [] s])%list)
    | Throw e => (Throw e, pr)
    | UB => (UB, pr)
    end
  | CWrite i t =>
    match nth_error (pr_objs pr) i with
    | None => (UB, pr)
    | Some s =>
      let (o, s') := xd_write_trace p t (with_pend (pr_pend pr) s) in
      (o, mkProc (od_pend s') (set_nth (pr_objs pr) i (with_pend [] s')))
    end
  end.

(** A program that catches what its calls throw: the results, and the end. *)
Fixpoint p_run (p : platform) (pr : proc) (cs : list cmd) : outcome (list (outcome unit) * proc) :=
  match cs with
  | [] => Ok ([], pr)
  | c :: cs' =>
    match p_step p c pr with
    | (UB, _) => UB
    | (o, pr1) => let* (os, pr2) := p_run p pr1 cs' in Ok (o :: os, pr2)
    end
  end.
