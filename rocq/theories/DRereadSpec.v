(** What a client of the SEG-D reader that goes on after an exception relies on. *)
From Coq Require Import String.
From Verif Require Import Base Platform TraceHdr SegyTypes SegdTypes ISegd StepX ISegdX DRefuseSpec.
Local Open Scope string_scope.
Local Open Scope list_scope.
Local Open Scope Z_scope.

(** The client [while (s.has_trace()) try { s.read_trace() } catch (...) {}]:
    the results of its first [n] calls. *)
Fixpoint persist (p : platform) (n : nat) (r : dreader) : outcome (list (outcome trace) * dreader) :=
  match n with
  | O => Ok ([], r)
  | S n' =>
    if y_has_trace r then
      match y_read_trace p r with
      | (UB, _) => UB
      | (o, r1) => let* (os, r2) := persist p n' r1 in Ok (o :: os, r2)
      end
    else Ok ([], r)
  end.

(** No layout stores a real number under a word that the reader needs as an
    integer. *)
Definition int_words (ls : ext_layouts) : Prop :=
  forall l en, In l ls -> In en l -> real_field (e_type en) = true ->
  e_name en <> "SCAN_TYPE_NUM" /\ e_name en <> "CH_SET_NUM" /\ e_name en <> "SAMP_NUM".
