(** Facts about the tables of descriptions. *)
From Coq Require Import String Lia.
From Verif Require Import Base TraceHdr SegyTypes NameTables NameSpec.
Local Open Scope string_scope.
Local Open Scope list_scope.

Definition inb (l : list string) (a : string) : bool := existsb (String.eqb a) l.
Fixpoint nodupb (l : list string) : bool := match l with [] => true | a :: l' => negb (inb l' a) && nodupb l' end.
Lemma inb_in l a : inb l a = true <-> In a l.
Proof.
  unfold inb. rewrite existsb_exists. split.
  - intros (x & H & E). apply String.eqb_eq in E. subst. exact H.
  - intros H. exists a. split; [exact H|apply String.eqb_refl].
Qed.
Lemma nodupb_ok l : nodupb l = true -> NoDup l.
Proof.
  induction l as [|a l IH]; intros H; [constructor|]. cbn in H. apply andb_prop in H as [H1 H2].
  constructor; [|apply IH, H2]. intros E. apply inb_in in E. rewrite E in H1. discriminate.
Qed.
Definition table_ok (t : list string * list string) : bool :=
  (List.length (fst t) =? List.length (snd t))%nat && nodupb (snd t) &&
  forallb (fun x => describes (fst x) (snd x) || inb other_words (fst x)) (combine (fst t) (snd t)).
Lemma tables_ok : forallb (fun x => String.eqb (fst x) "GeneralHeaderOri" || table_ok (snd x)) name_tables = true.
Proof. vm_compute. reflexivity. Qed.

Definition layout_names : list string := map e_name (concat (map snd default_trace_header)).
Lemma layouts_ok : forallb (fun a => inb undescribed a || inb (map fst trace_header_description) a) layout_names = true.
Proof. vm_compute. reflexivity. Qed.
