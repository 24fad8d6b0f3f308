(** Specification vocabulary for the descriptions of header members. *)
From Coq Require Import String Ascii.
From Verif Require Import Base.
Local Open Scope string_scope.
Local Open Scope list_scope.

Definition upper (c : ascii) : ascii :=
  let n := nat_of_ascii c in if (97 <=? n)%nat && (n <=? 122)%nat then ascii_of_nat (n - 32) else c.

(** The characters of [w] occur in [d] in this order, whatever the case. *)
Fixpoint occurs (w : list ascii) (d : list ascii) : bool :=
  match w, d with
  | [], _ => true
  | _ :: _, [] => false
  | a :: w', b :: d' => if Ascii.eqb a (upper b) then occurs w' d' else occurs w d'
  end.

(** The parts of an enumerator between the underscores. *)
Fixpoint words (cur : list ascii) (l : list ascii) : list (list ascii) :=
  match l with
  | [] => [rev cur]
  | c :: l' => if Ascii.eqb c "_" then rev cur :: words [] l' else words (c :: cur) l'
  end.

(** Every word of the enumerator [e], or an abbreviation of one, is in the
    description [d]. *)
Definition describes (e d : string) : bool :=
  forallb (fun w => occurs w (list_ascii_of_string d)) (words [] (list_ascii_of_string e)).

(** Enumerators described in other words or with a misspelled name. *)
Definition other_words : list string :=
  ["ENDIANNESS"; "SCANS_PER_BLOCK"; "SKEW_BLOCKS"; "EXTENDED_HEADER_BLOCKS"; "EXTERNAL_HEADER_BLOCKS";
   "EXTEDNDED_HEADER_BLOCKS"; "REL_TIME_MODE"; "SOURCE_SET_NUM"; "SOURCCE_STATUS";
   "EQUIPMENT_DIMENTION_X"; "EQUIPMENT_DIMENTION_Y"; "EQUIPMENT_DIMENTION_Z"].

(** Trace header words that have no description under their name. *)
Definition undescribed : list string :=
  ["NANOSECOND"; "TRANS_CONST_MANT"; "TRANS_CONST_EXP"; "SOURCE_MEASUREMENT_MANT"; "SOURCE_MEASUREMENT_EXP"].
