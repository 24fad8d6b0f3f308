(** Specification for C107: the members of a channel set header that only
    revision 3 has. *)
From Verif Require Import Base SegdTypes SegdSpec SegdDecSpec ChAcc.

(** The six accessors, the description as the last. *)
Record six : Type := mkSix { x_samples : option Z; x_int : option Z; x_phase : option Z; x_unit : option Z; x_delay : option Z; x_text : option (option (list Z)) }.
Definition accessors (c : chset) : six :=
  mkSix (c_number_of_samples c) (c_samp_int c) (c_filter_phase c) (c_physical_unit c) (c_filter_delay c) (c_description c).

(** A file of revision 3 or later has them in the 96 bytes of the header; an
    earlier one does not have them. *)
Definition stored_six (delay : Z -> Z) (b : list Z) : six :=
  mkSix (Some (big b 12 4)) (Some (big b 23 3)) (Some (byt b 60)) (Some (byt b 61)) (Some (delay (big b 64 4))) (Some (Some (slice 68 27 b))).
Definition no_six : six := mkSix None None None None None None.
