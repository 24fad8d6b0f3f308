(** The accessors of a SEG-D channel set header for the members that only
    revision 3 has.  Models CommonSEGD.cpp:251-281 ([number_of_samples] and
    [filter_delay] are in SegdTypes.v).  No proofs in this file. *)
From Verif Require Import Base SegdTypes.

(** CommonSEGD.cpp:257-260 *)
Definition c_samp_int (c : chset) : option Z := option_map r3_samp_int (c_r3 c).
(** CommonSEGD.cpp:262-265 *)
Definition c_filter_phase (c : chset) : option Z := option_map r3_phase (c_r3 c).
(** CommonSEGD.cpp:267-270 *)
Definition c_physical_unit (c : chset) : option Z := option_map r3_unit (c_r3 c).
(** CommonSEGD.cpp:277-281.  The inner [None]: 27 characters that nobody has
    written (ISEGD.cpp:1085). *)
Definition c_description (c : chset) : option (option (list Z)) := option_map r3_description (c_r3 c).
