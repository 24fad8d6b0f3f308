(** Specification vocabulary for the traces of SEG-D revision 3 files: the first
    trace header extension by byte number (SEG-D Rev 3.0, section 8.5) and the
    states of a reader within the first record. *)
From Coq Require Import Reals.
From Verif Require Import Base Platform CodecSpec FpSpec TraceHdr SegyTypes SegdTypes SegdSpec SegdDecSpec SegdTrcSpec SegdReadSpec
  Segd3Spec ISegd.
Local Open Scope Z_scope.

(** A receiver number: the extended field of five bytes from byte [j] unless it
    is zero, otherwise the three bytes from byte [i]; both two's complement. *)
Definition receiver3 (b : list Z) (i j : nat) (v : option value) : Prop :=
  if big b j 5 =? 0 then v = Some (VInt (as_signed 3 (big b i 3)))
  else exists d, v = Some (VDbl d) /\ fixv d (as_signed 5 (big b j 5)) 16.

(** The receiver numbers are not negative. *)
Definition receivers_pos (b : list Z) : Prop := byt b 0 < 128 /\ byt b 3 < 128 /\ byt b 10 < 128 /\ byt b 15 < 128.

Definition te3_of (b : list Z) (h : hdr) : Prop :=
  (receivers_pos b -> receiver3 b 0 10 (hget h "R_LINE") /\ receiver3 b 3 15 (hget h "R_POINT")) /\
  hget h "R_POINT_IDX" = Some (VInt (byt b 6)) /\
  hget h "RESHOOT_IDX" = Some (VInt (byt b 7)) /\
  hget h "GROUP_IDX" = Some (VInt (byt b 8)) /\
  hget h "DEPTH_IDX" = Some (VInt (byt b 9)) /\
  hget h "SENSOR_TYPE" = Some (VInt (byt b 20)) /\
  hget h "SAMP_NUM" = Some (VInt (big b 24 4)) /\
  hget h "SENSOR_MOVING" = Some (VInt (byt b 28)) /\
  hget h "PHYSICAL_UNIT" = Some (VInt (byt b 30)).

Definition ext3_keys : list string :=
  ["R_LINE"; "R_POINT"; "R_POINT_IDX"; "RESHOOT_IDX"; "GROUP_IDX"; "DEPTH_IDX"; "SENSOR_TYPE"; "SAMP_NUM"; "SENSOR_MOVING";
   "PHYSICAL_UNIT"; "TRACE_NUMBER"]%string.

(** The number of samples of the next trace, of channel set [c]: in the first
    extension block, without one in the channel set header. *)
Definition smp3_num (s : isegd) (c : chset) (n : Z) : Prop :=
  if byt (th_at s) 9 =? 0 then c_number_of_samples c = Some n else n = big (te_at s) 24 4.
Definition trace3_end (s : isegd) (n : Z) : Z := smp_at s + Z.of_nat (sample_bytes (g1_format_code (d_g1 s))) * n.

(** The states of a reader of the revision 3 file [b], opened without layouts,
    up to the last trace of the first record. *)
Inductive reader3 (p : platform) (b : list Z) : isegd -> Prop :=
| reader3_open s : rev3 b -> isegd_open p b [] = Ok s -> reader3 p b s
| reader3_next s t s' : reader3 p b s -> d_read_trace p s = Ok (t, s') -> ~ last_trace s -> reader3 p b s'.
