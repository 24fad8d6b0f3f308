(** Specification vocabulary for reading arbitrary SEG-D traces of revision
    below 3: the first trace header extension by byte number, sample words by
    format code. *)
From Coq Require Import Reals.
From Verif Require Import Base CodecSpec FpSpec TraceHdr SegyTypes SegdTypes SegdSpec SegdDecSpec.
Local Open Scope Z_scope.

(** A receiver number: the five bytes of the extended field from byte [j] with
    16 fraction bits if the revision has one and it is not zero, otherwise the
    integer of three bytes from byte [i]. *)
Definition receiver_num (b : list Z) (major : Z) (i j : nat) (v : option value) : Prop :=
  if (1 <? major) && negb (big b j 5 =? 0)
  then exists d, v = Some (VDbl d) /\ fixv d (big b j 5) 16
  else v = Some (VInt (big b i 3)).

Definition te_of (b : list Z) (major : Z) (h : hdr) : Prop :=
  receiver_num b major 0 10 (hget h "R_LINE") /\
  receiver_num b major 3 15 (hget h "R_POINT") /\
  hget h "R_POINT_IDX" = Some (VInt (byt b 6)) /\
  hget h "SAMP_NUM" = Some (VInt (big b 7 3)) /\
  (1 < major -> hget h "SENSOR_TYPE" = Some (VInt (byt b 20))).

Definition ext_keys : list string := ["R_LINE"; "R_POINT"; "R_POINT_IDX"; "SAMP_NUM"; "SENSOR_TYPE"]%string.

(** The channel set number of a trace header. *)
Definition set_num (b : list Z) : Z := if big b 15 2 =? 0 then dec b 6 2 else big b 15 2.

(** Bytes of a sample and the value of a word, for the formats with a whole
    number of bytes per sample and, for the values, one number per sample. *)
Definition sample_bytes (fmt : Z) : nat :=
  match fmt with
  | 8022 | 8042 => 1
  | 8036 | 9036 => 3
  | 8038 | 8058 | 9038 | 9058 => 4
  | 8080 | 9080 => 8
  | _ => 0
  end.
Definition sample_value (fmt : Z) (w : list Z) (y : Z) : Prop :=
  match fmt with
  | 8036 => holds y (IZR (as_signed 3 (big w 0 3)))
  | 8038 => holds y (IZR (as_signed 4 (big w 0 4)))
  | 9036 => holds y (IZR (as_signed 3 (big (rev w) 0 3)))
  | 9038 => holds y (IZR (as_signed 4 (big (rev w) 0 4)))
  | 8058 => flt_finite (big w 0 4) = true -> holds y (flt_val (big w 0 4))
  | 9058 => flt_finite (big (rev w) 0 4) = true -> holds y (flt_val (big (rev w) 0 4))
  | 8080 => y = big w 0 8
  | 9080 => y = big (rev w) 0 8
  | _ => False
  end.

(** The [n] words of [k] bytes at the start of [b]. *)
Definition words (b : list Z) (k n : nat) : list (list Z) :=
  map (fun i => firstn k (skipn (k * i) b)) (seq 0 n).
