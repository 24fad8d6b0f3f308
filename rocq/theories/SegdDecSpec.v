(** Specification vocabulary for reading arbitrary SEG-D headers: the fields of
    a block by byte and half-byte number, as tabulated in the standard (SEG-D
    Rev 2.1, section 6).  Only the record types are shared with the model. *)
From Coq Require Import Reals.
From Verif Require Import Base BcdSpec CodecSpec FpSpec TraceHdr SegyTypes SegdTypes SegdSpec.
Local Open Scope Z_scope.

(** Byte [i], half byte [i], [n] decimal digits from half byte [i], unsigned
    big-endian number of [n] bytes from byte [i]. *)
Definition byt (b : list Z) (i : nat) : Z := nth i b 0.
Definition nib (b : list Z) (i : nat) : Z := nth i (nibs b) 0.
Definition dec (b : list Z) (i n : nat) : Z := pos_value (firstn n (skipn i (nibs b))).
Definition big (b : list Z) (i n : nat) : Z :=
  fold_left (fun a x => 256 * a + x) (firstn n (skipn i b)) 0.

(** The double [d] is [k / 2^n]. *)
Definition fixv (d k n : Z) : Prop := holds d (IZR k * powerRZ 2 (- n)).

(** General header 1 *)
Definition gh1_of (b : list Z) (g : gh1) : Prop :=
  g1_file_number g = dec b 0 4 /\
  g1_format_code g = dec b 4 4 /\
  g1_gen_const g = dec b 8 12 /\
  g1_year g = dec b 20 2 /\
  g1_add_blocks g = nib b 22 /\
  g1_day g = dec b 23 3 /\
  g1_hour g = dec b 26 2 /\
  g1_minute g = dec b 28 2 /\
  g1_second g = dec b 30 2 /\
  g1_manufac_code g = dec b 32 2 /\
  g1_manufac_num g = dec b 34 4 /\
  g1_bytes_per_scan g = dec b 38 6 /\
  fixv (g1_base_scan_int g) (byt b 22) 4 /\
  g1_polarity g = nib b 46 /\
  g1_scans_per_block g = byt b 24 * 2 ^ nib b 47 /\
  g1_record_type g = nib b 50 /\
  g1_record_length g = dec b 51 3 /\
  g1_scan_types g = dec b 54 2 /\
  g1_channel_sets g = dec b 56 2 /\
  g1_skew_blocks g = dec b 58 2 /\
  g1_extended_blocks g = dec b 60 2 /\
  g1_external_blocks g = dec b 62 2.

(** General header 2, revisions below 3 *)
Definition gh2_of (b : list Z) (g : gh2) : Prop :=
  g2_file_num g = big b 0 3 /\
  g2_channel_sets g = big b 3 2 /\
  g2_extended_blocks g = big b 5 2 /\
  g2_external_blocks g = big b 7 2 /\
  g2_major g = byt b 10 /\
  g2_minor g = byt b 11 /\
  g2_trailer_blocks g = big b 12 2 /\
  g2_record_len g = big b 14 3 /\
  g2_block_num g = byt b 18 /\
  g2_sequence g = big b 20 2.

(** General header N: the numbers are two's complement with 16 fraction bits. *)
Definition ghN_of (b : list Z) (h : ghN) : Prop :=
  gN_file_number h = big b 0 3 /\
  fixv (gN_line h) (as_signed 5 (big b 3 5)) 16 /\
  fixv (gN_point h) (as_signed 5 (big b 8 5)) 16 /\
  gN_point_index h = byt b 13 /\
  gN_phase_control h = byt b 14 /\
  gN_type_vibrator h = byt b 15 /\
  gN_phase_angle h = as_signed 2 (big b 16 2) /\
  gN_block_num h = byt b 18 /\
  gN_set_num h = byt b 19.

(** Channel set header, revisions below 3.  The descale exponent is sign and
    magnitude with 10 fraction bits. *)
Definition sign_mag (v : Z) : Z := if v <? 2 ^ 15 then v else 2 ^ 15 - v.
Definition chset_of (b : list Z) (c : chset) : Prop :=
  c_scan_type c = dec b 0 2 /\
  c_number c = dec b 2 2 /\
  c_start c = 2 * big b 2 2 /\
  c_end c = 2 * big b 4 2 /\
  fixv (c_descale c) (sign_mag (big b 6 2)) 10 /\
  c_channels c = dec b 16 4 /\
  c_type c = nib b 20 /\
  c_subscans c = 2 ^ nib b 22 /\
  c_gain c = nib b 23 /\
  c_alias_freq c = dec b 24 4 /\
  c_alias_slope c = dec b 28 4 /\
  c_low_freq c = dec b 32 4 /\
  c_low_slope c = dec b 36 4 /\
  c_notch1 c = dec b 40 4 /\
  c_notch2 c = dec b 44 4 /\
  c_notch3 c = dec b 48 4 /\
  c_ext_num c = big b 26 2 /\
  (nib b 56 < 8 -> c_ext_flag c = nib b 56) /\
  c_hdr_ext c = nib b 57 /\
  c_vert_stack c = byt b 29 /\
  c_streamer c = byt b 30 /\
  c_array c = byt b 31.

(** Demux trace header: the extended channel set and file numbers replace the
    decimal ones unless they are zero. *)
Definition th_of (b : list Z) (h : hdr) : Prop :=
  hget h "FFID" = Some (VInt (if big b 17 3 =? 0 then dec b 0 4 else big b 17 3)) /\
  hget h "SCAN_TYPE_NUM" = Some (VInt (dec b 4 2)) /\
  hget h "CH_SET_NUM" = Some (VInt (if big b 15 2 =? 0 then dec b 6 2 else big b 15 2)) /\
  hget h "CHAN" = Some (VInt (dec b 8 4)) /\
  hget h "TR_HDR_EXT" = Some (VInt (byt b 9)) /\
  hget h "TRACE_EDIT" = Some (VInt (byt b 11)) /\
  exists ftw skew tbw,
    hget h "FIRST_TIMING_WORD" = Some (VDbl ftw) /\ fixv ftw (big b 6 3) 8 /\
    hget h "SAMPLE_SKEW" = Some (VDbl skew) /\ fixv skew (byt b 10) 8 /\
    hget h "TIME_BREAK_WIN" = Some (VDbl tbw) /\ fixv tbw (big b 12 3) 8.

(** ** The headers of a record of revision below 3 *)

(** [n] blocks of 32 bytes from byte [o]. *)
Definition blocks32 (b : list Z) (o : Z) (n : nat) : list (list Z) :=
  map (fun i => slice (o + 32 * Z.of_nat i) 32 b) (seq 0 n).

(** Counts, from the first 64 bytes of the record. *)
Definition add_of (b : list Z) : Z := nib b 22.
Definition two_of (b : list Z) : bool := negb (add_of b =? 0).
Definition scans_of (b : list Z) : Z := dec b 54 2.
Definition sets_of (b : list Z) : Z := dec b 56 2.
(** FF in general header 1: the number is in general header 2, if there is one;
    revisions below 3 have no number of skew blocks there. *)
Definition esc_of (b : list Z) (i : nat) (two : Z) : Z :=
  if byt b i =? 255 then (if two_of b then two else 0) else dec b (2 * i) 2.
Definition skews_of (b : list Z) : Z := esc_of b 29 0.
Definition extds_of (b : list Z) : Z := esc_of b 30 (big b 37 2).
Definition extls_of (b : list Z) : Z := esc_of b 31 (big b 39 2).

(** Where the channel set headers and the extended headers start and where the
    traces start. *)
Definition sets_at (b : list Z) : Z := 32 * (1 + add_of b).
Definition extds_at (b : list Z) : Z :=
  sets_at b + 32 * (scans_of b * (sets_of b + skews_of b)).
Definition traces_at (b : list Z) : Z := extds_at b + 32 * (extds_of b + extls_of b).

(** Block [j] of scan type [i]. *)
Definition scan_blocks (b : list Z) (i : nat) : list (list Z) :=
  blocks32 b (sets_at b + 32 * (Z.of_nat i * (sets_of b + skews_of b))) (Z.to_nat (sets_of b)).

Definition old_rev (b : list Z) : Prop := add_of b = 0 \/ byt b 42 < 3.

(** The further general headers, and the last of them with number [k] (the
    number is in byte 19, index 18). *)
Definition more_blocks (b : list Z) : list (list Z) := blocks32 b 64 (Z.to_nat (add_of b - 1)).
Definition last_with (bl : list (list Z)) (k : Z) (x : list Z) : Prop :=
  exists i, nth_error bl i = Some x /\ byt x 18 = k /\
    forall j y, (i < j)%nat -> nth_error bl j = Some y -> byt y 18 <> k.
