(** Specification vocabulary for the headers of SEG-D revision 3 records: the
    fields of each block by byte number, as tabulated in the standard (SEG-D
    Rev 3.0, sections 7 and 8).  Only the record types are shared with the
    model.  Byte numbers count from 0. *)
From Coq Require Import Reals.
From Verif Require Import Base BcdSpec CodecSpec FpSpec TraceHdr SegyTypes SegdTypes SegdSpec SegdDecSpec.
Local Open Scope Z_scope.

(** ** General headers 2 and 3 *)

Definition gh2_of3 (b : list Z) (g : gh2) : Prop :=
  g2_file_num g = big b 0 3 /\
  g2_channel_sets g = big b 3 2 /\
  g2_extended_blocks g = big b 5 3 /\
  g2_skew_blocks g = big b 8 2 /\
  g2_major g = byt b 10 /\
  g2_minor g = byt b 11 /\
  g2_trailer_blocks g = big b 12 4 /\
  g2_record_len g = big b 16 4 /\
  g2_record_set g = big b 20 2 /\
  g2_add_blocks g = big b 22 2 /\
  g2_sampling_int g = big b 24 3 /\
  g2_external_blocks g = big b 27 3 /\
  g2_block_num g = byt b 31.

(** The fields in front of the record length. *)
Definition gh2_front (b : list Z) (g : gh2) : Prop :=
  g2_file_num g = big b 0 3 /\
  g2_channel_sets g = big b 3 2 /\
  g2_extended_blocks g = big b 5 3 /\
  g2_skew_blocks g = big b 8 2 /\
  g2_major g = byt b 10 /\
  g2_minor g = byt b 11 /\
  g2_trailer_blocks g = big b 12 4.

Definition gh3_of (b : list Z) (g : gh3) : Prop :=
  g3_time_zero g = big b 0 8 /\
  g3_record_size g = big b 8 8 /\
  g3_data_size g = big b 16 8 /\
  g3_header_size g = big b 24 4 /\
  g3_rec_mode g = byt b 28 /\
  g3_time_mode g = byt b 29 /\
  g3_block_num g = byt b 31.

(** ** Additional blocks *)

(** A member of a block: unsigned or two's complement number of [n] bytes from
    byte [o], number with 24 bits and sign before and 16 bits behind the point,
    two decimal digits, [n] characters. *)
Inductive member : Type :=
| Num (o n : nat) | Int (o n : nat) | Fix (o : nat) | Dig (o : nat) | Txt (o n : nat).

Definition shows (b : list Z) (m : member) (v : bval) : Prop :=
  match m with
  | Num o n => v = BInt (big b o n)
  | Int o n => v = BInt (as_signed n (big b o n))
  | Fix o => exists d, v = BDbl d /\ fixv d (as_signed 5 (big b o 5)) 16
  | Dig o => v = BInt (dec b (2 * o) 2)
  | Txt o n => v = BText (firstn n (skipn o b))
  end.

(** What all sources have in common: file number, line, point, index; then
    identification, set, reshoot, group and depth index. *)
Definition source_front : list member := [Num 0 3; Fix 3; Fix 8; Num 13 1].
Definition source_ids : list member := [Num 18 1; Num 19 1; Num 20 1; Num 21 1; Num 22 1].
(** Cross-line and in-line offset, size, depth offset. *)
Definition source_offsets : list member := [Num 23 2; Num 25 2; Num 27 2; Num 29 2].

Definition source_mid (ty : Z) : option (list member) :=
  match ty with
  | 0x15 (* vibrator *) => Some [Num 14 1; Num 15 1; Int 16 2]
  | 0x16 (* explosive *) => Some [Num 14 2; Num 16 1; Num 17 1]
  | 0x17 (* airgun *) => Some [Num 14 2; Num 16 2]
  | 0x18 (* watergun *) => Some [Num 14 2; Num 16 2]
  | 0x19 (* electromagnetic *) => Some [Num 14 1; Num 15 3]
  | 0x1f (* other *) => Some []
  | _ => None
  end.

(** The other blocks. *)
Definition block_members (ty : Z) : option (list member) :=
  match ty with
  | 0x10 (* vessel or crew *) => Some [Txt 0 3; Txt 3 28]
  | 0x11 (* survey area *) => Some [Txt 0 31]
  | 0x12 (* client *) => Some [Txt 0 31]
  | 0x13 (* job *) => Some [Txt 0 5; Txt 5 26]
  | 0x14 (* line *) => Some [Txt 0 7; Txt 7 24]
  | 0x20 (* source status *) => Some [Num 0 8; Num 8 1; Num 9 1; Num 10 1; Txt 11 20]
  | 0x21 (* auxiliary channels of the source *) =>
    Some [Num 0 1; Dig 1; Num 2 2; Num 4 3; Dig 7; Num 8 2; Num 10 3; Dig 13; Num 14 2; Num 16 3;
          Dig 19; Num 20 2; Num 22 3; Dig 25; Num 26 2; Num 28 3]
  | 0x43 (* sensor calibration *) => Some [Num 0 4; Num 4 4; Num 8 4; Num 12 4; Num 16 4; Num 20 4; Num 24 1]
  | 0x44 (* time drift *) => Some [Num 0 8; Num 8 8; Num 16 4; Num 20 4; Num 24 1; Num 25 1]
  | 0x45 (* electromagnetic source or receiver *) => Some [Num 0 3; Num 3 3; Num 6 3; Num 9 1; Num 10 3; Num 13 3; Num 16 3]
  | 0x50 (* position 1 *) => Some [Num 0 8; Num 8 8; Num 16 4; Num 20 4; Num 24 4; Num 28 2; Num 30 1]
  | 0x51 (* position 2 *) => Some [Num 0 8; Num 8 8; Num 16 8; Num 24 2; Num 26 1; Num 27 1]
  | 0x52 (* position 3 *) => Some [Num 0 8; Num 8 8; Num 16 8; Num 24 2; Num 26 1; Num 27 1]
  | 0x55 (* coordinate reference system *) => Some [Txt 0 31]
  | 0x56 (* relative position *) => Some [Num 0 4; Num 4 4; Num 8 4; Txt 12 19]
  | 0x60 (* orientation *) => Some [Num 0 4; Num 4 4; Num 8 4; Num 12 4; Num 16 8; Num 24 1; Num 25 1; Num 26 1; Num 27 1]
  | 0x61 (* measurement *) => Some [Num 0 8; Num 8 4; Num 12 4; Num 16 4; Num 20 2; Num 22 2; Num 24 2]
  | _ => None
  end.

(** The values shown for block [b] of type [ty].  Sources: everything but the
    offsets, for line and point numbers that are not negative. *)
Definition block_shown (ty : Z) (b : list Z) (vs : list bval) : Prop :=
  match block_members ty, source_mid ty with
  | Some ms, _ => Forall2 (shows b) ms vs
  | None, Some mid =>
    exists vs1 vs2, vs = vs1 ++ vs2 /\ len vs2 = 4 /\
      (byt b 3 < 128 -> byt b 8 < 128 -> Forall2 (shows b) (source_front ++ mid ++ source_ids) vs1)
  | None, None => False
  end.

(** ** Channel set header: 96 bytes

    The descale multiplier, an IEEE number in bytes 16 to 19, and the filter
    delay in bytes 64 to 67 are left out. *)
Definition chset_of3 (b : list Z) (c : chset) : Prop :=
  c_scan_type c = dec b 0 2 /\
  c_number c = big b 1 2 /\
  c_type c = byt b 3 /\
  c_start c = big b 4 4 /\
  c_end c = big b 8 4 /\
  c_channels c = big b 20 3 /\
  c_array c = byt b 26 /\
  c_hdr_ext c = byt b 27 /\
  (nib b 56 < 8 -> c_ext_flag c = nib b 56) /\
  c_gain c = nib b 57 /\
  c_vert_stack c = byt b 29 /\
  c_streamer c = byt b 30 /\
  c_alias_freq c = big b 32 4 /\
  c_low_freq c = big b 36 4 /\
  c_alias_slope c = big b 40 4 /\
  c_low_slope c = big b 44 4 /\
  c_notch1 c = big b 48 4 /\
  c_notch2 c = big b 52 4 /\
  c_notch3 c = big b 56 4 /\
  exists r, c_r3 c = Some r /\
    r3_samples r = big b 12 4 /\
    r3_samp_int r = big b 23 3 /\
    r3_phase r = byt b 60 /\
    r3_unit r = byt b 61 /\
    r3_description r = Some (slice 68 27 b).

(** ** The headers of a record *)

Definition rev3 (b : list Z) : Prop := add_of b <> 0 /\ 3 <= byt b 42.

(** FF in general header 1: the number is in general header 2. *)
Definition esc3_of (b : list Z) (i : nat) (two : Z) : Z :=
  if byt b i =? 255 then two else dec b (2 * i) 2.
Definition add3_of (b : list Z) : Z := if add_of b =? 15 then big b 54 2 else add_of b.
Definition skews3_of (b : list Z) : Z := esc3_of b 29 (big b 40 2).
Definition extds3_of (b : list Z) : Z := esc3_of b 30 (big b 37 3).
Definition extls3_of (b : list Z) : Z := esc3_of b 31 (big b 59 3).

(** The additional blocks, their types, and the last one of type [k]. *)
Definition blocks3 (b : list Z) : list (list Z) := blocks32 b 96 (Z.to_nat (add3_of b - 2)).
Definition type_of (x : list Z) : Z := byt x 31.
Definition last_of (bl : list (list Z)) (k : Z) (x : list Z) : Prop :=
  exists i, nth_error bl i = Some x /\ type_of x = k /\
    forall j y, (i < j)%nat -> nth_error bl j = Some y -> type_of y <> k.

(** Channel set headers have 96 bytes, skew blocks 32. *)
Definition blocks96 (b : list Z) (o : Z) (n : nat) : list (list Z) :=
  map (fun i => slice (o + 96 * Z.of_nat i) 96 b) (seq 0 n).
Definition sets3_at (b : list Z) : Z := 32 * (1 + add3_of b).
Definition scan3_size (b : list Z) : Z := 96 * sets_of b + 32 * skews3_of b.
Definition scan3_blocks (b : list Z) (i : nat) : list (list Z) :=
  blocks96 b (sets3_at b + Z.of_nat i * scan3_size b) (Z.to_nat (sets_of b)).
Definition extds3_at (b : list Z) : Z := sets3_at b + scans_of b * scan3_size b.
Definition traces3_at (b : list Z) : Z := extds3_at b + 32 * (extds3_of b + extls3_of b).
