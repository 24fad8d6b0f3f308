(** SEG-D records.  Models include/CommonSEGD.hpp:43-1529 and
    src/CommonSEGD.cpp:21-181 (the argument checks and the map of additional
    blocks).  [char] is a signed type (x86, gcc).  No proofs in this file. *)
From Verif Require Import Base Platform Fp TraceHdr SegyTypes.

(** CommonSEGD.hpp:43-66 [GeneralHeader].  [int], [long] and [long long]
    members are integers; [base_scan_int] is a double (bits). *)
Record gh1 : Type := mkG1 {
  g1_file_number : Z; g1_format_code : Z; g1_gen_const : Z; g1_year : Z;
  g1_add_blocks : Z; g1_day : Z; g1_hour : Z; g1_minute : Z; g1_second : Z;
  g1_manufac_code : Z; g1_manufac_num : Z; g1_bytes_per_scan : Z;
  g1_base_scan_int : Z; g1_polarity : Z; g1_scans_per_block : Z;
  g1_record_type : Z; g1_record_length : Z; g1_scan_types : Z;
  g1_channel_sets : Z; g1_skew_blocks : Z; g1_extended_blocks : Z;
  g1_external_blocks : Z
}.

(** CommonSEGD.hpp:111-126 [GeneralHeader2] *)
Record gh2 : Type := mkG2 {
  g2_file_num : Z; g2_channel_sets : Z; g2_extended_blocks : Z;
  g2_external_blocks : Z; g2_skew_blocks : Z; g2_major : Z; g2_minor : Z;
  g2_trailer_blocks : Z; g2_record_len : Z; g2_record_set : Z;
  g2_add_blocks : Z; g2_sampling_int : Z; g2_block_num : Z; g2_sequence : Z
}.

(** CommonSEGD.hpp:213-223 [GeneralHeaderN] *)
Record ghN : Type := mkGN {
  gN_file_number : Z; gN_line : Z; gN_point : Z; gN_point_index : Z;
  gN_phase_control : Z; gN_type_vibrator : Z; gN_phase_angle : Z;
  gN_block_num : Z; gN_set_num : Z
}.

(** CommonSEGD.hpp:262-270 [GeneralHeader3] *)
Record gh3 : Type := mkG3 {
  g3_time_zero : Z; g3_record_size : Z; g3_data_size : Z; g3_header_size : Z;
  g3_rec_mode : Z; g3_time_mode : Z; g3_block_num : Z
}.

(** The value-initialised headers of the default arguments,
    CommonSEGD.hpp:1541-1548. *)
Definition gh1_zero : gh1 := mkG1 0 0 0 0 0 0 0 0 0 0 0 0 0 0 0 0 0 0 0 0 0 0.
Definition gh2_zero : gh2 := mkG2 0 0 0 0 0 0 0 0 0 0 0 0 0 0.
Definition gh3_zero : gh3 := mkG3 0 0 0 0 0 0 0.

(** The private revision 3 members of [ChannelSetHeader],
    CommonSEGD.hpp:1519-1528.  [r3_description = None]: the array was never
    written (ISEGD.cpp:1087, indeterminate characters). *)
Record r3set : Type := mkR3 {
  r3_samples : Z; r3_samp_int : Z; r3_phase : Z; r3_unit : Z; r3_delay : Z;
  r3_description : option (list Z)
}.

(** CommonSEGD.hpp:1435-1529 [ChannelSetHeader].  [c_r3 = None]: built with
    the 22-argument constructor, [segd_rev_more_than_2 = false]
    (CommonSEGD.cpp:183-213). *)
Record chset : Type := mkC {
  c_scan_type : Z; c_number : Z; c_type : Z; c_start : Z; c_end : Z;
  c_descale : Z; c_channels : Z; c_subscans : Z; c_gain : Z;
  c_alias_freq : Z; c_alias_slope : Z; c_low_freq : Z; c_low_slope : Z;
  c_notch1 : Z; c_notch2 : Z; c_notch3 : Z; c_ext_num : Z; c_ext_flag : Z;
  c_hdr_ext : Z; c_vert_stack : Z; c_streamer : Z; c_array : Z;
  c_r3 : option r3set
}.

(** CommonSEGD.cpp:255-258 [number_of_samples()] *)
Definition c_number_of_samples (c : chset) : option Z :=
  match c_r3 c with Some r => Some (r3_samples r) | None => None end.
(** CommonSEGD.cpp:276-279 [filter_delay()]: goes through optional<uint8_t>. *)
Definition c_filter_delay (c : chset) : option Z :=
  match c_r3 c with Some r => Some (wrapu 8 (r3_delay r)) | None => None end.

(** ** Revision 3 additional blocks

    The 26 classes derived from AdditionalGeneralHeader
    (CommonSEGD.hpp:299-1427) are lists of members; the list of a class is
    given by the order in which its reader fills it (ISEGD.cpp:510-915). *)
Inductive bfield : Type :=
| BU (n : nat)     (* big-endian unsigned, n bytes: read_u8, u16, u32, u64 *)
| BI16             (* read_u16 stored into an int16_t member *)
| BU24             (* read_u24 *)
| BFix             (* read_u24 + read_u16 / pow(2, 16), a double *)
| BBcd2            (* from_bcd<uint8_t>(&buf, false, 2) *)
| BTxt (n : nat)   (* memcpy of n characters *)
| BPad (n : nat).  (* buf += n *)

Inductive bval : Type := BInt (z : Z) | BDbl (d : Z) | BText (l : list Z).

(** Common head and tail of the source blocks, e.g. ISEGD.cpp:567-590. *)
Definition source_block (mid : list bfield) : list bfield :=
  [BU24; BFix; BFix; BU 1] ++ mid ++
  [BU 1; BU 1; BU 1; BU 1; BU 1; BU 1; BU 1; BU 1; BU 1].

(** The switch of ISEGD.cpp:406-508 with the bodies of 510-915; [None]: block
    types that are skipped.  The sensor block copies
    [sizeof(serial_number) = 28] characters (CommonSEGD.hpp:1167). *)
Definition block_fields (ty : Z) : option (list bfield) :=
  match ty with
  | 16 (* 0x10 *) => Some [BTxt 3; BTxt 28]
  | 17 => Some [BTxt 31]
  | 18 => Some [BTxt 31]
  | 19 => Some [BTxt 5; BTxt 26]
  | 20 => Some [BTxt 7; BTxt 24]
  | 21 => Some (source_block [BU 1; BU 1; BI16])
  | 22 => Some (source_block [BU 2; BU 1; BU 1])
  | 23 => Some (source_block [BU 2; BU 2])
  | 24 => Some (source_block [BU 2; BU 2])
  | 25 => Some (source_block [BU 1; BU24])
  | 31 => Some (source_block [BPad 4])
  | 32 (* 0x20 *) => Some [BU 8; BU 1; BU 1; BU 1; BTxt 20]
  | 33 => Some [BU 1; BBcd2; BU 2; BU24; BBcd2; BU 2; BU24; BBcd2; BU 2; BU24;
                BBcd2; BU 2; BU24; BBcd2; BU 2; BU24]
  | 65 (* 0x41 *) => Some [BU 8; BU 4; BU 1; BTxt 28]
  | 67 => Some [BU 4; BU 4; BU 4; BU 4; BU 4; BU 4; BU 1; BPad 6]
  | 68 => Some [BU 8; BU 8; BU 4; BU 4; BU 1; BU 1; BPad 5]
  | 69 => Some [BU24; BU24; BU24; BU 1; BU24; BU24; BU24; BPad 12]
  | 80 (* 0x50 *) => Some [BU 8; BU 8; BU 4; BU 4; BU 4; BU 2; BU 1]
  | 81 => Some [BU 8; BU 8; BU 8; BU 2; BU 1; BU 1; BPad 3]
  | 82 => Some [BU 8; BU 8; BU 8; BU 2; BU 1; BU 1; BPad 3]
  | 85 (* 0x55 *) => Some [BTxt 31]
  | 86 => Some [BU 4; BU 4; BU 4; BTxt 19]
  | 96 (* 0x60 *) => Some [BU 4; BU 4; BU 4; BU 4; BU 8; BU 1; BU 1; BU 1; BU 1; BPad 3]
  | 97 => Some [BU 8; BU 4; BU 4; BU 4; BU 2; BU 2; BU 2; BPad 5]
  | _ => None
  end.

(** A block owned by [add_gen_hdr_blks_map]: a GeneralHeaderN, or a revision 3
    block of class [cls] with its members and its [gen_hdr_block_type]. *)
Inductive addblk : Type :=
| AN (h : ghN)
| A3 (cls : Z) (vals : list bval) (ty : Z).

(** The virtual [type()] *)
Definition blk_type (b : addblk) : Z :=
  match b with AN h => gN_block_num h | A3 _ _ ty => ty end.

(** [map<int, unique_ptr<AdditionalGeneralHeader>>]: sorted by key. *)
Definition blkmap : Type := list (Z * addblk).

(** [m[k] = b] *)
Fixpoint bset (m : blkmap) (k : Z) (b : addblk) : blkmap :=
  match m with
  | [] => [(k, b)]
  | (k', b') :: m' =>
    if k =? k' then (k, b) :: m'
    else if k <? k' then (k, b) :: m
    else (k', b') :: bset m' k b
  end.

Fixpoint bfind (m : blkmap) (k : Z) : option addblk :=
  match m with
  | [] => None
  | (k', b) :: m' => if k =? k' then Some b else bfind m' k
  end.

(** CommonSEGD.cpp:43-180: the constructor files every block under its type.
    [*dynamic_cast<T*>(p)] with the wrong dynamic type dereferences a null
    pointer. *)
Definition add_block (m : blkmap) (b : addblk) : outcome blkmap :=
  match block_fields (blk_type b), b with
  | Some _, A3 cls _ _ =>
    if cls =? blk_type b then Ok (bset m (blk_type b) b) else UB
  | Some _, AN _ => UB
  | None, AN _ => Ok (bset m (blk_type b) b)
  | None, A3 _ _ _ => UB
  end.

Fixpoint add_blocks (m : blkmap) (bs : list addblk) : outcome blkmap :=
  match bs with
  | [] => Ok m
  | b :: bs' => let* m' := add_block m b in add_blocks m' bs'
  end.

(** ** Sizes, CommonSEGD.hpp:1530-1538 *)
Definition GEN_HDR_SIZE : Z := 32.
Definition CH_SET_HDR_SIZE : Z := 32.
Definition CH_SET_HDR_R3_SIZE : Z := 96.
Definition SKEW_BLOCK_SIZE : Z := 32.
Definition EXTENDED_HEADER_SIZE : Z := 32.
Definition EXTERNAL_HEADER_SIZE : Z := 32.
Definition TRACE_HEADER_SIZE : Z := 20.
Definition TRACE_HEADER_EXT_SIZE : Z := 32.

(** One layout per trace header extension block:
    [vector<map<uint32_t, pair<string, ValueType>>>]. *)
Definition ext_layouts : Type := list layout.

(** ** Doubles used by both sides *)

(** [pow(2, x)] for a double [x]. *)
Definition d_exp2 (p : platform) (x : Z) : Z :=
  match d_trunc x with
  | Some k =>
    if negb (d_lt x (i2d k)) && negb (d_lt (i2d k) x)
       && (-1022 <=? k) && (k <=? 1023)
    then d_pow2 k else p_pow2 p x
  | None => p_pow2 p x
  end.

(** +infinity *)
Definition d_inf : Z := 2047 * 2 ^ 52.

(** [integer + fraction / pow(2, 16)], e.g. ISEGD.cpp:365-366. *)
Definition fix16 (i f : Z) : Z := d_add (i2d i) (d_div (i2d f) (d_pow2 16)).
