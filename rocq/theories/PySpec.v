(** Specification vocabulary for the Python module: UTF-8 (RFC 3629), the
    fields of revision 3 blocks under the names of the Python attributes, and
    what a program with a [for] loop over a reader sees.  The byte positions
    come from Segd3Spec; only the types are shared with the model. *)
From Coq Require Import String Reals.
From Verif Require Import Base BcdSpec CodecSpec FpSpec TraceHdr SegyTypes SegdTypes SegdSpec SegdDecSpec Segd3Spec SegyDecSpec PyBind.
Local Open Scope string_scope.
Local Open Scope list_scope.
Local Open Scope Z_scope.

(** ** UTF-8: RFC 3629, section 3 *)
Definition six (x : Z) : Prop := 0 <= x < 64.
Inductive utf8_char : Z -> list Z -> Prop :=
| U1 c : 0 <= c < 0x80 -> utf8_char c [c]
| U2 c a b : c = a * 64 + b -> six b -> 0x80 <= c < 0x800 -> utf8_char c [0xc0 + a; 0x80 + b]
| U3 c a b d : c = a * 4096 + b * 64 + d -> six b -> six d -> 0x800 <= c < 0x10000 -> ~ 0xd800 <= c < 0xe000 ->
    utf8_char c [0xe0 + a; 0x80 + b; 0x80 + d]
| U4 c a b d e : c = a * 262144 + b * 4096 + d * 64 + e -> six b -> six d -> six e -> 0x10000 <= c < 0x110000 ->
    utf8_char c [0xf0 + a; 0x80 + b; 0x80 + d; 0x80 + e].
(** The bytes [l] encode the text [u]. *)
Inductive utf8 : list Z -> list Z -> Prop :=
| UNil : utf8 [] []
| UCons c u l m : utf8_char c l -> utf8 u m -> utf8 (c :: u) (l ++ m).

(** What Python shows for bytes that should be text. *)
Definition text_shown (l : list Z) (r : pyres pyval) : Prop :=
  (exists u, utf8 u l /\ r = Ret (PStr u)) \/ ((forall u, ~ utf8 u l) /\ r = Raise UnicodeDecodeError).

(** ** Blocks of revision 3 *)

(** A field of a block as Python sees it. *)
Definition attr_shows (b : list Z) (m : member) (r : pyres pyval) : Prop :=
  match m with
  | Num o n => r = Ret (PInt (big b o n))
  | Int o n => r = Ret (PInt (as_signed n (big b o n)))
  | Fix o => exists d, r = Ret (PFloat d) /\ fixv d (as_signed 5 (big b o 5)) 16
  | Dig o => r = Ret (PInt (dec b (2 * o) 2))
  | Txt o n => text_shown (firstn n (skipn o b)) r
  end.

Definition members_of (ty : Z) : list member :=
  match block_members ty, source_mid ty with
  | Some ms, _ => ms
  | None, Some mid => source_front ++ mid ++ source_ids ++ source_offsets
  | None, None => []
  end.

(** The names for the fields of a source. *)
Definition source_names (mid : list string) : list string :=
  ["expanded_file_number"; "sou_line_num"; "sou_point_num"; "sou_point_index"] ++ mid ++
  ["source_id"; "source_set_num"; "reshoot_idx"; "group_idx"; "depth_idx";
   "offset_crossline"; "offset_inline"; "size"; "offset_depth"].

(** Method of ISEGD, type of the block, names of the fields in the order of
    [members_of]. *)
Definition block_table : list (string * Z * list string) :=
  [("general_header_vessel_crew_id", 0x10, ["abbr_vessel_crew_name"; "vessel_crew_name"]);
   ("general_header_survey_name", 0x11, ["survey_area_name"]);
   ("general_header_client_name", 0x12, ["client_name"]);
   ("general_header_job_id", 0x13, ["abbr_job_id"; "job_id"]);
   ("general_header_line_id", 0x14, ["line_abbr"; "line_id"]);
   ("general_header_vibrator_info", 0x15, source_names ["phase_control"; "type_vibrator"; "phase_angle"]);
   ("general_header_explosive_info", 0x16, source_names ["depth"; "charge_length"; "soil_type"]);
   ("general_header_airgun_info", 0x17, source_names ["depth"; "air_pressure"]);
   ("general_header_watergun_info", 0x18, source_names ["depth"; "air_pressure"]);
   ("general_header_electromagnetic_info", 0x19, source_names ["source_type"; "moment"]);
   ("general_header_other_source_info", 0x1f, source_names []);
   ("general_header_add_source_info", 0x20,
    ["time"; "source_status"; "source_id"; "source_moving"; "error_description"]);
   ("general_header_sou_aux_chan_ref", 0x21,
    ["source_id"; "scan_type_num_1"; "ch_set_num_1"; "trace_num_1"; "scan_type_num_2"; "ch_set_num_2"; "trace_num_2";
     "scan_type_num_3"; "ch_set_num_3"; "trace_num_3"; "scan_type_num_4"; "ch_set_num_4"; "trace_num_4";
     "scan_type_num_5"; "ch_set_num_5"; "trace_num_5"]);
   ("general_header_sen_calib_blk", 0x43, ["freq1"; "amp1"; "phase1"; "freq2"; "amp2"; "phase2"; "calib_applied"]);
   ("general_header_time_drift_blk", 0x44,
    ["time_of_depl"; "time_of_retr"; "timer_offset_depl"; "time_offset_retr"; "timedrift_corr"; "corr_method"]);
   ("general_header_elemag_src_rec_desc_blk", 0x45,
    ["equip_dim_x"; "equip_dim_y"; "equip_dim_z"; "pos_term"; "equip_offset_x"; "equip_offset_y"; "equip_offset_z"]);
   ("general_header_position_blk_1", 0x50,
    ["time_of_position"; "time_of_measurement"; "vert_error"; "hor_error_semi_major"; "hor_error_semi_minor";
     "hor_error_orientation"; "position_type"]);
   ("general_header_position_blk_2", 0x51,
    ["crs_a_coord1"; "crs_a_coord2"; "crs_a_coord3"; "crs_a_crsref"; "pos1_valid"; "pos1_quality"]);
   ("general_header_position_blk_3", 0x52,
    ["crs_b_coord1"; "crs_b_coord2"; "crs_b_coord3"; "crs_b_crsref"; "pos2_valid"; "pos2_quality"]);
   ("general_header_coord_ref_blk", 0x55, ["crs"]);
   ("general_header_relative_pos_blk", 0x56, ["offset_east"; "offset_north"; "offset_vert"; "description"]);
   ("general_header_orient_hdr_blk", 0x60,
    ["rot_x"; "rot_y"; "rot_z"; "ref_orientation"; "time_stamp"; "ori_type"; "ref_orient_valid"; "rot_applied";
     "rot_north_applied"]);
   ("general_header_measurement_blk", 0x61,
    ["timestamp"; "measurement_value"; "maximum_value"; "minimum_value"; "quantity_class"; "unit_of_measure";
     "measurement_description"])].

(** The fields of a block of type [ty] under the names [names]; the last byte
    is the type. *)
Definition named (ty : Z) (names : list string) : list (string * member) :=
  combine names (members_of ty) ++ [("gen_hdr_block_type", Num 31 1)].

(** A source whose line and point number are negative is not shown right
    (C52_negative_line_refuted). *)
Definition shown_sign (ty : Z) (x : list Z) : Prop :=
  source_mid ty <> None -> byt x 3 < 128 /\ byt x 8 < 128.

(** Methods and attributes for which the statement is false. *)
Definition wrong_methods : list string := ["general_header_client_name"; "general_header_explosive_info"].
Definition wrong_attrs (ty : Z) : list string :=
  match source_mid ty with
  | Some _ => ["offset_crossline"; "offset_inline"; "size"; "offset_depth"; "gen_hdr_block_type"]
  | None => []
  end ++
  match ty with
  | 0x19 => ["group_idx"; "depth_idx"]
  | 0x43 => ["freq2"; "amp2"; "phase2"]
  | 0x44 => ["gen_hdr_block_type"]
  | 0x61 => ["measurement_description"]
  | _ => []
  end.

(** ** SEG-Y binary header: names of the numbers of the standard

    [BS a b]: two's complement number in bytes [a] to [b], [BN a b]: unsigned
    number, [BF a b]: double precision. *)
Inductive bfld : Type := BS (a b : Z) | BN (a b : Z) | BF (a b : Z).
Definition bin_table : list (string * bfld) :=
  [("job_id", BS 3201 3204); ("line_num", BS 3205 3208); ("reel_num", BS 3209 3212); ("tr_per_ens", BS 3213 3214);
   ("aux_per_ens", BS 3215 3216); ("samp_int", BS 3217 3218); ("samp_int_orig", BS 3219 3220);
   ("samp_per_tr", BS 3221 3222); ("samp_per_tr_orig", BS 3223 3224); ("format_code", BS 3225 3226);
   ("ens_fold", BS 3227 3228); ("sort_code", BS 3229 3230); ("vert_sum_code", BS 3231 3232);
   ("sw_freq_at_start", BS 3233 3234); ("sw_freq_at_end", BS 3235 3236); ("sw_length", BS 3237 3238);
   ("sw_type_code", BS 3239 3240); ("sw_ch_tr_num", BS 3241 3242); ("taper_at_start", BS 3243 3244);
   ("taper_at_end", BS 3245 3246); ("taper_type", BS 3247 3248); ("corr_traces", BS 3249 3250);
   ("bin_gain_recov", BS 3251 3252); ("amp_recov_meth", BS 3253 3254); ("measure_system", BS 3255 3256);
   ("impulse_sig_pol", BS 3257 3258); ("vib_pol_code", BS 3259 3260); ("ext_tr_per_ens", BS 3261 3264);
   ("ext_aux_per_ens", BS 3265 3268); ("ext_samp_per_tr", BS 3269 3272); ("ext_samp_int", BF 3273 3280);
   ("ext_samp_int_orig", BF 3281 3288); ("ext_samp_per_tr_orig", BS 3289 3292); ("ext_ens_fold", BS 3293 3296);
   ("SEGY_rev_major_ver", BN 3501 3501); ("SEGY_rev_minor_ver", BN 3502 3502); ("fixed_tr_length", BS 3503 3504);
   ("ext_text_headers_num", BS 3505 3506)].
(** Revision 2 only. *)
Definition bin2_table : list (string * bfld) :=
  [("max_num_add_tr_headers", BS 3507 3510); ("time_basis_code", BS 3511 3512); ("num_of_tr_in_file", BN 3513 3520);
   ("byte_off_of_first_tr", BN 3521 3528); ("num_of_trailer_stanza", BS 3529 3532)].
(** The integer constant that tells the byte order. *)
Definition bin_all : list (string * bfld) := bin_table ++ bin2_table ++ [("endianness", BS 3297 3300)].

Definition bin_field (c : list Z) (o : order) (f : bfld) : pyval :=
  match f with
  | BS a b => PInt (sgnd c o a b)
  | BN a b => PInt (unsg c o a b)
  | BF a b => PFloat (unsg c o a b)
  end.

(** The Python values an attribute for field [f] takes. *)
Definition fits (f : bfld) (v : pyval) : Prop :=
  match f, v with
  | BS a b, PInt z => - 2 ^ (8 * (b - a + 1) - 1) <= z < 2 ^ (8 * (b - a + 1) - 1)
  | BN a b, PInt z => 0 <= z < 2 ^ (8 * (b - a + 1))
  | BF a b, PFloat d => True
  | _, _ => False
  end.

(** ** Assignments *)

(** The classes in which two attributes are stored in the same place. *)
Definition overlapping : list string := ["GeneralHeaderEle"; "GeneralHeaderSCa"].

(** [o.a = v] for all [(a, v)] of a list, in order. *)
Fixpoint assign_all (o : pyobj) (l : list (string * pyval)) : pyres pyobj :=
  match l with
  | [] => Ret o
  | (a, v) :: l' =>
    match setattr o a v with Ret o' => assign_all o' l' | Raise e => Raise e | PyUB => PyUB end
  end.
Definition is_number (v : pyval) : Prop := match v with PInt _ | PFloat _ => True | _ => False end.

(** The last value assigned to [a]. *)
Fixpoint last_value (l : list (string * pyval)) (a : string) : option pyval :=
  match l with
  | [] => None
  | (b, v) :: l' =>
    match last_value l' a with Some w => Some w | None => if String.eqb b a then Some v else None end
  end.

(** What is shown after [v] was assigned to an attribute that showed [old]:
    [v] itself; an [int] given to a [float] attribute as the [float] of the
    same value, if there is one. *)
Definition shown_after (old : pyres pyval) (v : pyval) (new : pyres pyval) : Prop :=
  match v, old with
  | PInt z, Ret (PFloat _) => exists d, new = Ret (PFloat d) /\ (Z.abs z <= 2 ^ 53 -> holds d (IZR z))
  | _, _ => new = Ret v
  end.

(** ** Members *)

(** A C++ member as Python should show it. *)
Definition member_shown (v : bval) (r : pyres pyval) : Prop :=
  match v with
  | BInt z => r = Ret (PInt z)
  | BDbl d => r = Ret (PFloat d)
  | BText l => text_shown l r
  end.

(** Members without an attribute, and attributes of another member. *)
Definition no_attribute : list (string * string) :=
  [("GeneralHeaderN", "sou_point_index"); ("GeneralHeaderExp", "group_idx"); ("GeneralHeaderEle", "depth_idx");
   ("GeneralHeaderTim", "gen_hdr_block_type"); ("GeneralHeaderMeas", "measurement_description");
   ("ChannelSetHeader", "ext_hdr_flag")].
Definition other_member : list (string * string * string) :=
  [("GeneralHeaderEle", "group_idx", "depth_idx"); ("GeneralHeaderEle", "offset_crossline", "offset_inline");
   ("GeneralHeaderSCa", "freq2", "freq1"); ("GeneralHeaderSCa", "amp2", "amp1"); ("GeneralHeaderSCa", "phase2", "phase1")].

(** What a list of texts is shown as. *)
Definition texts_shown (l : list (list Z)) (r : pyres (list pyval)) : Prop :=
  (exists us, Forall2 utf8 us l /\ r = Ret (map PStr us)) \/
  ((exists b, In b l /\ forall u, ~ utf8 u b) /\ r = Raise UnicodeDecodeError).
