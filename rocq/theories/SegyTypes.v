(** SEG-Y record types.  Generated part: the binary header, the default trace
    header layout and the default text header are transcribed from
    include/CommonSEGY.hpp:42-87 and src/CommonSEGY.cpp by a script that parses
    the source. *)
From Verif Require Import Base TraceHdr.

(** include/CommonSEGY.hpp:168-178 *)
Definition TEXT_HEADER_SIZE : Z := 3200.
Definition BIN_HEADER_SIZE : Z := 400.
Definition TR_HEADER_SIZE : Z := 240.

(** ** Binary header, include/CommonSEGY.hpp:42-87 *)
Record bin_hdr : Type := mkBin {
  bh_job_id : Z  (* int32_t *);
  bh_line_num : Z  (* int32_t *);
  bh_reel_num : Z  (* int32_t *);
  bh_tr_per_ens : Z  (* int16_t *);
  bh_aux_per_ens : Z  (* int16_t *);
  bh_samp_int : Z  (* int16_t *);
  bh_samp_int_orig : Z  (* int16_t *);
  bh_samp_per_tr : Z  (* int16_t *);
  bh_samp_per_tr_orig : Z  (* int16_t *);
  bh_format_code : Z  (* int16_t *);
  bh_ens_fold : Z  (* int16_t *);
  bh_sort_code : Z  (* int16_t *);
  bh_vert_sum_code : Z  (* int16_t *);
  bh_sw_freq_at_start : Z  (* int16_t *);
  bh_sw_freq_at_end : Z  (* int16_t *);
  bh_sw_length : Z  (* int16_t *);
  bh_sw_type_code : Z  (* int16_t *);
  bh_sw_ch_tr_num : Z  (* int16_t *);
  bh_taper_at_start : Z  (* int16_t *);
  bh_taper_at_end : Z  (* int16_t *);
  bh_taper_type : Z  (* int16_t *);
  bh_corr_traces : Z  (* int16_t *);
  bh_bin_gain_recov : Z  (* int16_t *);
  bh_amp_recov_meth : Z  (* int16_t *);
  bh_measure_system : Z  (* int16_t *);
  bh_impulse_sig_pol : Z  (* int16_t *);
  bh_vib_pol_code : Z  (* int16_t *);
  bh_ext_tr_per_ens : Z  (* int32_t *);
  bh_ext_aux_per_ens : Z  (* int32_t *);
  bh_ext_samp_per_tr : Z  (* int32_t *);
  bh_ext_samp_int : Z  (* double (bits) *);
  bh_ext_samp_int_orig : Z  (* double (bits) *);
  bh_ext_samp_per_tr_orig : Z  (* int32_t *);
  bh_ext_ens_fold : Z  (* int32_t *);
  bh_endianness : Z  (* int32_t *);
  bh_SEGY_rev_major_ver : Z  (* uint8_t *);
  bh_SEGY_rev_minor_ver : Z  (* uint8_t *);
  bh_fixed_tr_length : Z  (* int16_t *);
  bh_ext_text_headers_num : Z  (* int16_t *);
  bh_max_num_add_tr_headers : Z  (* int32_t *);
  bh_time_basis_code : Z  (* int16_t *);
  bh_num_of_tr_in_file : Z  (* uint64_t *);
  bh_byte_off_of_first_tr : Z  (* uint64_t *);
  bh_num_of_trailer_stanza : Z  (* int32_t *)
}.

(** [CommonSEGY::BinaryHeader zero = {};] *)
Definition bin_zero : bin_hdr :=
  mkBin 0 0 0 0 0 0 0 0 0 0 0 0 0 0 0 0 0 0 0 0 0 0 0 0 0 0 0 0 0 0 0 0 0 0 0 0 0 0 0 0 0 0 0 0.

(** All members as a list, in declaration order. *)
Definition bin_fields (b : bin_hdr) : list Z :=
  [bh_job_id b;
   bh_line_num b;
   bh_reel_num b;
   bh_tr_per_ens b;
   bh_aux_per_ens b;
   bh_samp_int b;
   bh_samp_int_orig b;
   bh_samp_per_tr b;
   bh_samp_per_tr_orig b;
   bh_format_code b;
   bh_ens_fold b;
   bh_sort_code b;
   bh_vert_sum_code b;
   bh_sw_freq_at_start b;
   bh_sw_freq_at_end b;
   bh_sw_length b;
   bh_sw_type_code b;
   bh_sw_ch_tr_num b;
   bh_taper_at_start b;
   bh_taper_at_end b;
   bh_taper_type b;
   bh_corr_traces b;
   bh_bin_gain_recov b;
   bh_amp_recov_meth b;
   bh_measure_system b;
   bh_impulse_sig_pol b;
   bh_vib_pol_code b;
   bh_ext_tr_per_ens b;
   bh_ext_aux_per_ens b;
   bh_ext_samp_per_tr b;
   bh_ext_samp_int b;
   bh_ext_samp_int_orig b;
   bh_ext_samp_per_tr_orig b;
   bh_ext_ens_fold b;
   bh_endianness b;
   bh_SEGY_rev_major_ver b;
   bh_SEGY_rev_minor_ver b;
   bh_fixed_tr_length b;
   bh_ext_text_headers_num b;
   bh_max_num_add_tr_headers b;
   bh_time_basis_code b;
   bh_num_of_tr_in_file b;
   bh_byte_off_of_first_tr b;
   bh_num_of_trailer_stanza b].

(** Width and signedness of the members, in declaration order. *)
Inductive ity := TI (w : Z) | TU (w : Z).
Definition bin_types : list ity :=
  [TI 32; TI 32; TI 32; TI 16; TI 16; TI 16; TI 16; TI 16; TI 16; TI 16; TI 16; TI 16; TI 16; TI 16; TI 16; TI 16; TI 16; TI 16; TI 16; TI 16; TI 16; TI 16; TI 16; TI 16; TI 16; TI 16; TI 16; TI 32; TI 32; TI 32; TU 64; TU 64; TI 32; TI 32; TI 32; TU 8; TU 8; TI 16; TI 16; TI 32; TI 16; TU 64; TU 64; TI 32].

Definition in_ity (t : ity) (v : Z) : bool :=
  match t with TI w => in_i w v | TU w => in_u w v end.

(** The record is one the C++ type can hold. *)
Definition bin_ok (b : bin_hdr) : bool :=
  forallb (fun tv => in_ity (fst tv) (snd tv)) (combine bin_types (bin_fields b)).

(** Member-wise equality (doubles bitwise), used for the [memcmp] against a
    zero header. *)
Definition bin_eqb (a b : bin_hdr) : bool :=
  forallb (fun xy => fst xy =? snd xy) (combine (bin_fields a) (bin_fields b)).

Definition set_format_code (b : bin_hdr) (v : Z) : bin_hdr :=
  mkBin (bh_job_id b) (bh_line_num b) (bh_reel_num b) (bh_tr_per_ens b) (bh_aux_per_ens b) (bh_samp_int b) (bh_samp_int_orig b) (bh_samp_per_tr b) (bh_samp_per_tr_orig b) v (bh_ens_fold b) (bh_sort_code b) (bh_vert_sum_code b) (bh_sw_freq_at_start b) (bh_sw_freq_at_end b) (bh_sw_length b) (bh_sw_type_code b) (bh_sw_ch_tr_num b) (bh_taper_at_start b) (bh_taper_at_end b) (bh_taper_type b) (bh_corr_traces b) (bh_bin_gain_recov b) (bh_amp_recov_meth b) (bh_measure_system b) (bh_impulse_sig_pol b) (bh_vib_pol_code b) (bh_ext_tr_per_ens b) (bh_ext_aux_per_ens b) (bh_ext_samp_per_tr b) (bh_ext_samp_int b) (bh_ext_samp_int_orig b) (bh_ext_samp_per_tr_orig b) (bh_ext_ens_fold b) (bh_endianness b) (bh_SEGY_rev_major_ver b) (bh_SEGY_rev_minor_ver b) (bh_fixed_tr_length b) (bh_ext_text_headers_num b) (bh_max_num_add_tr_headers b) (bh_time_basis_code b) (bh_num_of_tr_in_file b) (bh_byte_off_of_first_tr b) (bh_num_of_trailer_stanza b).

Definition set_samp_per_tr (b : bin_hdr) (v : Z) : bin_hdr :=
  mkBin (bh_job_id b) (bh_line_num b) (bh_reel_num b) (bh_tr_per_ens b) (bh_aux_per_ens b) (bh_samp_int b) (bh_samp_int_orig b) v (bh_samp_per_tr_orig b) (bh_format_code b) (bh_ens_fold b) (bh_sort_code b) (bh_vert_sum_code b) (bh_sw_freq_at_start b) (bh_sw_freq_at_end b) (bh_sw_length b) (bh_sw_type_code b) (bh_sw_ch_tr_num b) (bh_taper_at_start b) (bh_taper_at_end b) (bh_taper_type b) (bh_corr_traces b) (bh_bin_gain_recov b) (bh_amp_recov_meth b) (bh_measure_system b) (bh_impulse_sig_pol b) (bh_vib_pol_code b) (bh_ext_tr_per_ens b) (bh_ext_aux_per_ens b) (bh_ext_samp_per_tr b) (bh_ext_samp_int b) (bh_ext_samp_int_orig b) (bh_ext_samp_per_tr_orig b) (bh_ext_ens_fold b) (bh_endianness b) (bh_SEGY_rev_major_ver b) (bh_SEGY_rev_minor_ver b) (bh_fixed_tr_length b) (bh_ext_text_headers_num b) (bh_max_num_add_tr_headers b) (bh_time_basis_code b) (bh_num_of_tr_in_file b) (bh_byte_off_of_first_tr b) (bh_num_of_trailer_stanza b).

Definition set_samp_int (b : bin_hdr) (v : Z) : bin_hdr :=
  mkBin (bh_job_id b) (bh_line_num b) (bh_reel_num b) (bh_tr_per_ens b) (bh_aux_per_ens b) v (bh_samp_int_orig b) (bh_samp_per_tr b) (bh_samp_per_tr_orig b) (bh_format_code b) (bh_ens_fold b) (bh_sort_code b) (bh_vert_sum_code b) (bh_sw_freq_at_start b) (bh_sw_freq_at_end b) (bh_sw_length b) (bh_sw_type_code b) (bh_sw_ch_tr_num b) (bh_taper_at_start b) (bh_taper_at_end b) (bh_taper_type b) (bh_corr_traces b) (bh_bin_gain_recov b) (bh_amp_recov_meth b) (bh_measure_system b) (bh_impulse_sig_pol b) (bh_vib_pol_code b) (bh_ext_tr_per_ens b) (bh_ext_aux_per_ens b) (bh_ext_samp_per_tr b) (bh_ext_samp_int b) (bh_ext_samp_int_orig b) (bh_ext_samp_per_tr_orig b) (bh_ext_ens_fold b) (bh_endianness b) (bh_SEGY_rev_major_ver b) (bh_SEGY_rev_minor_ver b) (bh_fixed_tr_length b) (bh_ext_text_headers_num b) (bh_max_num_add_tr_headers b) (bh_time_basis_code b) (bh_num_of_tr_in_file b) (bh_byte_off_of_first_tr b) (bh_num_of_trailer_stanza b).

Definition set_ext_text_headers_num (b : bin_hdr) (v : Z) : bin_hdr :=
  mkBin (bh_job_id b) (bh_line_num b) (bh_reel_num b) (bh_tr_per_ens b) (bh_aux_per_ens b) (bh_samp_int b) (bh_samp_int_orig b) (bh_samp_per_tr b) (bh_samp_per_tr_orig b) (bh_format_code b) (bh_ens_fold b) (bh_sort_code b) (bh_vert_sum_code b) (bh_sw_freq_at_start b) (bh_sw_freq_at_end b) (bh_sw_length b) (bh_sw_type_code b) (bh_sw_ch_tr_num b) (bh_taper_at_start b) (bh_taper_at_end b) (bh_taper_type b) (bh_corr_traces b) (bh_bin_gain_recov b) (bh_amp_recov_meth b) (bh_measure_system b) (bh_impulse_sig_pol b) (bh_vib_pol_code b) (bh_ext_tr_per_ens b) (bh_ext_aux_per_ens b) (bh_ext_samp_per_tr b) (bh_ext_samp_int b) (bh_ext_samp_int_orig b) (bh_ext_samp_per_tr_orig b) (bh_ext_ens_fold b) (bh_endianness b) (bh_SEGY_rev_major_ver b) (bh_SEGY_rev_minor_ver b) (bh_fixed_tr_length b) v (bh_max_num_add_tr_headers b) (bh_time_basis_code b) (bh_num_of_tr_in_file b) (bh_byte_off_of_first_tr b) (bh_num_of_trailer_stanza b).

Definition set_endianness (b : bin_hdr) (v : Z) : bin_hdr :=
  mkBin (bh_job_id b) (bh_line_num b) (bh_reel_num b) (bh_tr_per_ens b) (bh_aux_per_ens b) (bh_samp_int b) (bh_samp_int_orig b) (bh_samp_per_tr b) (bh_samp_per_tr_orig b) (bh_format_code b) (bh_ens_fold b) (bh_sort_code b) (bh_vert_sum_code b) (bh_sw_freq_at_start b) (bh_sw_freq_at_end b) (bh_sw_length b) (bh_sw_type_code b) (bh_sw_ch_tr_num b) (bh_taper_at_start b) (bh_taper_at_end b) (bh_taper_type b) (bh_corr_traces b) (bh_bin_gain_recov b) (bh_amp_recov_meth b) (bh_measure_system b) (bh_impulse_sig_pol b) (bh_vib_pol_code b) (bh_ext_tr_per_ens b) (bh_ext_aux_per_ens b) (bh_ext_samp_per_tr b) (bh_ext_samp_int b) (bh_ext_samp_int_orig b) (bh_ext_samp_per_tr_orig b) (bh_ext_ens_fold b) v (bh_SEGY_rev_major_ver b) (bh_SEGY_rev_minor_ver b) (bh_fixed_tr_length b) (bh_ext_text_headers_num b) (bh_max_num_add_tr_headers b) (bh_time_basis_code b) (bh_num_of_tr_in_file b) (bh_byte_off_of_first_tr b) (bh_num_of_trailer_stanza b).

Definition set_num_of_trailer_stanza (b : bin_hdr) (v : Z) : bin_hdr :=
  mkBin (bh_job_id b) (bh_line_num b) (bh_reel_num b) (bh_tr_per_ens b) (bh_aux_per_ens b) (bh_samp_int b) (bh_samp_int_orig b) (bh_samp_per_tr b) (bh_samp_per_tr_orig b) (bh_format_code b) (bh_ens_fold b) (bh_sort_code b) (bh_vert_sum_code b) (bh_sw_freq_at_start b) (bh_sw_freq_at_end b) (bh_sw_length b) (bh_sw_type_code b) (bh_sw_ch_tr_num b) (bh_taper_at_start b) (bh_taper_at_end b) (bh_taper_type b) (bh_corr_traces b) (bh_bin_gain_recov b) (bh_amp_recov_meth b) (bh_measure_system b) (bh_impulse_sig_pol b) (bh_vib_pol_code b) (bh_ext_tr_per_ens b) (bh_ext_aux_per_ens b) (bh_ext_samp_per_tr b) (bh_ext_samp_int b) (bh_ext_samp_int_orig b) (bh_ext_samp_per_tr_orig b) (bh_ext_ens_fold b) (bh_endianness b) (bh_SEGY_rev_major_ver b) (bh_SEGY_rev_minor_ver b) (bh_fixed_tr_length b) (bh_ext_text_headers_num b) (bh_max_num_add_tr_headers b) (bh_time_basis_code b) (bh_num_of_tr_in_file b) (bh_byte_off_of_first_tr b) v.

(** ** Layouts: map<uint32_t, pair<string, ValueType>> sorted by offset *)

(** include/Trace.hpp:47-61 *)
Inductive vtype : Type :=
| I8 | U8 | I16 | U16 | I24 | U24 | I32 | U32 | I64 | U64 | Ibm | F32 | F64.

Definition entry : Type := (Z * (string * vtype))%type.
Definition e_off (e : entry) : Z := fst e.
Definition e_name (e : entry) : string := fst (snd e).
Definition e_type (e : entry) : vtype := snd (snd e).

Definition layout : Type := list entry.
Definition layouts : Type := list (string * layout).

(** std::map invariant: keys strictly increasing; keys are uint32_t. *)
Fixpoint keys_sorted (l : layout) : bool :=
  match l with
  | [] => true
  | e :: l' =>
    in_u 32 (e_off e)
    && match l' with [] => true | e' :: _ => e_off e <? e_off e' end
    && keys_sorted l'
  end.
Definition layouts_wf (ls : layouts) : bool :=
  forallb (fun nl => keys_sorted (snd nl)) ls.

(** src/CommonSEGY.cpp:51-79 *)
Definition vsize (t : vtype) : Z :=
  match t with
  | I8 | U8 => 1
  | I16 | U16 => 2
  | I24 | U24 => 3
  | I32 | U32 => 4
  | I64 | U64 => 8
  | Ibm | F32 => 4
  | F64 => 8
  end.

(** src/CommonSEGY.cpp:84-99: entries after the first, in key order.
    [i.first - prev] and [i.first + size] are uint32_t expressions. *)
Fixpoint check_rest (prev prev_size : Z) (l : layout) : outcome unit :=
  match l with
  | [] => Ok tt
  | e :: l' =>
    if wrapu 32 (e_off e - prev) <? prev_size then Throw ESedaman
    else if 240 <? wrapu 32 (e_off e + vsize (e_type e)) then Throw ESedaman
    else check_rest (e_off e) (vsize (e_type e)) l'
  end.

(** src/CommonSEGY.cpp:43-101 for one map: the first entry is only recorded. *)
Definition check_layout (nl : string * layout) : outcome unit :=
  if negb (Nat.eqb (String.length (fst nl)) 8) then Throw ESedaman
  else match snd nl with
       | [] => Ok tt
       | e :: l' => check_rest (e_off e) (vsize (e_type e)) l'
       end.

(** src/CommonSEGY.cpp:33-102 [check_tr_hdr_map].  [size() - 1] is size_t
    arithmetic, and the int32_t count is converted to size_t. *)
Definition check_tr_hdr_map (b : bin_hdr) (ls : layouts) : outcome unit :=
  if (1 <? bh_SEGY_rev_major_ver b)
     && negb (bh_max_num_add_tr_headers b =? 0)
     && negb (wrapu 64 (len ls - 1) =? wrapu 64 (bh_max_num_add_tr_headers b))
  then Throw ESedaman
  else let* _ := mapM check_layout ls in Ok tt.

(** src/CommonSEGY.cpp:104-227 *)
Definition default_trace_header : layouts :=
  [("SEG00000"%string,
    [(0, ("TRC_SEQ_LINE"%string, I32));
     (4, ("TRC_SEQ_SGY"%string, I32));
     (8, ("FFID"%string, I32));
     (12, ("CHAN"%string, I32));
     (16, ("ESP"%string, I32));
     (20, ("ENS_NO"%string, I32));
     (24, ("SEQ_NO"%string, I32));
     (28, ("TRACE_ID"%string, I16));
     (30, ("VERT_SUM"%string, I16));
     (32, ("HOR_SUM"%string, I16));
     (34, ("DATA_USE"%string, I16));
     (36, ("OFFSET"%string, I32));
     (40, ("R_ELEV"%string, I32));
     (44, ("S_ELEV"%string, I32));
     (48, ("S_DEPTH"%string, I32));
     (52, ("R_DATUM"%string, I32));
     (56, ("S_DATUM"%string, I32));
     (60, ("S_WATER"%string, I32));
     (64, ("R_WATER"%string, I32));
     (68, ("ELEV_SCALAR"%string, I16));
     (70, ("COORD_SCALAR"%string, I16));
     (72, ("SOU_X"%string, I32));
     (76, ("SOU_Y"%string, I32));
     (80, ("REC_X"%string, I32));
     (84, ("REC_Y"%string, I32));
     (88, ("COORD_UNITS"%string, I16));
     (90, ("WEATH_VEL"%string, I16));
     (92, ("SUBWEATH_VEL"%string, I16));
     (94, ("S_UPHOLE"%string, I16));
     (96, ("R_UPHOLE"%string, I16));
     (98, ("S_STAT"%string, I16));
     (100, ("R_STAT"%string, I16));
     (102, ("TOT_STAT"%string, I16));
     (104, ("LAG_A"%string, I16));
     (106, ("LAG_B"%string, I16));
     (108, ("DELAY_TIME"%string, I16));
     (110, ("MUTE_START"%string, I16));
     (112, ("MUTE_END"%string, I16));
     (114, ("SAMP_NUM"%string, I16));
     (116, ("SAMP_INT"%string, I16));
     (118, ("GAIN_TYPE"%string, I16));
     (120, ("GAIN_CONST"%string, I16));
     (122, ("INIT_GAIN"%string, I16));
     (124, ("CORRELATED"%string, I16));
     (126, ("SW_START"%string, I16));
     (128, ("SW_END"%string, I16));
     (130, ("SW_LENGTH"%string, I16));
     (132, ("SW_TYPE"%string, I16));
     (134, ("SW_TAPER_START"%string, I16));
     (136, ("SW_TAPER_END"%string, I16));
     (138, ("TAPER_TYPE"%string, I16));
     (140, ("ALIAS_FILT_FREQ"%string, I16));
     (142, ("ALIAS_FILT_SLOPE"%string, I16));
     (144, ("NOTCH_FILT_FREQ"%string, I16));
     (146, ("NOTCH_FILT_SLOPE"%string, I16));
     (148, ("LOW_CUT_FREQ"%string, I16));
     (150, ("HIGH_CUT_FREQ"%string, I16));
     (152, ("LOW_CUT_SLOPE"%string, I16));
     (154, ("HIGH_CUT_SLOPE"%string, I16));
     (156, ("YEAR"%string, I16));
     (158, ("DAY"%string, I16));
     (160, ("HOUR"%string, I16));
     (162, ("MINUTE"%string, I16));
     (164, ("SECOND"%string, I16));
     (166, ("TIME_BASIS_CODE"%string, I16));
     (168, ("TRACE_WEIGHT"%string, I16));
     (170, ("GROUP_NUM_ROLL"%string, I16));
     (172, ("GROUP_NUM_FIRST"%string, I16));
     (174, ("GROUP_NUM_LAST"%string, I16));
     (176, ("GAP_SIZE"%string, I16));
     (178, ("OVER_TRAVEL"%string, I16));
     (180, ("CDP_X"%string, I32));
     (184, ("CDP_Y"%string, I32));
     (188, ("INLINE"%string, I32));
     (192, ("XLINE"%string, I32));
     (196, ("SP_NUM"%string, I32));
     (200, ("SP_NUM_SCALAR"%string, I16));
     (202, ("TR_VAL_UNIT"%string, I16));
     (204, ("TRANS_CONST_MANT"%string, I32));
     (208, ("TRANS_CONST_EXP"%string, I16));
     (210, ("TRANS_UNITS"%string, I16));
     (212, ("DEVICE_ID"%string, I16));
     (214, ("TIME_SCALAR"%string, I16));
     (216, ("SOURCE_TYPE"%string, I16));
     (218, ("SOU_V_DIR"%string, I16));
     (220, ("SOU_X_DIR"%string, I16));
     (222, ("SOU_I_DIR"%string, I16));
     (224, ("SOURCE_MEASUREMENT_MANT"%string, I32));
     (228, ("SOURCE_MEASUREMENT_EXP"%string, I16));
     (230, ("SOU_MEAS_UNIT"%string, I16))]);
   ("SEG00001"%string,
    [(0, ("TRC_SEQ_LINE"%string, U64));
     (8, ("TRC_SEQ_SGY"%string, U64));
     (16, ("FFID"%string, U64));
     (24, ("ENS_NO"%string, U64));
     (32, ("R_ELEV"%string, F64));
     (40, ("R_DEPTH"%string, F64));
     (48, ("S_ELEV"%string, F64));
     (56, ("S_DEPTH"%string, F64));
     (64, ("R_DATUM"%string, F64));
     (72, ("S_DATUM"%string, F64));
     (80, ("S_WATER"%string, F64));
     (88, ("R_WATER"%string, F64));
     (96, ("SOU_X"%string, F64));
     (104, ("SOU_Y"%string, F64));
     (112, ("REC_X"%string, F64));
     (120, ("REC_Y"%string, F64));
     (128, ("OFFSET"%string, F64));
     (136, ("SAMP_NUM"%string, I32));
     (140, ("NANOSECOND"%string, I32));
     (144, ("SAMP_INT"%string, F64));
     (152, ("CABLE_NUM"%string, I32));
     (156, ("ADD_TRC_HDR_NUM"%string, I16));
     (158, ("LAST_TRC_FLAG"%string, I16));
     (160, ("CDP_X"%string, F64));
     (168, ("CDP_Y"%string, F64))])].

(** ** Text *)

Fixpoint bytes_of_string (s : string) : list Z :=
  match s with
  | EmptyString => []
  | String c s' => Z.of_N (N_of_ascii c) :: bytes_of_string s'
  end.

(** src/CommonSEGY.cpp:455-495 *)
Definition default_text_header : list Z :=
  concat (map bytes_of_string
   ["C 1 CLIENT                        COMPANY                       CREW NO         "%string;
    "C 2 LINE            AREA                        MAP ID                          "%string;
    "C 3 REEL NO           DAY-START OF REEL     YEAR      OBSERVER                  "%string;
    "C 4 INSTRUMENT: MFG            MODEL            SERIAL NO                       "%string;
    "C 5 DATA TRACES/RECORD        AUXILIARY TRACES/RECORD         CDP FOLD          "%string;
    "C 6 SAMPLE INTERVAL        SAMPLES/TRACE        BITS/IN     BYTES/SAMPLE        "%string;
    "C 7 RECORDING FORMAT       FORMAT THIS REEL         MEASUREMENT SYSTEM          "%string;
    "C 8 SAMPLE CODE: FLOATING PT     FIXED PT     FIXED PT-GAIN     CORRELATED      "%string;
    "C 9 GAIN  TYPE: FIXED     BINARY     FLOATING POINT     OTHER                   "%string;
    "C10 FILTERS: ALIAS     HZ  NOTCH     HZ  BAND     -     HZ  SLOPE    -    DB/OCT"%string;
    "C11 SOURCE: TYPE            NUMBER/POINT        POINT INTERVAL                  "%string;
    "C12     PATTERN:                           LENGTH        WIDTH                  "%string;
    "C13 SWEEP: START     HZ END      HZ  LENGTH      MS  CHANNEL NO     TYPE        "%string;
    "C14 TAPER: START LENGTH       MS  END LENGTH       MS TYPE                      "%string;
    "C15 SPREAD: OFFSET        MAX DISTANCE        GROUP INTEVAL                     "%string;
    "C16 GEOPHONES: PER GROUP     SPACEING    FREQUENCY     MFG          MODEL       "%string;
    "C17     PATTERN:                           LENGTH        WIDTH                  "%string;
    "C18 TRACES SORTED BY: RECORD     CDP     OTHER                                  "%string;
    "C19 AMPLITUDE RECOVERY: NONE      SPHERICAL DIV       AGC    OTHER              "%string;
    "C20 MAP PROJECTION                      ZONE ID       COORDINATE UNITS          "%string;
    "C21 PROCESSING:                                                                 "%string;
    "C22 PROCESSING:                                                                 "%string;
    "C23                                                                             "%string;
    "C24                                                                             "%string;
    "C25                                                                             "%string;
    "C26                                                                             "%string;
    "C27                                                                             "%string;
    "C28                                                                             "%string;
    "C29                                                                             "%string;
    "C30                                                                             "%string;
    "C31                                                                             "%string;
    "C32                                                                             "%string;
    "C33                                                                             "%string;
    "C34                                                                             "%string;
    "C35                                                                             "%string;
    "C36                                                                             "%string;
    "C37                                                                             "%string;
    "C38                                                                             "%string;
    "C39 SEG-Y_REV2.0                                                                "%string;
    "C40 END TEXTUAL HEADER                                                          "%string]).
