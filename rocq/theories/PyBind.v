(** The Python module.  Models src/pybind/pybind.cpp: the attributes of header
    objects, the methods of the readers and their iterators.

    pybind11 itself is part of the trusted base: [def_readwrite] reads and
    assigns the member, [def_property] calls the two functions, numbers become
    [int] and [float], [std::string] becomes [str] and is decoded as UTF-8,
    [optional] without a value becomes [None], an exception of the C++ side
    becomes a Python exception.  An argument that does not fit the C++ type is
    a [TypeError].  Of the Python values that can be assigned to an attribute
    only [int], [float], [str] and [bytes] are modelled (no subclasses, no
    objects with [__index__] or [__float__]).  Traces and their headers are in
    PyTrace.v; the writers and the optional members of channel set headers are
    left out.  No proofs in this file. *)
From Coq Require Import String.
From Verif Require Import Base Platform Fp TraceHdr SegyTypes SegyCodec ISegy Sorted1D SegdTypes ISegd.
Local Open Scope string_scope.
Local Open Scope list_scope.
Local Open Scope Z_scope.

(** ** Values and exceptions of Python *)
Inductive pyexn : Type :=
| AttributeError | TypeError | UnicodeDecodeError | StopIteration | NameError
| FromCpp (e : exn).
Inductive pyres (A : Type) : Type := Ret (a : A) | Raise (e : pyexn) | PyUB.
Arguments Ret {A}. Arguments Raise {A}. Arguments PyUB {A}.

(** [str] is the list of its code points. *)
Inductive pyval : Type :=
| PInt (z : Z) | PFloat (d : Z) | PStr (u : list Z) | PBytes (b : list Z).

Definition from_cpp {A} (o : outcome A) : pyres A :=
  match o with Ok a => Ret a | Throw e => Raise (FromCpp e) | UB => PyUB end.

(** ** UTF-8 as Python decodes and encodes it (strict) *)
Definition cont (b : Z) : bool := (128 <=? b) && (b <? 192).
Definition surrogate (c : Z) : bool := (0xd800 <=? c) && (c <? 0xe000).

Fixpoint utf8_dec (l : list Z) : option (list Z) :=
  match l with
  | [] => Some []
  | a :: l1 =>
    if a <? 0x80 then option_map (cons a) (utf8_dec l1)
    else match l1 with
    | [] => None
    | b :: l2 =>
      if negb (cont b) then None
      else if (0xc2 <=? a) && (a <? 0xe0) then
        option_map (cons ((a - 0xc0) * 64 + (b - 0x80))) (utf8_dec l2)
      else match l2 with
      | [] => None
      | c :: l3 =>
        if negb (cont c) then None
        else if (0xe0 <=? a) && (a <? 0xf0) then
          let v := (a - 0xe0) * 4096 + (b - 0x80) * 64 + (c - 0x80) in
          if (v <? 0x800) || surrogate v then None
          else option_map (cons v) (utf8_dec l3)
        else match l3 with
        | [] => None
        | d :: l4 =>
          if negb (cont d) || negb ((0xf0 <=? a) && (a <? 0xf5)) then None
          else
            let v := (a - 0xf0) * 262144 + (b - 0x80) * 4096 + (c - 0x80) * 64 + (d - 0x80) in
            if (v <? 0x10000) || (0x110000 <=? v) then None
            else option_map (cons v) (utf8_dec l4)
        end
      end
    end
  end.

(** [None]: a surrogate. *)
Definition utf8_enc1 (c : Z) : option (list Z) :=
  if c <? 0x80 then Some [c]
  else if c <? 0x800 then Some [0xc0 + c / 64; 0x80 + c mod 64]
  else if surrogate c then None
  else if c <? 0x10000 then Some [0xe0 + c / 4096; 0x80 + c / 64 mod 64; 0x80 + c mod 64]
  else Some [0xf0 + c / 262144; 0x80 + c / 4096 mod 64; 0x80 + c / 64 mod 64; 0x80 + c mod 64].
Fixpoint utf8_enc (u : list Z) : option (list Z) :=
  match u with
  | [] => Some []
  | c :: u' => match utf8_enc1 c, utf8_enc u' with Some a, Some b => Some (a ++ b) | _, _ => None end
  end.

(** ** Classes

    The members of the C++ class in the order of their declaration, and the
    attributes of the Python class: [def_readwrite] of a member, or the
    property with [string(h.m, n)] and [strncpy(h.m, s.c_str(), n)]. *)
Inductive ctype : Type := CU (bits : Z) | CI (bits : Z) | CD | CText (n : nat).
Inductive pyattr : Type := Rw (name member : string) | Chars (name member : string) (n : nat).
Record pyclass : Type := mkK { k_members : list (string * ctype); k_attrs : list pyattr }.

Definition attr_name (a : pyattr) : string := match a with Rw n _ => n | Chars n _ _ => n end.
Definition find_attr (k : pyclass) (a : string) : option pyattr :=
  find (fun x => String.eqb (attr_name x) a) (k_attrs k).

Fixpoint find_member (m : string) (l : list (string * ctype)) : option (nat * ctype) :=
  match l with
  | [] => None
  | (m', t) :: l' =>
    if String.eqb m m' then Some (O, t)
    else match find_member m l' with Some (i, t) => Some (S i, t) | None => None end
  end.

(** Reading an attribute of an object with the member values [vals].  Bytes of
    a [str] that are not UTF-8 are a UnicodeDecodeError. *)
Definition py_get (k : pyclass) (vals : list bval) (a : string) : pyres pyval :=
  match find_attr k a with
  | None => Raise AttributeError
  | Some (Rw _ m) =>
    match find_member m (k_members k) with
    | None => PyUB
    | Some (i, _) =>
      match nth_error vals i with
      | Some (BInt z) => Ret (PInt z)
      | Some (BDbl d) => Ret (PFloat d)
      | _ => PyUB
      end
    end
  | Some (Chars _ m n) =>
    match find_member m (k_members k) with
    | None => PyUB
    | Some (i, _) =>
      match nth_error vals i with
      | Some (BText l) =>
        if (List.length l <? n)%nat then PyUB
        else match utf8_dec (firstn n l) with
             | Some u => Ret (PStr u)
             | None => Raise UnicodeDecodeError
             end
      | _ => PyUB
      end
    end
  end.

(** [strncpy(dst, s, n)]: the characters in front of the first NUL, at most
    [n], then NULs up to [n]. *)
Fixpoint c_str (s : list Z) : list Z :=
  match s with [] => [] | c :: s' => if c =? 0 then [] else c :: c_str s' end.
Definition strncpy (dst s : list Z) (n : nat) : list Z :=
  let l := firstn n (c_str s) in
  l ++ repeat 0 (n - List.length l) ++ skipn n dst.

(** The characters of an argument of type [std::string]. *)
Definition as_string (v : pyval) : option (list Z) :=
  match v with PStr u => utf8_enc u | PBytes b => Some b | _ => None end.

(** The value of a member of type [t]; [float] attributes take an [int], too
    (PyFloat_AsDouble: nearest double, an error when there is none). *)
Definition as_member (t : ctype) (v : pyval) : option bval :=
  match t, v with
  | CU w, PInt z => if in_u w z then Some (BInt z) else None
  | CI w, PInt z => if in_i w z then Some (BInt z) else None
  | CD, PFloat d => Some (BDbl d)
  | CD, PInt z => if d_lt (d_abs (i2d z)) d_inf then Some (BDbl (i2d z)) else None
  | _, _ => None
  end.

Fixpoint put (l : list bval) (i : nat) (v : bval) : list bval :=
  match l, i with
  | [], _ => []
  | _ :: l', O => v :: l'
  | x :: l', S i' => x :: put l' i' v
  end.

(** Assigning to an attribute. *)
Definition py_set (k : pyclass) (vals : list bval) (a : string) (v : pyval) : pyres (list bval) :=
  match find_attr k a with
  | None => Raise AttributeError
  | Some (Rw _ m) =>
    match find_member m (k_members k) with
    | None => PyUB
    | Some (i, t) =>
      match as_member t v with Some x => Ret (put vals i x) | None => Raise TypeError end
    end
  | Some (Chars _ m n) =>
    match as_string v with
    | None => Raise TypeError
    | Some s =>
      match find_member m (k_members k) with
      | None => PyUB
      | Some (i, _) =>
        match nth_error vals i with
        | Some (BText l) =>
          if (List.length l <? n)%nat then PyUB else Ret (put vals i (BText (strncpy l s n)))
        | _ => PyUB
        end
      end
    end
  end.


(** CommonSEGY.hpp:44-87; pybind.cpp:80-168 *)
Definition k_BinaryHeader : pyclass := mkK
  [("job_id", CI 32); ("line_num", CI 32); ("reel_num", CI 32); ("tr_per_ens", CI 16);
   ("aux_per_ens", CI 16); ("samp_int", CI 16); ("samp_int_orig", CI 16); ("samp_per_tr", CI 16);
   ("samp_per_tr_orig", CI 16); ("format_code", CI 16); ("ens_fold", CI 16); ("sort_code", CI 16);
   ("vert_sum_code", CI 16); ("sw_freq_at_start", CI 16); ("sw_freq_at_end", CI 16); ("sw_length", CI 16);
   ("sw_type_code", CI 16); ("sw_ch_tr_num", CI 16); ("taper_at_start", CI 16); ("taper_at_end", CI 16);
   ("taper_type", CI 16); ("corr_traces", CI 16); ("bin_gain_recov", CI 16); ("amp_recov_meth", CI 16);
   ("measure_system", CI 16); ("impulse_sig_pol", CI 16); ("vib_pol_code", CI 16); ("ext_tr_per_ens", CI 32);
   ("ext_aux_per_ens", CI 32); ("ext_samp_per_tr", CI 32); ("ext_samp_int", CD); ("ext_samp_int_orig", CD);
   ("ext_samp_per_tr_orig", CI 32); ("ext_ens_fold", CI 32); ("endianness", CI 32);
   ("SEGY_rev_major_ver", CU 8); ("SEGY_rev_minor_ver", CU 8); ("fixed_tr_length", CI 16);
   ("ext_text_headers_num", CI 16); ("max_num_add_tr_headers", CI 32); ("time_basis_code", CI 16);
   ("num_of_tr_in_file", CU 64); ("byte_off_of_first_tr", CU 64); ("num_of_trailer_stanza", CI 32)]
  [Rw "job_id" "job_id"; Rw "line_num" "line_num"; Rw "reel_num" "reel_num"; Rw "tr_per_ens" "tr_per_ens";
   Rw "aux_per_ens" "aux_per_ens"; Rw "samp_int" "samp_int"; Rw "samp_int_orig" "samp_int_orig";
   Rw "samp_per_tr" "samp_per_tr"; Rw "samp_per_tr_orig" "samp_per_tr_orig"; Rw "format_code" "format_code";
   Rw "ens_fold" "ens_fold"; Rw "sort_code" "sort_code"; Rw "vert_sum_code" "vert_sum_code";
   Rw "sw_freq_at_start" "sw_freq_at_start"; Rw "sw_freq_at_end" "sw_freq_at_end";
   Rw "sw_length" "sw_length"; Rw "sw_type_code" "sw_type_code"; Rw "sw_ch_tr_num" "sw_ch_tr_num";
   Rw "taper_at_start" "taper_at_start"; Rw "taper_at_end" "taper_at_end"; Rw "taper_type" "taper_type";
   Rw "corr_traces" "corr_traces"; Rw "bin_gain_recov" "bin_gain_recov";
   Rw "amp_recov_meth" "amp_recov_meth"; Rw "measure_system" "measure_system";
   Rw "impulse_sig_pol" "impulse_sig_pol"; Rw "vib_pol_code" "vib_pol_code";
   Rw "ext_tr_per_ens" "ext_tr_per_ens"; Rw "ext_aux_per_ens" "ext_aux_per_ens";
   Rw "ext_samp_per_tr" "ext_samp_per_tr"; Rw "ext_samp_int" "ext_samp_int";
   Rw "ext_samp_int_orig" "ext_samp_int_orig"; Rw "ext_samp_per_tr_orig" "ext_samp_per_tr_orig";
   Rw "ext_ens_fold" "ext_ens_fold"; Rw "endianness" "endianness";
   Rw "SEGY_rev_major_ver" "SEGY_rev_major_ver"; Rw "SEGY_rev_minor_ver" "SEGY_rev_minor_ver";
   Rw "fixed_tr_length" "fixed_tr_length"; Rw "ext_text_headers_num" "ext_text_headers_num";
   Rw "max_num_add_tr_headers" "max_num_add_tr_headers"; Rw "time_basis_code" "time_basis_code";
   Rw "num_of_tr_in_file" "num_of_tr_in_file"; Rw "byte_off_of_first_tr" "byte_off_of_first_tr";
   Rw "num_of_trailer_stanza" "num_of_trailer_stanza"].

(** CommonSEGD.hpp:45-66; pybind.cpp:301-341 *)
Definition k_GeneralHeader : pyclass := mkK
  [("file_number", CI 32); ("format_code", CI 32); ("gen_const", CI 64); ("year", CI 32);
   ("add_gen_hdr_blocks", CI 32); ("day", CI 32); ("hour", CI 32); ("minute", CI 32); ("second", CI 32);
   ("manufac_code", CI 32); ("manufac_num", CI 32); ("bytes_per_scan", CI 64); ("base_scan_int", CD);
   ("polarity", CI 32); ("scans_per_block", CI 64); ("record_type", CI 32); ("record_length", CI 32);
   ("scan_types_per_record", CI 32); ("channel_sets_per_scan_type", CI 32); ("skew_blocks", CI 32);
   ("extended_hdr_blocks", CI 32); ("external_hdr_blocks", CI 32)]
  [Rw "file_number" "file_number"; Rw "format_code" "format_code"; Rw "gen_const" "gen_const";
   Rw "year" "year"; Rw "add_gen_hdr_blocks" "add_gen_hdr_blocks"; Rw "day" "day"; Rw "hour" "hour";
   Rw "minute" "minute"; Rw "second" "second"; Rw "manufac_code" "manufac_code";
   Rw "manufac_num" "manufac_num"; Rw "bytes_per_scan" "bytes_per_scan"; Rw "base_scan_int" "base_scan_int";
   Rw "polarity" "polarity"; Rw "scans_per_block" "scans_per_block"; Rw "record_type" "record_type";
   Rw "record_length" "record_length"; Rw "scan_types_per_record" "scan_types_per_record";
   Rw "channel_sets_per_scan_type" "channel_sets_per_scan_type"; Rw "skew_blocks" "skew_blocks";
   Rw "extended_hdr_blocks" "extended_hdr_blocks"; Rw "external_hdr_blocks" "external_hdr_blocks"].

(** CommonSEGD.hpp:113-126; pybind.cpp:348-380 *)
Definition k_GeneralHeader2 : pyclass := mkK
  [("expanded_file_num", CU 32); ("ext_ch_sets_per_scan_type", CU 16); ("extended_hdr_blocks", CU 32);
   ("external_hdr_blocks", CU 32); ("extended_skew_blocks", CU 16); ("segd_rev_major", CU 8);
   ("segd_rev_minor", CU 8); ("gen_trailer_num_of_blocks", CU 32); ("ext_record_len", CU 32);
   ("record_set_number", CU 16); ("ext_num_add_blks_in_gen_hdr", CU 16); ("dominant_sampling_int", CU 32);
   ("gen_hdr_block_num", CU 8); ("sequence_number", CU 16)]
  [Rw "expanded_file_num" "expanded_file_num"; Rw "ext_ch_sets_per_scan_type" "ext_ch_sets_per_scan_type";
   Rw "extended_hdr_blocks" "extended_hdr_blocks"; Rw "external_hdr_blocks" "external_hdr_blocks";
   Rw "extended_skew_blocks" "extended_skew_blocks"; Rw "segd_rev_major" "segd_rev_major";
   Rw "segd_rev_minor" "segd_rev_minor"; Rw "gen_trailer_num_of_blocks" "gen_trailer_num_of_blocks";
   Rw "ext_record_len" "ext_record_len"; Rw "record_set_number" "record_set_number";
   Rw "ext_num_add_blks_in_gen_hdr" "ext_num_add_blks_in_gen_hdr";
   Rw "dominant_sampling_int" "dominant_sampling_int"; Rw "gen_hdr_block_num" "gen_hdr_block_num";
   Rw "sequence_number" "sequence_number"].

(** CommonSEGD.hpp:215-223; pybind.cpp:394-410 *)
Definition k_GeneralHeaderN : pyclass := mkK
  [("expanded_file_number", CU 32); ("sou_line_num", CD); ("sou_point_num", CD); ("sou_point_index", CU 8);
   ("phase_control", CU 8); ("type_vibrator", CU 8); ("phase_angle", CI 16); ("gen_hdr_block_num", CU 8);
   ("sou_set_num", CU 8)]
  [Rw "expanded_file_number" "expanded_file_number"; Rw "sou_line_num" "sou_line_num";
   Rw "sou_point_num" "sou_point_num"; Rw "phase_control" "phase_control";
   Rw "type_vibrator" "type_vibrator"; Rw "phase_angle" "phase_angle";
   Rw "gen_hdr_block_num" "gen_hdr_block_num"; Rw "sou_set_num" "sou_set_num"].

(** CommonSEGD.hpp:264-270; pybind.cpp:417-430 *)
Definition k_GeneralHeader3 : pyclass := mkK
  [("time_zero", CU 64); ("record_size", CU 64); ("data_size", CU 64); ("header_size", CU 32);
   ("extd_rec_mode", CU 8); ("rel_time_mode", CU 8); ("gen_hdr_block_num", CU 8)]
  [Rw "time_zero" "time_zero"; Rw "record_size" "record_size"; Rw "data_size" "data_size";
   Rw "header_size" "header_size"; Rw "extd_rec_mode" "extd_rec_mode"; Rw "rel_time_mode" "rel_time_mode";
   Rw "gen_hdr_block_num" "gen_hdr_block_num"].

(** CommonSEGD.hpp:301-303; pybind.cpp:437-454 *)
Definition k_GeneralHeaderVes : pyclass := mkK
  [("abbr_vessel_crew_name", CText 3); ("vessel_crew_name", CText 28); ("gen_hdr_block_type", CU 8)]
  [Chars "abbr_vessel_crew_name" "abbr_vessel_crew_name" 3; Chars "vessel_crew_name" "vessel_crew_name" 28;
   Rw "gen_hdr_block_type" "gen_hdr_block_type"].

(** CommonSEGD.hpp:337-338; pybind.cpp:461-470 *)
Definition k_GeneralHeaderSur : pyclass := mkK
  [("survey_area_name", CText 31); ("gen_hdr_block_type", CU 8)]
  [Chars "survey_area_name" "survey_area_name" 31; Rw "gen_hdr_block_type" "gen_hdr_block_type"].

(** CommonSEGD.hpp:371-372; pybind.cpp:477-484 *)
Definition k_GeneralHeaderCli : pyclass := mkK
  [("client_name", CText 31); ("gen_hdr_block_type", CU 8)]
  [Chars "client_name" "client_name" 31; Rw "gen_hdr_block_type" "gen_hdr_block_type"].

(** CommonSEGD.hpp:405-407; pybind.cpp:491-504 *)
Definition k_GeneralHeaderJob : pyclass := mkK
  [("abbr_job_id", CText 5); ("job_id", CText 26); ("gen_hdr_block_type", CU 8)]
  [Chars "abbr_job_id" "abbr_job_id" 5; Chars "job_id" "job_id" 26;
   Rw "gen_hdr_block_type" "gen_hdr_block_type"].

(** CommonSEGD.hpp:441-443; pybind.cpp:511-524 *)
Definition k_GeneralHeaderLin : pyclass := mkK
  [("line_abbr", CText 7); ("line_id", CText 24); ("gen_hdr_block_type", CU 8)]
  [Chars "line_abbr" "line_abbr" 7; Chars "line_id" "line_id" 24; Rw "gen_hdr_block_type" "gen_hdr_block_type"].

(** CommonSEGD.hpp:477-493; pybind.cpp:531-565 *)
Definition k_GeneralHeaderVib : pyclass := mkK
  [("expanded_file_number", CU 32); ("sou_line_num", CD); ("sou_point_num", CD); ("sou_point_index", CU 8);
   ("phase_control", CU 8); ("type_vibrator", CU 8); ("phase_angle", CI 16); ("source_id", CU 8);
   ("source_set_num", CU 8); ("reshoot_idx", CU 8); ("group_idx", CU 8); ("depth_idx", CU 8);
   ("offset_crossline", CU 16); ("offset_inline", CU 16); ("size", CU 16); ("offset_depth", CU 16);
   ("gen_hdr_block_type", CU 8)]
  [Rw "expanded_file_number" "expanded_file_number"; Rw "sou_line_num" "sou_line_num";
   Rw "sou_point_num" "sou_point_num"; Rw "sou_point_index" "sou_point_index";
   Rw "phase_control" "phase_control"; Rw "type_vibrator" "type_vibrator"; Rw "phase_angle" "phase_angle";
   Rw "source_id" "source_id"; Rw "source_set_num" "source_set_num"; Rw "reshoot_idx" "reshoot_idx";
   Rw "group_idx" "group_idx"; Rw "depth_idx" "depth_idx"; Rw "offset_crossline" "offset_crossline";
   Rw "offset_inline" "offset_inline"; Rw "size" "size"; Rw "offset_depth" "offset_depth";
   Rw "gen_hdr_block_type" "gen_hdr_block_type"].

(** CommonSEGD.hpp:541-557; pybind.cpp:572-604 *)
Definition k_GeneralHeaderExp : pyclass := mkK
  [("expanded_file_number", CU 32); ("sou_line_num", CD); ("sou_point_num", CD); ("sou_point_index", CU 8);
   ("depth", CU 16); ("charge_length", CU 8); ("soil_type", CU 8); ("source_id", CU 8);
   ("source_set_num", CU 8); ("reshoot_idx", CU 8); ("group_idx", CU 8); ("depth_idx", CU 8);
   ("offset_crossline", CU 16); ("offset_inline", CU 16); ("size", CU 16); ("offset_depth", CU 16);
   ("gen_hdr_block_type", CU 8)]
  [Rw "expanded_file_number" "expanded_file_number"; Rw "sou_line_num" "sou_line_num";
   Rw "sou_point_num" "sou_point_num"; Rw "sou_point_index" "sou_point_index"; Rw "depth" "depth";
   Rw "charge_length" "charge_length"; Rw "soil_type" "soil_type"; Rw "source_id" "source_id";
   Rw "source_set_num" "source_set_num"; Rw "reshoot_idx" "reshoot_idx"; Rw "depth_idx" "depth_idx";
   Rw "offset_crossline" "offset_crossline"; Rw "offset_inline" "offset_inline"; Rw "size" "size";
   Rw "offset_depth" "offset_depth"; Rw "gen_hdr_block_type" "gen_hdr_block_type"].

(** CommonSEGD.hpp:605-620; pybind.cpp:611-643 *)
Definition k_GeneralHeaderAir : pyclass := mkK
  [("expanded_file_number", CU 32); ("sou_line_num", CD); ("sou_point_num", CD); ("sou_point_index", CU 8);
   ("depth", CU 16); ("air_pressure", CU 16); ("source_id", CU 8); ("source_set_num", CU 8);
   ("reshoot_idx", CU 8); ("group_idx", CU 8); ("depth_idx", CU 8); ("offset_crossline", CU 16);
   ("offset_inline", CU 16); ("size", CU 16); ("offset_depth", CU 16); ("gen_hdr_block_type", CU 8)]
  [Rw "expanded_file_number" "expanded_file_number"; Rw "sou_line_num" "sou_line_num";
   Rw "sou_point_num" "sou_point_num"; Rw "sou_point_index" "sou_point_index"; Rw "depth" "depth";
   Rw "air_pressure" "air_pressure"; Rw "source_id" "source_id"; Rw "source_set_num" "source_set_num";
   Rw "reshoot_idx" "reshoot_idx"; Rw "group_idx" "group_idx"; Rw "depth_idx" "depth_idx";
   Rw "offset_crossline" "offset_crossline"; Rw "offset_inline" "offset_inline"; Rw "size" "size";
   Rw "offset_depth" "offset_depth"; Rw "gen_hdr_block_type" "gen_hdr_block_type"].

(** CommonSEGD.hpp:667-682; pybind.cpp:650-682 *)
Definition k_GeneralHeaderWat : pyclass := mkK
  [("expanded_file_number", CU 32); ("sou_line_num", CD); ("sou_point_num", CD); ("sou_point_index", CU 8);
   ("depth", CU 16); ("air_pressure", CU 16); ("source_id", CU 8); ("source_set_num", CU 8);
   ("reshoot_idx", CU 8); ("group_idx", CU 8); ("depth_idx", CU 8); ("offset_crossline", CU 16);
   ("offset_inline", CU 16); ("size", CU 16); ("offset_depth", CU 16); ("gen_hdr_block_type", CU 8)]
  [Rw "expanded_file_number" "expanded_file_number"; Rw "sou_line_num" "sou_line_num";
   Rw "sou_point_num" "sou_point_num"; Rw "sou_point_index" "sou_point_index"; Rw "depth" "depth";
   Rw "air_pressure" "air_pressure"; Rw "source_id" "source_id"; Rw "source_set_num" "source_set_num";
   Rw "reshoot_idx" "reshoot_idx"; Rw "group_idx" "group_idx"; Rw "depth_idx" "depth_idx";
   Rw "offset_crossline" "offset_crossline"; Rw "offset_inline" "offset_inline"; Rw "size" "size";
   Rw "offset_depth" "offset_depth"; Rw "gen_hdr_block_type" "gen_hdr_block_type"].

(** CommonSEGD.hpp:729-744; pybind.cpp:689-719 *)
Definition k_GeneralHeaderEle : pyclass := mkK
  [("expanded_file_number", CU 32); ("sou_line_num", CD); ("sou_point_num", CD); ("sou_point_index", CU 8);
   ("source_type", CU 8); ("moment", CU 32); ("source_id", CU 8); ("source_set_num", CU 8);
   ("reshoot_idx", CU 8); ("group_idx", CU 8); ("depth_idx", CU 8); ("offset_crossline", CU 16);
   ("offset_inline", CU 16); ("size", CU 16); ("offset_depth", CU 16); ("gen_hdr_block_type", CU 8)]
  [Rw "expanded_file_number" "expanded_file_number"; Rw "sou_line_num" "sou_line_num";
   Rw "sou_point_num" "sou_point_num"; Rw "sou_point_index" "sou_point_index";
   Rw "source_type" "source_type"; Rw "moment" "moment"; Rw "source_id" "source_id";
   Rw "source_set_num" "source_set_num"; Rw "reshoot_idx" "reshoot_idx"; Rw "group_idx" "depth_idx";
   Rw "offset_crossline" "offset_inline"; Rw "offset_inline" "offset_inline"; Rw "size" "size";
   Rw "offset_depth" "offset_depth"; Rw "gen_hdr_block_type" "gen_hdr_block_type"].

(** CommonSEGD.hpp:791-804; pybind.cpp:726-754 *)
Definition k_GeneralHeaderOth : pyclass := mkK
  [("expanded_file_number", CU 32); ("sou_line_num", CD); ("sou_point_num", CD); ("sou_point_index", CU 8);
   ("source_id", CU 8); ("source_set_num", CU 8); ("reshoot_idx", CU 8); ("group_idx", CU 8);
   ("depth_idx", CU 8); ("offset_crossline", CU 16); ("offset_inline", CU 16); ("size", CU 16);
   ("offset_depth", CU 16); ("gen_hdr_block_type", CU 8)]
  [Rw "expanded_file_number" "expanded_file_number"; Rw "sou_line_num" "sou_line_num";
   Rw "sou_point_num" "sou_point_num"; Rw "sou_point_index" "sou_point_index"; Rw "source_id" "source_id";
   Rw "source_set_num" "source_set_num"; Rw "reshoot_idx" "reshoot_idx"; Rw "group_idx" "group_idx";
   Rw "depth_idx" "depth_idx"; Rw "offset_crossline" "offset_crossline"; Rw "offset_inline" "offset_inline";
   Rw "size" "size"; Rw "offset_depth" "offset_depth"; Rw "gen_hdr_block_type" "gen_hdr_block_type"].

(** CommonSEGD.hpp:849-854; pybind.cpp:761-778 *)
Definition k_GeneralHeaderAdd : pyclass := mkK
  [("time", CU 64); ("source_status", CU 8); ("source_id", CU 8); ("source_moving", CU 8);
   ("error_description", CText 20); ("gen_hdr_block_type", CU 8)]
  [Rw "time" "time"; Rw "source_status" "source_status"; Rw "source_id" "source_id";
   Rw "source_moving" "source_moving"; Chars "error_description" "error_description" 20;
   Rw "gen_hdr_block_type" "gen_hdr_block_type"].

(** CommonSEGD.hpp:891-907; pybind.cpp:785-818 *)
Definition k_GeneralHeaderSaux : pyclass := mkK
  [("source_id", CU 8); ("scan_type_num_1", CU 8); ("ch_set_num_1", CU 16); ("trace_num_1", CU 32);
   ("scan_type_num_2", CU 8); ("ch_set_num_2", CU 16); ("trace_num_2", CU 32); ("scan_type_num_3", CU 8);
   ("ch_set_num_3", CU 16); ("trace_num_3", CU 32); ("scan_type_num_4", CU 8); ("ch_set_num_4", CU 16);
   ("trace_num_4", CU 32); ("scan_type_num_5", CU 8); ("ch_set_num_5", CU 16); ("trace_num_5", CU 32);
   ("gen_hdr_block_type", CU 8)]
  [Rw "source_id" "source_id"; Rw "scan_type_num_1" "scan_type_num_1"; Rw "ch_set_num_1" "ch_set_num_1";
   Rw "trace_num_1" "trace_num_1"; Rw "scan_type_num_2" "scan_type_num_2"; Rw "ch_set_num_2" "ch_set_num_2";
   Rw "trace_num_2" "trace_num_2"; Rw "scan_type_num_3" "scan_type_num_3"; Rw "ch_set_num_3" "ch_set_num_3";
   Rw "trace_num_3" "trace_num_3"; Rw "scan_type_num_4" "scan_type_num_4"; Rw "ch_set_num_4" "ch_set_num_4";
   Rw "trace_num_4" "trace_num_4"; Rw "scan_type_num_5" "scan_type_num_5"; Rw "ch_set_num_5" "ch_set_num_5";
   Rw "trace_num_5" "trace_num_5"; Rw "gen_hdr_block_type" "gen_hdr_block_type"].

(** CommonSEGD.hpp:956-957; pybind.cpp:826-834 *)
Definition k_GeneralHeaderCoord : pyclass := mkK
  [("crs", CText 31); ("gen_hdr_block_type", CU 8)]
  [Chars "crs" "crs" 31; Rw "gen_hdr_block_type" "gen_hdr_block_type"].

(** CommonSEGD.hpp:990-997; pybind.cpp:842-861 *)
Definition k_GeneralHeaderPos1 : pyclass := mkK
  [("time_of_position", CU 64); ("time_of_measurement", CU 64); ("vert_error", CU 32);
   ("hor_error_semi_major", CU 32); ("hor_error_semi_minor", CU 32); ("hor_error_orientation", CU 16);
   ("position_type", CU 8); ("gen_hdr_block_type", CU 8)]
  [Rw "time_of_position" "time_of_position"; Rw "time_of_measurement" "time_of_measurement";
   Rw "vert_error" "vert_error"; Rw "hor_error_semi_major" "hor_error_semi_major";
   Rw "hor_error_semi_minor" "hor_error_semi_minor"; Rw "hor_error_orientation" "hor_error_orientation";
   Rw "position_type" "position_type"; Rw "gen_hdr_block_type" "gen_hdr_block_type"].

(** CommonSEGD.hpp:1036-1042; pybind.cpp:868-881 *)
Definition k_GeneralHeaderPos2 : pyclass := mkK
  [("crs_a_coord1", CU 64); ("crs_a_coord2", CU 64); ("crs_a_coord3", CU 64); ("crs_a_crsref", CU 16);
   ("pos1_valid", CU 8); ("pos1_quality", CU 8); ("gen_hdr_block_type", CU 8)]
  [Rw "crs_a_coord1" "crs_a_coord1"; Rw "crs_a_coord2" "crs_a_coord2"; Rw "crs_a_coord3" "crs_a_coord3";
   Rw "crs_a_crsref" "crs_a_crsref"; Rw "pos1_valid" "pos1_valid"; Rw "pos1_quality" "pos1_quality";
   Rw "gen_hdr_block_type" "gen_hdr_block_type"].

(** CommonSEGD.hpp:1080-1086; pybind.cpp:888-901 *)
Definition k_GeneralHeaderPos3 : pyclass := mkK
  [("crs_b_coord1", CU 64); ("crs_b_coord2", CU 64); ("crs_b_coord3", CU 64); ("crs_b_crsref", CU 16);
   ("pos2_valid", CU 8); ("pos2_quality", CU 8); ("gen_hdr_block_type", CU 8)]
  [Rw "crs_b_coord1" "crs_b_coord1"; Rw "crs_b_coord2" "crs_b_coord2"; Rw "crs_b_coord3" "crs_b_coord3";
   Rw "crs_b_crsref" "crs_b_crsref"; Rw "pos2_valid" "pos2_valid"; Rw "pos2_quality" "pos2_quality";
   Rw "gen_hdr_block_type" "gen_hdr_block_type"].

(** CommonSEGD.hpp:1124-1128; pybind.cpp:908-921 *)
Definition k_GeneralHeaderRel : pyclass := mkK
  [("offset_east", CU 32); ("offset_north", CU 32); ("offset_vert", CU 32); ("description", CText 19);
   ("gen_hdr_block_type", CU 8)]
  [Rw "offset_east" "offset_east"; Rw "offset_north" "offset_north"; Rw "offset_vert" "offset_vert";
   Chars "description" "description" 19; Rw "gen_hdr_block_type" "gen_hdr_block_type"].

(** CommonSEGD.hpp:1164-1168; pybind.cpp:928-944 *)
Definition k_GeneralHeaderSen : pyclass := mkK
  [("instrument_test_time", CU 64); ("sensor_sensitivity", CU 32); ("instr_test_result", CU 8);
   ("serial_number", CText 28); ("gen_hdr_block_type", CU 8)]
  [Rw "instrument_test_time" "instrument_test_time"; Rw "sensor_sensitivity" "sensor_sensitivity";
   Rw "instr_test_result" "instr_test_result"; Chars "serial_number" "serial_number" 28;
   Rw "gen_hdr_block_type" "gen_hdr_block_type"].

(** CommonSEGD.hpp:1204-1211; pybind.cpp:951-966 *)
Definition k_GeneralHeaderSCa : pyclass := mkK
  [("freq1", CU 32); ("amp1", CU 32); ("phase1", CU 32); ("freq2", CU 32); ("amp2", CU 32);
   ("phase2", CU 32); ("calib_applied", CU 8); ("gen_hdr_block_type", CU 8)]
  [Rw "freq1" "freq1"; Rw "amp1" "amp1"; Rw "phase1" "phase1"; Rw "freq2" "freq1"; Rw "amp2" "amp1";
   Rw "phase2" "phase1"; Rw "calib_applied" "calib_applied"; Rw "gen_hdr_block_type" "gen_hdr_block_type"].

(** CommonSEGD.hpp:1250-1256; pybind.cpp:973-984 *)
Definition k_GeneralHeaderTim : pyclass := mkK
  [("time_of_depl", CU 64); ("time_of_retr", CU 64); ("timer_offset_depl", CU 32);
   ("time_offset_retr", CU 32); ("timedrift_corr", CU 8); ("corr_method", CU 8); ("gen_hdr_block_type", CU 8)]
  [Rw "time_of_depl" "time_of_depl"; Rw "time_of_retr" "time_of_retr";
   Rw "timer_offset_depl" "timer_offset_depl"; Rw "time_offset_retr" "time_offset_retr";
   Rw "timedrift_corr" "timedrift_corr"; Rw "corr_method" "corr_method"].

(** CommonSEGD.hpp:1294-1301; pybind.cpp:991-1006 *)
Definition k_GeneralHeaderElSR : pyclass := mkK
  [("equip_dim_x", CU 32); ("equip_dim_y", CU 32); ("equip_dim_z", CU 32); ("pos_term", CU 8);
   ("equip_offset_x", CU 32); ("equip_offset_y", CU 32); ("equip_offset_z", CU 32);
   ("gen_hdr_block_type", CU 8)]
  [Rw "equip_dim_x" "equip_dim_x"; Rw "equip_dim_y" "equip_dim_y"; Rw "equip_dim_z" "equip_dim_z";
   Rw "pos_term" "pos_term"; Rw "equip_offset_x" "equip_offset_x"; Rw "equip_offset_y" "equip_offset_y";
   Rw "equip_offset_z" "equip_offset_z"; Rw "gen_hdr_block_type" "gen_hdr_block_type"].

(** CommonSEGD.hpp:1340-1349; pybind.cpp:1013-1032 *)
Definition k_GeneralHeaderOri : pyclass := mkK
  [("rot_x", CU 32); ("rot_y", CU 32); ("rot_z", CU 32); ("ref_orientation", CU 32); ("time_stamp", CU 64);
   ("ori_type", CU 8); ("ref_orient_valid", CU 8); ("rot_applied", CU 8); ("rot_north_applied", CU 8);
   ("gen_hdr_block_type", CU 8)]
  [Rw "rot_x" "rot_x"; Rw "rot_y" "rot_y"; Rw "rot_z" "rot_z"; Rw "ref_orientation" "ref_orientation";
   Rw "time_stamp" "time_stamp"; Rw "ori_type" "ori_type"; Rw "ref_orient_valid" "ref_orient_valid";
   Rw "rot_applied" "rot_applied"; Rw "rot_north_applied" "rot_north_applied";
   Rw "gen_hdr_block_type" "gen_hdr_block_type"].

(** CommonSEGD.hpp:1391-1398; pybind.cpp:1039-1052 *)
Definition k_GeneralHeaderMeas : pyclass := mkK
  [("timestamp", CU 64); ("measurement_value", CU 32); ("maximum_value", CU 32); ("minimum_value", CU 32);
   ("quantity_class", CU 16); ("unit_of_measure", CU 16); ("measurement_description", CU 16);
   ("gen_hdr_block_type", CU 8)]
  [Rw "timestamp" "timestamp"; Rw "measurement_value" "measurement_value";
   Rw "maximum_value" "maximum_value"; Rw "minimum_value" "minimum_value";
   Rw "quantity_class" "quantity_class"; Rw "unit_of_measure" "unit_of_measure";
   Rw "gen_hdr_block_type" "gen_hdr_block_type"].

(** CommonSEGD.hpp:1437-1458; pybind.cpp:1059-1106 *)
Definition k_ChannelSetHeader : pyclass := mkK
  [("scan_type_number", CI 32); ("channel_set_number", CU 16); ("channel_type", CU 8);
   ("channel_set_start_time", CU 32); ("channel_set_end_time", CU 32); ("descale_multiplier", CD);
   ("number_of_channels", CU 32); ("subscans_per_ch_set", CI 32); ("channel_gain", CU 8);
   ("alias_filter_freq", CU 32); ("alias_filter_slope", CU 32); ("low_cut_filter_freq", CU 32);
   ("low_cut_filter_slope", CU 32); ("first_notch_filter", CU 32); ("second_notch_filter", CU 32);
   ("third_notch_filter", CU 32); ("ext_ch_set_num", CU 16); ("ext_hdr_flag", CU 8); ("trc_hdr_ext", CU 8);
   ("vert_stack", CU 8); ("streamer_no", CU 8); ("array_forming", CU 8)]
  [Rw "scan_type_number" "scan_type_number"; Rw "channel_set_number" "channel_set_number";
   Rw "channel_type" "channel_type"; Rw "channel_set_start_time" "channel_set_start_time";
   Rw "channel_set_end_time" "channel_set_end_time"; Rw "descale_multiplier" "descale_multiplier";
   Rw "number_of_channels" "number_of_channels"; Rw "subscans_per_ch_set" "subscans_per_ch_set";
   Rw "channel_gain" "channel_gain"; Rw "alias_filter_freq" "alias_filter_freq";
   Rw "alias_filter_slope" "alias_filter_slope"; Rw "low_cut_filter_freq" "low_cut_filter_freq";
   Rw "low_cut_filter_slope" "low_cut_filter_slope"; Rw "first_notch_filter" "first_notch_filter";
   Rw "second_notch_filter" "second_notch_filter"; Rw "third_notch_filter" "third_notch_filter";
   Rw "ext_ch_set_num" "ext_ch_set_num"; Rw "trc_hdr_ext" "trc_hdr_ext"; Rw "vert_stack" "vert_stack";
   Rw "streamer_no" "streamer_no"; Rw "array_forming" "array_forming"].

(** ** The member values of the objects, in the order of the declarations *)

Definition v_bin (b : bin_hdr) : list bval :=
  [BInt (bh_job_id b); BInt (bh_line_num b); BInt (bh_reel_num b); BInt (bh_tr_per_ens b);
   BInt (bh_aux_per_ens b); BInt (bh_samp_int b); BInt (bh_samp_int_orig b); BInt (bh_samp_per_tr b);
   BInt (bh_samp_per_tr_orig b); BInt (bh_format_code b); BInt (bh_ens_fold b); BInt (bh_sort_code b);
   BInt (bh_vert_sum_code b); BInt (bh_sw_freq_at_start b); BInt (bh_sw_freq_at_end b);
   BInt (bh_sw_length b); BInt (bh_sw_type_code b); BInt (bh_sw_ch_tr_num b); BInt (bh_taper_at_start b);
   BInt (bh_taper_at_end b); BInt (bh_taper_type b); BInt (bh_corr_traces b); BInt (bh_bin_gain_recov b);
   BInt (bh_amp_recov_meth b); BInt (bh_measure_system b); BInt (bh_impulse_sig_pol b);
   BInt (bh_vib_pol_code b); BInt (bh_ext_tr_per_ens b); BInt (bh_ext_aux_per_ens b);
   BInt (bh_ext_samp_per_tr b); BDbl (bh_ext_samp_int b); BDbl (bh_ext_samp_int_orig b);
   BInt (bh_ext_samp_per_tr_orig b); BInt (bh_ext_ens_fold b); BInt (bh_endianness b);
   BInt (bh_SEGY_rev_major_ver b); BInt (bh_SEGY_rev_minor_ver b); BInt (bh_fixed_tr_length b);
   BInt (bh_ext_text_headers_num b); BInt (bh_max_num_add_tr_headers b); BInt (bh_time_basis_code b);
   BInt (bh_num_of_tr_in_file b); BInt (bh_byte_off_of_first_tr b); BInt (bh_num_of_trailer_stanza b)].

Definition v_g1 (g : gh1) : list bval :=
  [BInt (g1_file_number g); BInt (g1_format_code g); BInt (g1_gen_const g); BInt (g1_year g);
   BInt (g1_add_blocks g); BInt (g1_day g); BInt (g1_hour g); BInt (g1_minute g); BInt (g1_second g);
   BInt (g1_manufac_code g); BInt (g1_manufac_num g); BInt (g1_bytes_per_scan g); BDbl (g1_base_scan_int g);
   BInt (g1_polarity g); BInt (g1_scans_per_block g); BInt (g1_record_type g); BInt (g1_record_length g);
   BInt (g1_scan_types g); BInt (g1_channel_sets g); BInt (g1_skew_blocks g); BInt (g1_extended_blocks g);
   BInt (g1_external_blocks g)].

Definition v_g2 (g : gh2) : list bval :=
  [BInt (g2_file_num g); BInt (g2_channel_sets g); BInt (g2_extended_blocks g); BInt (g2_external_blocks g);
   BInt (g2_skew_blocks g); BInt (g2_major g); BInt (g2_minor g); BInt (g2_trailer_blocks g);
   BInt (g2_record_len g); BInt (g2_record_set g); BInt (g2_add_blocks g); BInt (g2_sampling_int g);
   BInt (g2_block_num g); BInt (g2_sequence g)].

Definition v_gN (g : ghN) : list bval :=
  [BInt (gN_file_number g); BDbl (gN_line g); BDbl (gN_point g); BInt (gN_point_index g);
   BInt (gN_phase_control g); BInt (gN_type_vibrator g); BInt (gN_phase_angle g); BInt (gN_block_num g);
   BInt (gN_set_num g)].

Definition v_g3 (g : gh3) : list bval :=
  [BInt (g3_time_zero g); BInt (g3_record_size g); BInt (g3_data_size g); BInt (g3_header_size g);
   BInt (g3_rec_mode g); BInt (g3_time_mode g); BInt (g3_block_num g)].

Definition v_chset (c : chset) : list bval :=
  [BInt (c_scan_type c); BInt (c_number c); BInt (c_type c); BInt (c_start c); BInt (c_end c);
   BDbl (c_descale c); BInt (c_channels c); BInt (c_subscans c); BInt (c_gain c); BInt (c_alias_freq c);
   BInt (c_alias_slope c); BInt (c_low_freq c); BInt (c_low_slope c); BInt (c_notch1 c); BInt (c_notch2 c);
   BInt (c_notch3 c); BInt (c_ext_num c); BInt (c_ext_flag c); BInt (c_hdr_ext c); BInt (c_vert_stack c);
   BInt (c_streamer c); BInt (c_array c)].

(** ** Revision 3 blocks

    The class of the blocks of a type (the switch of ISEGD.cpp:406-508); the
    members are filled in the order of their declaration (ISEGD.cpp:510-915),
    [gen_hdr_block_type] last. *)
Definition k_block (cls : Z) : option pyclass :=
  match cls with
  | 0x10 => Some k_GeneralHeaderVes
  | 0x11 => Some k_GeneralHeaderSur
  | 0x12 => Some k_GeneralHeaderCli
  | 0x13 => Some k_GeneralHeaderJob
  | 0x14 => Some k_GeneralHeaderLin
  | 0x15 => Some k_GeneralHeaderVib
  | 0x16 => Some k_GeneralHeaderExp
  | 0x17 => Some k_GeneralHeaderAir
  | 0x18 => Some k_GeneralHeaderWat
  | 0x19 => Some k_GeneralHeaderEle
  | 0x1f => Some k_GeneralHeaderOth
  | 0x20 => Some k_GeneralHeaderAdd
  | 0x21 => Some k_GeneralHeaderSaux
  | 0x41 => Some k_GeneralHeaderSen
  | 0x43 => Some k_GeneralHeaderSCa
  | 0x44 => Some k_GeneralHeaderTim
  | 0x45 => Some k_GeneralHeaderElSR
  | 0x50 => Some k_GeneralHeaderPos1
  | 0x51 => Some k_GeneralHeaderPos2
  | 0x52 => Some k_GeneralHeaderPos3
  | 0x55 => Some k_GeneralHeaderCoord
  | 0x56 => Some k_GeneralHeaderRel
  | 0x60 => Some k_GeneralHeaderOri
  | 0x61 => Some k_GeneralHeaderMeas
  | _ => None
  end.

(** The accessors of ISEGD and the type of the block they look for,
    ISEGD.cpp:1434-1716 with the numbers of CommonSEGD.hpp:171-198. *)
Definition cpp_accessors : list (string * Z) :=
  [("general_header_vessel_crew_id", 0x10); ("general_header_survey_name", 0x11);
   ("general_header_client_name", 0x12); ("general_header_job_id", 0x13); ("general_header_line_id", 0x14);
   ("general_header_vibrator_info", 0x15); ("general_header_explosive_info", 0x16);
   ("general_header_airgun_info", 0x17); ("general_header_watergun_info", 0x18);
   ("general_header_electromagnetic_info", 0x19); ("general_header_other_source_info", 0x1f);
   ("general_header_add_source_info", 0x20); ("general_header_sou_aux_chan_ref", 0x21);
   ("general_header_sen_info_hdr_ext_blk", 0x41); ("general_header_sen_calib_blk", 0x43);
   ("general_header_time_drift_blk", 0x44); ("general_header_elemag_src_rec_desc_blk", 0x45);
   ("general_header_position_blk_1", 0x50); ("general_header_position_blk_2", 0x51);
   ("general_header_position_blk_3", 0x52); ("general_header_coord_ref_blk", 0x55);
   ("general_header_relative_pos_blk", 0x56); ("general_header_orient_hdr_blk", 0x60);
   ("general_header_measurement_blk", 0x61)].

(** The methods of the Python class and the accessor each one is bound to,
    pybind.cpp:1134-1197. *)
Definition py_methods : list (string * string) :=
  [("general_header_vessel_crew_id", "general_header_vessel_crew_id");
   ("general_header_survey_name", "general_header_survey_name");
   ("general_header_client_name", "general_header_survey_name");
   ("general_header_job_id", "general_header_job_id");
   ("general_header_line_id", "general_header_line_id");
   ("general_header_vibrator_info", "general_header_vibrator_info");
   ("general_header_explosive_info", "general_header_airgun_info");
   ("general_header_airgun_info", "general_header_airgun_info");
   ("general_header_watergun_info", "general_header_watergun_info");
   ("general_header_electromagnetic_info", "general_header_electromagnetic_info");
   ("general_header_other_source_info", "general_header_other_source_info");
   ("general_header_add_source_info", "general_header_add_source_info");
   ("general_header_sou_aux_chan_ref", "general_header_sou_aux_chan_ref");
   ("general_header_sen_info_hdr_ext_blk", "general_header_sen_info_hdr_ext_blk");
   ("general_header_sen_calib_blk", "general_header_sen_calib_blk");
   ("general_header_time_drift_blk", "general_header_time_drift_blk");
   ("general_header_elemag_src_rec_desc_blk", "general_header_elemag_src_rec_desc_blk");
   ("general_header_position_blk_1", "general_header_position_blk_1");
   ("general_header_position_blk_2", "general_header_position_blk_2");
   ("general_header_position_blk_3", "general_header_position_blk_3");
   ("general_header_coord_ref_blk", "general_header_coord_ref_blk");
   ("general_header_relative_pos_blk", "general_header_relative_pos_blk");
   ("general_header_orient_hdr_blk", "general_header_orient_hdr_blk");
   ("general_header_measurement_blk", "general_header_measurement_blk")].

Definition assoc {A} (l : list (string * A)) (k : string) : option A :=
  match find (fun x => String.eqb (fst x) k) l with Some x => Some (snd x) | None => None end.

(** An object: its class and the values of its members. *)
Definition pyobj : Type := pyclass * list bval.
Definition getattr (o : pyobj) (a : string) : pyres pyval := py_get (fst o) (snd o) a.
Definition setattr (o : pyobj) (a : string) (v : pyval) : pyres pyobj :=
  match py_set (fst o) (snd o) a v with
  | Ret vals => Ret (fst o, vals) | Raise e => Raise e | PyUB => PyUB
  end.

(** ISEGD.cpp:1434-1716: the copy of the block of type [cls]. *)
Definition block_object (s : isegd) (cls : Z) : outcome (option pyobj) :=
  match bfind (d_blocks s) cls with
  | None => Ok None
  | Some (A3 c vs ty) =>
    if c =? cls then
      match k_block cls with Some k => Ok (Some (k, vs ++ [BInt ty])) | None => UB end
    else UB
  | Some (AN _) => UB
  end.

(** [isegd.m()] for the methods above; [None] is Python's [None]. *)
Definition py_block (s : isegd) (m : string) : pyres (option pyobj) :=
  match assoc py_methods m with
  | None => Raise AttributeError
  | Some a =>
    match assoc cpp_accessors a with
    | None => PyUB
    | Some cls => from_cpp (block_object s cls)
    end
  end.

(** pybind.cpp:1126-1133, 1198-1203: the other headers.  A [vector<char>]
    becomes a list of strings of one character (Latin-1). *)
Definition py_general_header (s : isegd) : pyobj := (k_GeneralHeader, v_g1 (d_g1 s)).
Definition py_general_header2 (s : isegd) : option pyobj :=
  option_map (fun g => (k_GeneralHeader2, v_g2 g)) (get_g2 s).
Definition py_general_header3 (s : isegd) : option pyobj :=
  option_map (fun g => (k_GeneralHeader3, v_g3 g)) (get_g3 s).
Definition py_general_headerN (s : isegd) : pyres (list pyobj) :=
  from_cpp (let* l := get_gN s in Ok (map (fun g => (k_GeneralHeaderN, v_gN g)) l)).
Definition py_channel_set_headers (s : isegd) : list (list pyobj) :=
  map (map (fun c => (k_ChannelSetHeader, v_chset c))) (d_sets s).
Definition py_chars (b : list Z) : list pyval := map (fun c => PStr [c]) b.
Definition py_extended_headers (s : isegd) : list (list pyval) := map py_chars (d_extd s).
Definition py_external_headers (s : isegd) : list (list pyval) := map py_chars (d_extl s).

(** pybind.cpp:189-205: SEG-Y.  Text headers are [bytes], trailer stanzas
    [str]. *)
Definition py_binary_header (s : isegy) : pyobj := (k_BinaryHeader, v_bin (i_bh s)).
Definition py_text_headers (s : isegy) : list pyval := map PBytes (i_text s).
Fixpoint py_strings (l : list (list Z)) : pyres (list pyval) :=
  match l with
  | [] => Ret []
  | b :: l' =>
    match utf8_dec b with
    | None => Raise UnicodeDecodeError
    | Some u => match py_strings l' with Ret r => Ret (PStr u :: r) | Raise e => Raise e | PyUB => PyUB end
    end
  end.
Definition py_trailer_stanzas (s : isegy) : pyres (list pyval) := py_strings (i_stanzas s).

(** pybind.cpp:60-61: [void ebcdic_to_ascii(string&)] is called with a string
    made from the argument; the call returns [None] and the argument, which
    Python does not let anybody change, is what it was.  [Ret v]: the value of
    the variable that was passed, after the call. *)
Definition py_convert (v : pyval) : pyres pyval :=
  match as_string v with Some _ => Ret v | None => Raise TypeError end.

(** ** Iteration

    [__iter__] returns the reader itself, [__next__] is
    pybind.cpp:208-210 (ISEGY), 237-239 (ISEGYSorted1D) and 1212-1214 (ISEGD,
    which asks for a record, not for a trace). *)
Definition step {S : Type} (more : bool) (next : outcome (trace * S)) : pyres (trace * S) :=
  if more then from_cpp next else Raise StopIteration.
Definition next_segy (p : platform) (s : isegy) : pyres (trace * isegy) := step (has_trace s) (read_trace p s).
Definition next_sorted (p : platform) (s : sorted) : pyres (trace * sorted) := step (s_has_trace s) (s_read_trace p s).
Definition next_segd (p : platform) (s : isegd) : pyres (trace * isegd) := step (has_record s) (d_read_trace p s).

(** The statement [for t in reader: body], with the state [a] of the program
    that runs it: the state after the last round, and how the loop ended.  It
    ends normally with StopIteration; any other exception is passed on.
    [Raise (FromCpp ELoop)]: not ended after [fuel] rounds. *)
Fixpoint py_for {S A : Type} (next : S -> pyres (trace * S)) (body : A -> trace -> A)
    (fuel : nat) (a : A) (s : S) : A * pyres S :=
  match fuel with
  | O => (a, Raise (FromCpp ELoop))
  | Datatypes.S f =>
    match next s with
    | Ret (t, s') => py_for next body f (body a t) s'
    | Raise StopIteration => (a, Ret s)
    | Raise e => (a, Raise e)
    | PyUB => (a, PyUB)
    end
  end.

(** [list(reader)] *)
Definition py_list {S : Type} (next : S -> pyres (trace * S)) (fuel : nat) (s : S) : list trace * pyres S :=
  py_for next (fun l t => l ++ [t]) fuel [] s.

(** ** All header classes: pybind.cpp:75-168, 298-1117 *)
Definition classes : list (string * pyclass) :=
  [("BinaryHeader", k_BinaryHeader); ("GeneralHeader", k_GeneralHeader); ("GeneralHeader2", k_GeneralHeader2);
   ("GeneralHeaderN", k_GeneralHeaderN); ("GeneralHeader3", k_GeneralHeader3); ("GeneralHeaderVes", k_GeneralHeaderVes);
   ("GeneralHeaderSur", k_GeneralHeaderSur); ("GeneralHeaderCli", k_GeneralHeaderCli);
   ("GeneralHeaderJob", k_GeneralHeaderJob); ("GeneralHeaderLin", k_GeneralHeaderLin);
   ("GeneralHeaderVib", k_GeneralHeaderVib); ("GeneralHeaderExp", k_GeneralHeaderExp);
   ("GeneralHeaderAir", k_GeneralHeaderAir); ("GeneralHeaderWat", k_GeneralHeaderWat);
   ("GeneralHeaderEle", k_GeneralHeaderEle); ("GeneralHeaderOth", k_GeneralHeaderOth);
   ("GeneralHeaderAdd", k_GeneralHeaderAdd); ("GeneralHeaderSaux", k_GeneralHeaderSaux);
   ("GeneralHeaderCoord", k_GeneralHeaderCoord); ("GeneralHeaderPos1", k_GeneralHeaderPos1);
   ("GeneralHeaderPos2", k_GeneralHeaderPos2); ("GeneralHeaderPos3", k_GeneralHeaderPos3);
   ("GeneralHeaderRel", k_GeneralHeaderRel); ("GeneralHeaderSen", k_GeneralHeaderSen);
   ("GeneralHeaderSCa", k_GeneralHeaderSCa); ("GeneralHeaderTim", k_GeneralHeaderTim);
   ("GeneralHeaderElSR", k_GeneralHeaderElSR); ("GeneralHeaderOri", k_GeneralHeaderOri);
   ("GeneralHeaderMeas", k_GeneralHeaderMeas); ("ChannelSetHeader", k_ChannelSetHeader)].
(** The members have values of their types: what the C++ type system grants. *)
Definition has_type (t : ctype) (v : bval) : Prop :=
  match t, v with
  | CU w, BInt z => 0 <= z < 2 ^ w
  | CI w, BInt z => - 2 ^ (w - 1) <= z < 2 ^ (w - 1)
  | CD, BDbl _ => True
  | CText n, BText l => List.length l = n /\ bytes l
  | _, _ => False
  end.
Definition instance (o : pyobj) : Prop := Forall2 has_type (map snd (k_members (fst o))) (snd o).
