(** Raw and sample codecs of the SEG-Y reader and writer.
    Models src/ISEGY.cpp:144-320, 420-448 and src/OSEGY.cpp:61-287. *)
From Verif Require Import Base Platform Fp TraceHdr SegyTypes.

(** ** Byte order  (ISEGY.cpp:202-235, OSEGY.cpp:65-112) *)
Inductive endian : Type := Native | Swapped.

Definition endian_of (marker : Z) : outcome endian :=
  if marker =? 16909060 (* 0x01020304 *) then Ok Native
  else if (marker =? 0) || (marker =? 67305985 (* 0x04030201 *)) then Ok Swapped
  else Throw ESedaman.

(** ** Raw readers  (ISEGY.cpp:200-231) *)

(** read_u8, read_u16, read_u32, read_u64 *)
Definition rd_u (e : endian) (n : nat) : P Z :=
  let+ v := pread n in
  pret (match e with Native => v | Swapped => swapb n v end).

(** read_i8, read_i16, read_i32, read_i64: same bytes, signed result. *)
Definition rd_i (e : endian) (n : nat) : P Z :=
  pmap (wraps (8 * Z.of_nat n)) (rd_u e n).

(** [read<uint16_t>(buf) <op> read<uint8_t>(buf)]: the two calls share the
    pointer and their order is unspecified. *)
Definition rd_16_8 (p : platform) : P (Z * Z) :=
  if p_left_first p then
    let+ a := pread 2 in let+ b := pread 1 in pret (a, b)
  else
    let+ b := pread 1 in let+ a := pread 2 in pret (a, b).

(** read_u24: ISEGY.cpp:206-207 and 221-222 *)
Definition rd_u24 (p : platform) (e : endian) : P Z :=
  let+ (a, b) := rd_16_8 p in
  pret (match e with
        | Native => Z.lor a (Z.shiftl b 16)
        | Swapped => Z.lor (Z.shiftl (swapb 2 a) 8) b
        end).

(** read_i24: ISEGY.cpp:208-211 and 223-227 *)
Definition rd_i24 (p : platform) (e : endian) : P Z :=
  let+ r := rd_u24 p e in
  pret (wraps 32 (if Z.testbit r 23 then Z.lor r 4278190080 else r)).

(** dbl_from_IEEE_double and dbl_from_IEEE_float, ISEGY.cpp:237-248 *)
Definition rd_f64 (e : endian) : P Z := rd_u e 8.
Definition rd_f32 (e : endian) : P Z := pmap f2d (rd_u e 4).

(** dbl_from_ibm_float, ISEGY.cpp:265-272, on the 32-bit word. *)
Definition ibm2d (w : Z) : Z :=
  let sign := if 2 ^ 31 <=? w then -1 else 1 in
  let exp := Z.land (Z.shiftr w 24) 127 in
  let fraction := i2d (Z.land w 16777215) in
  d_mul (d_mul (d_div fraction (d_pow2 24)) (d_pow2 (4 * (exp - 64))))
        (i2d sign).
Definition rd_ibm (e : endian) : P Z := pmap ibm2d (rd_u e 4).

(** ** Raw writers  (OSEGY.cpp:63-109)

    The std::function wrappers take unsigned parameters, so the argument is
    reduced modulo 2^(8n) first. *)
Definition wr (e : endian) (n : nat) (v : Z) : list Z :=
  let u := wrapu (8 * Z.of_nat n) v in
  le_enc n (match e with Native => u | Swapped => swapb n u end).

(** write_u24, write_i24: OSEGY.cpp:70-77 and 91-100 *)
Definition wr24 (e : endian) (v : Z) : list Z :=
  let u := wrapu 32 v in
  match e with
  | Native => le_enc 2 u ++ le_enc 1 (Z.shiftr u 16)
  | Swapped =>
    let tmp := Z.shiftr (swapb 4 u) 8 in
    le_enc 2 tmp ++ le_enc 1 (Z.shiftr tmp 16)
  end.

(** write_IEEE_float, write_IEEE_double: OSEGY.cpp:114-123; the argument of
    the former is converted to float at the call. *)
Definition wr_f64 (e : endian) (d : Z) : list Z := wr e 8 d.
Definition wr_f32 (e : endian) (d : Z) : list Z := wr e 4 (d2f d).

(** write_ibm_float, OSEGY.cpp:147-156: the 32-bit word. *)
Definition d2ibm (p : platform) (v : Z) : outcome Z :=
  let sign := if d_lt v 0 then 1 else 0 in
  let a := d_abs v in
  match p_ibm_exp p a with
  | None => UB
  | Some e0 =>
    let exp := Z.land e0 127 in
    let* fraction :=
      d2u p 32 (d_mul (d_div a (d_pow2 (4 * (exp - 64)))) (d_pow2 24)) in
    Ok (Z.lor (Z.lor (Z.shiftl sign 31) (Z.shiftl exp 24))
              (Z.land fraction 16777215))
  end.
Definition wr_ibm (p : platform) (e : endian) (v : Z) : outcome (list Z) :=
  let* w := d2ibm p v in Ok (wr e 4 w).

(** ** Sample formats *)

(** assign_bytes_per_sample of the reader, ISEGY.cpp:420-448.  Other codes
    leave the member unset; callers check the format first. *)
Definition bytes_per_sample (fmt : Z) : option Z :=
  match fmt with
  | 1 | 2 | 4 | 5 | 10 => Some 4
  | 3 | 11 => Some 2
  | 6 | 9 | 12 => Some 8
  | 7 | 15 => Some 3
  | 8 | 16 => Some 1
  | _ => None
  end.

(** assign_bytes_per_sample of the writer, OSEGY.cpp:159-187. *)
Definition o_bytes_per_sample (fmt : Z) : option Z :=
  match fmt with
  | 1 | 2 | 4 | 5 | 10 => Some 4
  | 3 | 11 => Some 2
  | 6 | 9 | 12 => Some 8
  | 7 | 15 => Some 3
  | 8 | 16 => Some 1
  | _ => None
  end.

(** assign_sample_reader: ISEGY.cpp:275-320 *)
Definition sample_reader (p : platform) (e : endian) (fmt : Z) : outcome (P Z) :=
  match fmt with
  | 1 => Ok (rd_ibm e)
  | 2 => Ok (pmap i2d (rd_i e 4))
  | 3 => Ok (pmap i2d (rd_i e 2))
  | 5 => Ok (rd_f32 e)
  | 6 => Ok (rd_f64 e)
  | 7 => Ok (pmap i2d (rd_i24 p e))
  | 8 => Ok (pmap i2d (rd_i e 1))
  | 9 => Ok (pmap i2d (rd_i e 8))
  | 10 => Ok (pmap i2d (rd_u e 4))
  | 11 => Ok (pmap i2d (rd_u e 2))
  | 12 => Ok (pmap i2d (rd_u e 8))
  | 15 => Ok (pmap i2d (rd_u24 p e))
  | 16 => Ok (pmap i2d (rd_u e 1))
  | _ => Throw ESedaman
  end.

(** assign_sample_writer: OSEGY.cpp:189-234.  The integer formats call the
    std::function members of lines 45-54, whose parameters are unsigned: the
    double is converted to that unsigned type. *)
Definition sample_writer (p : platform) (e : endian) (fmt : Z)
  : outcome (Z -> outcome (list Z)) :=
  let int n := fun d => let* u := d2u p (8 * Z.of_nat n) d in Ok (wr e n u) in
  let int24 := fun d => let* u := d2u p 32 d in Ok (wr24 e u) in
  match fmt with
  | 1 => Ok (wr_ibm p e)
  | 2 => Ok (int 4%nat)
  | 3 => Ok (int 2%nat)
  | 5 => Ok (fun d => Ok (wr_f32 e d))
  | 6 => Ok (fun d => Ok (wr_f64 e d))
  | 7 => Ok int24
  | 8 => Ok (int 1%nat)
  | 9 => Ok (int 8%nat)
  | 10 => Ok (int 4%nat)
  | 11 => Ok (int 2%nat)
  | 12 => Ok (int 8%nat)
  | 15 => Ok int24
  | 16 => Ok (int 1%nat)
  | _ => Throw ESedaman
  end.

(** ** Trace header fields *)

(** The switch of ISEGY.cpp:460-500. *)
Definition rd_field (p : platform) (e : endian) (t : vtype) : P value :=
  match t with
  | I8 => pmap VInt (rd_i e 1)
  | U8 => pmap VInt (rd_u e 1)
  | I16 => pmap VInt (rd_i e 2)
  | U16 => pmap VInt (rd_u e 2)
  | I24 => pmap VInt (rd_i24 p e)
  | U24 => pmap VInt (rd_u24 p e)
  | I32 => pmap VInt (rd_i e 4)
  | U32 => pmap VInt (rd_u e 4)
  | I64 => pmap VInt (rd_i e 8)
  | U64 => pmap VInt (rd_i e 8)   (* static_cast<int64_t>(read_u64) *)
  | Ibm => pmap VDbl (rd_ibm e)
  | F32 => pmap VDbl (rd_f32 e)
  | F64 => pmap VDbl (rd_f64 e)
  end.

(** The switch of OSEGY.cpp:295-348 (and 364-417): every case reads the
    header value with [get<int64_t>], 0 when it is missing. *)
Definition wr_field (p : platform) (e : endian) (t : vtype) (ov : option value)
  : outcome (list Z) :=
  let* v := match ov with Some v => get_int v | None => Ok 0 end in
  match t with
  | I8 | U8 => Ok (wr e 1 v)
  | I16 | U16 => Ok (wr e 2 v)
  | I24 | U24 => Ok (wr24 e v)
  | I32 | U32 => Ok (wr e 4 v)
  | I64 | U64 => Ok (wr e 8 v)
  | Ibm => wr_ibm p e (i2d v)
  | F32 => Ok (wr_f32 e (i2d v))
  | F64 => Ok (wr_f64 e (i2d v))
  end.

(** ** Binary header block *)

(** fill_bin_header, ISEGY.cpp:150-195 (the part after [assign_raw_readers]);
    [b0] is the header before the call, whose endianness member has already
    been set from bytes 96-99. *)
Definition fill_bin_header (e : endian) (b0 : bin_hdr) : P bin_hdr :=
  let+ job_id := rd_i e 4 in
  let+ line_num := rd_i e 4 in
  let+ reel_num := rd_i e 4 in
  let+ tr_per_ens := rd_i e 2 in
  let+ aux_per_ens := rd_i e 2 in
  let+ samp_int := rd_i e 2 in
  let+ samp_int_orig := rd_i e 2 in
  let+ samp_per_tr := rd_i e 2 in
  let+ samp_per_tr_orig := rd_i e 2 in
  let+ format_code := rd_i e 2 in
  let+ ens_fold := rd_i e 2 in
  let+ sort_code := rd_i e 2 in
  let+ vert_sum_code := rd_i e 2 in
  let+ sw_freq_at_start := rd_i e 2 in
  let+ sw_freq_at_end := rd_i e 2 in
  let+ sw_length := rd_i e 2 in
  let+ sw_type_code := rd_i e 2 in
  let+ sw_ch_tr_num := rd_i e 2 in
  let+ taper_at_start := rd_i e 2 in
  let+ taper_at_end := rd_i e 2 in
  let+ taper_type := rd_i e 2 in
  let+ corr_traces := rd_i e 2 in
  let+ bin_gain_recov := rd_i e 2 in
  let+ amp_recov_meth := rd_i e 2 in
  let+ measure_system := rd_i e 2 in
  let+ impulse_sig_pol := rd_i e 2 in
  let+ vib_pol_code := rd_i e 2 in
  let+ ext_tr_per_ens := rd_i e 4 in
  let+ ext_aux_per_ens := rd_i e 4 in
  let+ ext_samp_per_tr := rd_i e 4 in
  let+ ext_samp_int := rd_u e 8 in
  let+ ext_samp_int_orig := rd_u e 8 in
  let+ ext_samp_per_tr_orig := rd_i e 4 in
  let+ ext_ens_fold := rd_i e 4 in
  let+ _ := pskip 204 in
  let+ SEGY_rev_major_ver := rd_u e 1 in
  let+ SEGY_rev_minor_ver := rd_u e 1 in
  let+ fixed_tr_length := rd_i e 2 in
  let+ ext_text_headers_num := rd_i e 2 in
  if 1 <? SEGY_rev_major_ver then
    let+ max_num_add_tr_headers := rd_i e 4 in
    let+ time_basis_code := rd_i e 2 in
    let+ num_of_tr_in_file := pmap (wrapu 64) (rd_i e 8) in
    let+ byte_off_of_first_tr := rd_u e 8 in
    let+ num_of_trailer_stanza := rd_i e 4 in
    pret (mkBin job_id line_num reel_num tr_per_ens aux_per_ens samp_int samp_int_orig samp_per_tr samp_per_tr_orig format_code ens_fold sort_code vert_sum_code sw_freq_at_start sw_freq_at_end sw_length sw_type_code sw_ch_tr_num taper_at_start taper_at_end taper_type corr_traces bin_gain_recov amp_recov_meth measure_system impulse_sig_pol vib_pol_code ext_tr_per_ens ext_aux_per_ens ext_samp_per_tr ext_samp_int ext_samp_int_orig ext_samp_per_tr_orig ext_ens_fold (bh_endianness b0) SEGY_rev_major_ver SEGY_rev_minor_ver fixed_tr_length ext_text_headers_num max_num_add_tr_headers time_basis_code num_of_tr_in_file byte_off_of_first_tr num_of_trailer_stanza)
  else
    pret (mkBin job_id line_num reel_num tr_per_ens aux_per_ens samp_int samp_int_orig samp_per_tr samp_per_tr_orig format_code ens_fold sort_code vert_sum_code sw_freq_at_start sw_freq_at_end sw_length sw_type_code sw_ch_tr_num taper_at_start taper_at_end taper_type corr_traces bin_gain_recov amp_recov_meth measure_system impulse_sig_pol vib_pol_code ext_tr_per_ens ext_aux_per_ens ext_samp_per_tr ext_samp_int ext_samp_int_orig ext_samp_per_tr_orig ext_ens_fold (bh_endianness b0) SEGY_rev_major_ver SEGY_rev_minor_ver fixed_tr_length ext_text_headers_num (bh_max_num_add_tr_headers b0) (bh_time_basis_code b0) (bh_num_of_tr_in_file b0) (bh_byte_off_of_first_tr b0) (bh_num_of_trailer_stanza b0)).

(** write_bin_header, OSEGY.cpp:238-284: stores through an advancing pointer
    into a zeroed 400-byte array. *)
Definition bin_header_writer (e : endian) (b : bin_hdr) : W :=
  wput (wr e 4 (bh_job_id b))
  ;; wput (wr e 4 (bh_line_num b))
  ;; wput (wr e 4 (bh_reel_num b))
  ;; wput (wr e 2 (bh_tr_per_ens b))
  ;; wput (wr e 2 (bh_aux_per_ens b))
  ;; wput (wr e 2 (bh_samp_int b))
  ;; wput (wr e 2 (bh_samp_int_orig b))
  ;; wput (wr e 2 (bh_samp_per_tr b))
  ;; wput (wr e 2 (bh_samp_per_tr_orig b))
  ;; wput (wr e 2 (bh_format_code b))
  ;; wput (wr e 2 (bh_ens_fold b))
  ;; wput (wr e 2 (bh_sort_code b))
  ;; wput (wr e 2 (bh_vert_sum_code b))
  ;; wput (wr e 2 (bh_sw_freq_at_start b))
  ;; wput (wr e 2 (bh_sw_freq_at_end b))
  ;; wput (wr e 2 (bh_sw_length b))
  ;; wput (wr e 2 (bh_sw_type_code b))
  ;; wput (wr e 2 (bh_sw_ch_tr_num b))
  ;; wput (wr e 2 (bh_taper_at_start b))
  ;; wput (wr e 2 (bh_taper_at_end b))
  ;; wput (wr e 2 (bh_taper_type b))
  ;; wput (wr e 2 (bh_corr_traces b))
  ;; wput (wr e 2 (bh_bin_gain_recov b))
  ;; wput (wr e 2 (bh_amp_recov_meth b))
  ;; wput (wr e 2 (bh_measure_system b))
  ;; wput (wr e 2 (bh_impulse_sig_pol b))
  ;; wput (wr e 2 (bh_vib_pol_code b))
  ;; wput (wr e 4 (bh_ext_tr_per_ens b))
  ;; wput (wr e 4 (bh_ext_aux_per_ens b))
  ;; wput (wr e 4 (bh_ext_samp_per_tr b))
  ;; wput (wr e 8 (bh_ext_samp_int b))
  ;; wput (wr e 8 (bh_ext_samp_int_orig b))
  ;; wput (wr e 4 (bh_ext_samp_per_tr_orig b))
  ;; wput (wr e 4 (bh_ext_ens_fold b))
  ;; wput (wr e 4 (bh_endianness b))
  ;; wskip 200
  ;; wput (wr e 1 (bh_SEGY_rev_major_ver b))
  ;; wput (wr e 1 (bh_SEGY_rev_minor_ver b))
  ;; wput (wr e 2 (bh_fixed_tr_length b))
  ;; wput (wr e 2 (bh_ext_text_headers_num b))
  ;; wput (wr e 4 (bh_max_num_add_tr_headers b))
  ;; wput (wr e 2 (bh_time_basis_code b))
  ;; wput (wr e 8 (bh_num_of_tr_in_file b))
  ;; wput (wr e 8 (bh_byte_off_of_first_tr b))
  ;; wput (wr e 4 (bh_num_of_trailer_stanza b)).

Definition bin_header_bytes (e : endian) (b : bin_hdr) : outcome (list Z) :=
  wrun (bin_header_writer e b) (zeros BIN_HEADER_SIZE).
