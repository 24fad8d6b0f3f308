(** The SEG-D writer OSEGDRev2_1.  Models src/OSEGD.cpp and
    src/OSEGDRev2_1.cpp on a little-endian host whose [char] is signed.  The
    revision 3 functions of OSEGD (OSEGD.cpp:280-816) have no caller and are
    not modelled.  No proofs in this file. *)
From Verif Require Import Base Platform Bcd Fp TraceHdr SegyTypes SegyCodec ISegy
  OSegy SegdTypes.

(** OSEGD.cpp:24-59, OSEGDRev2_1.cpp:15-22 and the members of CommonSEGD.
    [od_pend] are the values kept in the static array of the 8015 sample
    writer (OSEGD.cpp:1093-1095).  Simplification: that array is shared by all
    writers of the process; the model gives each writer its own.  Procs.v models
    the sharing. *)
Record osegd : Type := mkOD {
  od_file : file;
  od_g1 : gh1;
  od_g2 : gh2;
  od_blocks : blkmap;
  od_sets : list (list chset);
  od_extd : list (list Z);
  od_extl : list (list Z);
  od_layouts : ext_layouts;
  od_chans : Z;
  od_written : Z;
  od_pend : list Z;
  od_sbuf : list Z
}.

(** ** Stores *)

(** [*buf++ = v] *)
Definition wbyte (v : Z) : W := wput [wrapu 8 v].
(** write_u16 / write_i16 and write_u24 / write_i24, OSEGD.cpp:117-130: the
    std::function parameters are uint16_t and uint32_t. *)
Definition w16 (v : Z) : W := wput (wr Swapped 2 v).
Definition w24 (v : Z) : W := wput (wr24 Swapped v).
(** [*buf++ = d] for a double [d], and write_u16 / write_u24 of a double. *)
Definition wbyte_d (p : platform) (d : Z) : W := wlet (d2s p 8 d) wbyte.
Definition w16_d (p : platform) (d : Z) : W := wlet (d2u p 16 d) w16.
Definition w24_d (p : platform) (d : Z) : W := wlet (d2u p 32 d) w24.

(** The conversion of [log2(n)] to an unsigned type of [w] bits.  log2(0) is
    an infinity and log2 of a negative number a NaN. *)
Definition log2_u (p : platform) (w n : Z) : outcome Z :=
  if 0 <? n then Ok (if n =? 2 ^ Z.log2 n then Z.log2 n else p_log2 p n)
  else match p_d2u p w None with Some v => Ok v | None => UB end.

(** ** General headers *)

(** [v > max ? 0xff.. : to_bcd(v)] *)
Definition w_esc2 (vs v : Z) : W :=
  if 99 <? v then wput [255] else to_bcd vs v false 2.
Definition w_esc4 (vs v : Z) : W :=
  if 9999 <? v then w16 65535 else to_bcd vs v false 4.

(** OSEGD.cpp:186-229 [write_general_header1].  [int] members are 4 bytes
    wide, [long] and [long long] ones 8. *)
Definition gh1_writer (p : platform) (g : gh1) (g2 : gh2) : W :=
  w_esc4 4 (g1_file_number g)
  ;; to_bcd 4 (g1_format_code g) false 4
  ;; to_bcd 8 (g1_gen_const g) false 12
  ;; to_bcd 4 (g1_year g) false 2
  ;; wmod (fun _ => wrapu 8 (Z.shiftl (g1_add_blocks g) 4))
  ;; to_bcd 4 (g1_day g) true 3
  ;; to_bcd 4 (g1_hour g) false 2
  ;; to_bcd 4 (g1_minute g) false 2
  ;; to_bcd 4 (g1_second g) false 2
  ;; to_bcd 4 (g1_manufac_code g) false 2
  ;; to_bcd 4 (g1_manufac_num g) false 4
  ;; to_bcd 8 (g1_bytes_per_scan g) false 6
  ;; wbyte_d p (d_mul (g1_base_scan_int g) (d_pow2 4))
  ;; to_bcd 4 (g1_polarity g) false 1
  ;; wlet (log2_u p 32 (g1_scans_per_block g)) (fun e0 =>
       let e := Z.land e0 15 in
       wmod (fun b => Z.lor b e)
       ;; wskip 1
       ;; wbyte_d p (d_div (i2d (g1_scans_per_block g)) (d_pow2 e)))
  ;; (if negb (g1_add_blocks g =? 0) && negb (g2_record_len g2 =? 0)
      then w16 (Z.lor 4095 (Z.shiftl (wrapu 32 (g1_record_type g)) 12))
      else to_bcd 4 (g1_record_type g) false 1
           ;; to_bcd 4 (g1_record_length g) true 3)
  ;; w_esc2 4 (g1_scan_types g)
  ;; to_bcd 4 (g1_channel_sets g) false 2
  ;; to_bcd 4 (g1_skew_blocks g) false 2
  ;; w_esc2 4 (g1_extended_blocks g)
  ;; w_esc2 4 (g1_external_blocks g).

(** OSEGD.cpp:231-249 [write_general_header2_rev2] *)
Definition gh2_writer (g : gh2) : W :=
  w24 (g2_file_num g)
  ;; w16 (g2_channel_sets g)
  ;; w16 (g2_extended_blocks g)
  ;; w16 (g2_external_blocks g)
  ;; wskip 1
  ;; wbyte (g2_major g)
  ;; wbyte (g2_minor g)
  ;; w16 (g2_trailer_blocks g)
  ;; w24 (g2_record_len g)
  ;; wskip 1
  ;; wbyte (g2_block_num g)
  ;; wskip 1
  ;; w16 (g2_sequence g).

(** OSEGD.cpp:262-269: integer and fraction of a source number. *)
Definition w_source (p : platform) (d : Z) : W :=
  wlet (d2u p 32 d) (fun i =>
    w24 i ;; w16_d p (d_mul (d_sub d (i2d i)) (d_pow2 16))).

(** OSEGD.cpp:257-276 *)
Definition ghN_writer (p : platform) (h : ghN) : W :=
  w24 (gN_file_number h)
  ;; w_source p (gN_line h)
  ;; w_source p (gN_point h)
  ;; wbyte (gN_point_index h)
  ;; wbyte (gN_phase_control h)
  ;; wbyte (gN_type_vibrator h)
  ;; w16 (gN_phase_angle h)
  ;; wbyte (gN_block_num h)
  ;; wbyte (gN_set_num h).

(** memset, the stores, file.write *)
Definition put_block (n : Z) (w : W) (f : file) : outcome file :=
  let* blk := wrun w (zeros n) in Ok (fwrite blk f).

(** OSEGD.cpp:251-278 [write_rev2_add_gen_hdrs]: the cast of a block of
    another class gives a null pointer, which is dereferenced. *)
Fixpoint write_gNs (p : platform) (m : blkmap) (f : file) : outcome file :=
  match m with
  | [] => Ok f
  | (_, AN h) :: m' =>
    let* f1 := put_block GEN_HDR_SIZE (ghN_writer p h) f in write_gNs p m' f1
  | (_, A3 _ _ _) :: _ => UB
  end.

(** ** Channel set headers, OSEGD.cpp:818-849

    [to_bcd] of a [double] argument (line 835) converts it to unsigned long
    long (util.hpp:145). *)
Definition chset_writer (p : platform) (c : chset) : W :=
  to_bcd 4 (c_scan_type c) false 2
  ;; to_bcd 2 (c_number c) false 2
  ;; w16 (c_start c / 2)
  ;; w16 (c_end c / 2)
  ;; wlet (d2u p 16 (d_mul (c_descale c) (d_pow2 10))) (fun v =>
       w16 (Z.lor (Z.land v 32767) (if d_lt (c_descale c) 0 then 32768 else 0)))
  ;; to_bcd 4 (c_channels c) false 4
  ;; to_bcd 1 (c_type c) false 1
  ;; wskip 1
  ;; wlet (log2_u p 64 (c_subscans c)) (fun e => to_bcd 8 e false 1)
  ;; to_bcd 1 (c_gain c) true 1
  ;; to_bcd 4 (c_alias_freq c) false 4
  ;; to_bcd 4 (c_alias_slope c) false 4
  ;; to_bcd 4 (c_low_freq c) false 4
  ;; to_bcd 4 (c_low_slope c) false 4
  ;; to_bcd 4 (c_notch1 c) false 4
  ;; to_bcd 4 (c_notch2 c) false 4
  ;; to_bcd 4 (c_notch3 c) false 4
  ;; w16 (c_ext_num c)
  ;; wbyte (Z.lor (Z.shiftl (c_ext_flag c) 4) (Z.land (c_hdr_ext c) 15))
  ;; wbyte (c_vert_stack c)
  ;; wbyte (c_streamer c)
  ;; wbyte (c_array c).

(** OSEGD.cpp:818-882 [write_ch_set_hdr] with the 32-byte buffer of
    OSEGDRev2_1.cpp:33.  The revision 3 branch (850-878) stores 92 bytes into
    that buffer: undefined. *)
Definition write_ch_set_hdr (p : platform) (g1 : gh1) (g2 : gh2) (c : chset)
           (f : file) : outcome file :=
  if negb (g1_add_blocks g1 =? 0) && negb (g2_major g2 <? 3) then UB
  else put_block CH_SET_HDR_SIZE (chset_writer p c) f.

Fixpoint write_ch_sets (p : platform) (g1 : gh1) (g2 : gh2) (cs : list chset)
         (f : file) : outcome file :=
  match cs with
  | [] => Ok f
  | c :: cs' =>
    let* f1 := write_ch_set_hdr p g1 g2 c f in write_ch_sets p g1 g2 cs' f1
  end.

(** OSEGDRev2_1.cpp:50-51 *)
Fixpoint write_zero_blocks (n : nat) (f : file) : file :=
  match n with
  | O => f
  | S n' => write_zero_blocks n' (fwrite (zeros SKEW_BLOCK_SIZE) f)
  end.

(** OSEGDRev2_1.cpp:36-39 *)
Definition o_nsets (g1 : gh1) (g2 : gh2) : Z :=
  wrapu 16 (if g1_channel_sets g1 =? 1665 then g2_channel_sets g2
            else g1_channel_sets g1).

(** OSEGDRev2_1.cpp:34-53 *)
Fixpoint write_scan_types (p : platform) (g1 : gh1) (g2 : gh2)
         (sets : list (list chset)) (f : file) : outcome file :=
  match sets with
  | [] => Ok f
  | cs :: sets' =>
    if negb (len cs =? o_nsets g1 g2) then Throw ESedaman
    else
      let* f1 := write_ch_sets p g1 g2 cs f in
      write_scan_types p g1 g2 sets'
        (write_zero_blocks (Z.to_nat (g1_skew_blocks g1)) f1)
  end.

(** OSEGDRev2_1.cpp:62-68: blocks [0 .. n-1] of a vector of vectors; a missing
    block or a block shorter than 32 bytes is read out of bounds. *)
Fixpoint write_blks (n : nat) (bs : list (list Z)) (f : file) : outcome file :=
  match n with
  | O => Ok f
  | S n' =>
    match bs with
    | [] => UB
    | b :: bs' =>
      if len b <? 32 then UB
      else write_blks n' bs' (fwrite (firstn 32 b) f)
    end
  end.

(** ** Sample formats, OSEGD.cpp:1087-1256 *)
Inductive swriter : Type :=
| SBytes (f : Z -> outcome (list Z))  (* stores and advances *)
| SFirst (f : Z -> outcome Z)         (* stores into the first byte *)
| S8015.                              (* four samples at a time *)

Definition sgn (d : Z) : Z := if d_lt d 0 then 1 else 0.

(** [static_cast<unsigned>(log(..)..) & mask] *)
Definition fmt_exp (p : platform) (fmt mask d : Z) : outcome Z :=
  match p_fmt_exp p fmt (d_abs d) with
  | Some e => Ok (Z.land e mask)
  | None => UB
  end.

(** [pow(2, exp - k)] with [exp - k] computed in uint32_t: an infinity when it
    wraps. *)
Definition upow2 (k : Z) : Z := if 0 <=? k then d_pow2 k else d_inf.

(** OSEGD.cpp:1098-1111: four exponents, four fractions, all with the sign of
    the last value. *)
Definition enc_8015 (p : platform) (vs : list Z) : outcome (list Z) :=
  let sign := sgn (last vs 0) in
  let* efs := mapM (fun v =>
      let* e := fmt_exp p 8015 15 v in
      let* fr := d2u p 16 (d_div (d_abs v) (d_pow2 (e - 15))) in
      Ok (e, fr)) vs in
  match efs with
  | [(e0, f0); (e1, f1); (e2, f2); (e3, f3)] =>
    let b x y := wrapu 8 (Z.lor (Z.shiftl x 4) y) in
    let w x := wr Swapped 2 (Z.lor x (Z.shiftl sign 15)) in
    Ok ([b e0 e1; b e2 e3] ++ w f0 ++ w f1 ++ w f2 ++ w f3)
  | _ => UB
  end.

Definition d_sample_writer (p : platform) (fmt : Z) : outcome (Z * swriter) :=
  match fmt with
  | 8015 => Ok (20, S8015)
  | 8022 => Ok (8, SFirst (fun d =>
      let* e := fmt_exp p 8022 7 d in
      let* fr := d2u p 32 (d_div (d_abs d) (upow2 (e - 4))) in
      Ok (wrapu 8 (Z.lor (Z.lor (Z.shiftl (sgn d) 7) (Z.shiftl e 4))
                         (Z.land fr 15)))))
  | 8024 => Ok (16, SBytes (fun d =>
      let* e := fmt_exp p 8024 7 d in
      let* fr := d2u p 32 (d_div (d_abs d) (upow2 (e - 12))) in
      Ok (wr Swapped 2 (Z.lor (Z.lor (Z.shiftl (sgn d) 15) (Z.shiftl e 12))
                              (Z.land fr 4095)))))
  | 8036 => Ok (24, SBytes (fun d => let* u := d2u p 32 d in Ok (wr24 Swapped u)))
  | 8038 => Ok (32, SBytes (fun d => let* u := d2u p 32 d in Ok (wr Swapped 4 u)))
  | 8042 => Ok (8, SFirst (fun d =>
      let* e := fmt_exp p 8042 3 d in
      let* fr := d2u p 32 (d_mul (d_div (d_abs d) (d_pow2 (4 * e))) (d_pow2 5)) in
      Ok (wrapu 8 (Z.lor (Z.lor (Z.shiftl (sgn d) 7) (Z.shiftl e 5))
                         (Z.land fr 31)))))
  | 8044 => Ok (16, SBytes (fun d =>
      let* e := fmt_exp p 8044 3 d in
      let* fr := d2u p 32 (d_mul (d_div (d_abs d) (d_pow2 (4 * e))) (d_pow2 13)) in
      Ok (wr Swapped 2 (Z.lor (Z.lor (Z.shiftl (sgn d) 15) (Z.shiftl e 13))
                              (Z.land fr 8191)))))
  | 8048 => Ok (32, SBytes (fun d =>
      let* e := fmt_exp p 8048 127 d in
      let* fr := d2u p 32 (d_mul (d_div (d_abs d) (d_pow2 (4 * e))) (d_pow2 24)) in
      Ok (wr Swapped 4 (Z.lor (Z.lor (Z.shiftl (sgn d) 31) (Z.shiftl e 24))
                              (Z.land fr 16777215)))))
  | 8058 => Ok (32, SBytes (fun d => Ok (wr_f32 Swapped d)))
  | 8080 => Ok (64, SBytes (fun d => Ok (wr_f64 Swapped d)))
  | 9036 => Ok (24, SBytes (fun d =>
      let* a := d2s p 16 d in
      let* b := d2s p 32 d in
      Ok (wr Native 2 a ++ wr Native 1 (Z.shiftr b 16))))
  | 9038 => Ok (32, SBytes (fun d => let* v := d2s p 32 d in Ok (wr Native 4 v)))
  | 9058 => Ok (32, SBytes (fun d => Ok (wr_f32 Native d)))
  | 9080 => Ok (64, SBytes (fun d => Ok (wr_f64 Native d)))
  | _ => Throw ESedaman
  end.

(** One call of [write_sample]: the values still pending and the stores. *)
Definition sample_step (p : platform) (sw : swriter) (pend : list Z) (v : Z)
  : outcome (list Z * W) :=
  match sw with
  | SBytes f => let* d := f v in Ok (pend, wput d)
  | SFirst f => let* b := f v in Ok (pend, wmod (fun _ => b))
  | S8015 =>
    let pend' := pend ++ [v] in
    if Nat.eqb (List.length pend') 4
    then let* d := enc_8015 p pend' in Ok ([], wput d)
    else Ok (pend', wnil)
  end.

(** OSEGD.cpp:1082-1083 *)
Fixpoint write_smps (p : platform) (sw : swriter) (pend vs : list Z) (c : list Z)
  : outcome (list Z * (list Z * list Z)) :=
  match vs with
  | [] => Ok (pend, ([], c))
  | v :: vs' =>
    let* (pend1, w) := sample_step p sw pend v in
    let* (d1, c1) := w c in
    let* (pend2, dc) := write_smps p sw pend1 vs' c1 in
    let (d2, c2) := (dc : list Z * list Z) in
    Ok (pend2, (d1 ++ d2, c2))
  end.

(** ** Construction *)

(** OSEGD.cpp:1277-1296 and OSEGDRev2_1.cpp:24-69 *)
Definition osegd_open (p : platform) (g1 : gh1) (g2 : gh2)
           (sets : list (list chset)) (adds : list addblk)
           (extd extl : list (list Z)) (ls : ext_layouts) : outcome osegd :=
  let* m := add_blocks [] adds in
  if negb (len sets =? wrapu 64 (g1_scan_types g1)) then Throw ESedaman
  else
    let chans := wrapu 64 (p_chans0 p
                           + fold_right Z.add 0 (map c_channels (concat sets))) in
    let* _ := d_sample_writer p (g1_format_code g1) in
    let* f1 := put_block GEN_HDR_SIZE (gh1_writer p g1 g2) empty_file in
    let* f2 := put_block GEN_HDR_SIZE (gh2_writer g2) f1 in
    let* f3 := write_gNs p m f2 in
    let* f4 := write_scan_types p g1 g2 sets f3 in
    let nextd := wrapu 32 (if g1_extended_blocks g1 =? 165
                           then g2_extended_blocks g2 else g1_extended_blocks g1) in
    let nextl := wrapu 32 (if g1_external_blocks g1 =? 165
                           then g2_external_blocks g2 else g1_external_blocks g1) in
    let* f5 := write_blks (Z.to_nat nextd) extd f4 in
    let* f6 := write_blks (Z.to_nat nextl) extl f5 in
    Ok (mkOD f6 g1 g2 m sets extd extl ls chans 0 [] []).

(** ** Traces *)

(** [get<double>(v)] *)
Definition get_dbl (v : value) : outcome Z :=
  match v with VDbl d => Ok d | VInt _ => Throw EVariant end.
(** [tmp ? get<int64_t>( *tmp ) : 0] *)
Definition opt_int (h : hdr) (k : string) : outcome Z :=
  match hget h k with Some v => get_int v | None => Ok 0 end.
(** [tmp ? get<double>( *tmp ) * pow(2, 8) : 0] *)
Definition opt_fix8 (h : hdr) (k : string) : outcome Z :=
  match hget h k with
  | Some v => let* d := get_dbl v in Ok (d_mul d (d_pow2 8))
  | None => Ok 0
  end.

(** OSEGD.cpp:884-916 [write_trace_header] *)
Definition trace_header_writer (p : platform) (h : hdr) : W :=
  wlet (opt_int h "FFID") (fun ffid =>
  w_esc4 8 ffid
  ;; wlet (opt_int h "SCAN_TYPE_NUM") (fun v => to_bcd 8 v false 2)
  ;; match hget h "CH_SET_NUM" with
     | None => fun _ => UB
     | Some cv => wlet (get_int cv) (fun set =>
       w_esc2 8 set
       ;; wlet (opt_int h "CHAN") (w_esc4 8)
       ;; wlet (opt_fix8 h "FIRST_TIMING_WORD") (w24_d p)
       ;; wlet (opt_int h "TR_HDR_EXT") wbyte
       ;; wlet (opt_fix8 h "SAMPLE_SKEW") (wbyte_d p)
       ;; wlet (opt_int h "TRACE_EDIT") wbyte
       ;; wlet (opt_fix8 h "TIME_BREAK_WIN") (w24_d p)
       ;; w16 (if set <? 100 then 0 else set)
       ;; w24 ffid)
     end).

(** OSEGD.cpp:929-974: one field of an extension block. *)
Definition wr_ext_field (p : platform) (t : vtype) (v : value) : outcome (list Z) :=
  let int n := let* z := get_int v in Ok (wr Swapped n z) in
  match t with
  | I8 | U8 => int 1%nat
  | I16 | U16 => int 2%nat
  | I24 | U24 => let* z := get_int v in Ok (wr24 Swapped z)
  | I32 | U32 => int 4%nat
  | I64 | U64 => int 8%nat
  | Ibm => let* d := get_dbl v in wr_ibm p Swapped d
  | F32 => let* d := get_dbl v in Ok (wr_f32 Swapped d)
  | F64 => let* d := get_dbl v in Ok (wr_f64 Swapped d)
  end.

(** OSEGD.cpp:928-975 *)
Fixpoint wr_ext_fields (p : platform) (l : layout) (h : hdr) (buf : list Z)
  : outcome (list Z) :=
  match l with
  | [] => Ok buf
  | en :: l' =>
    match hget h (e_name en) with
    | None => Throw ESedaman
    | Some v =>
      let* d := wr_ext_field p (e_type en) v in
      let* buf' := upd buf (e_off en) d in
      wr_ext_fields p l' h buf'
    end
  end.

(** OSEGD.cpp:978-987: the value as a double and as an int64_t. *)
Definition num_val (p : platform) (ov : option value) : outcome (Z * Z) :=
  match ov with
  | Some (VDbl d) => let* i := d2s p 64 d in Ok (d, i)
  | Some (VInt z) => Ok (i2d z, z)
  | None => Ok (i2d 0, 0)
  end.

(** OSEGD.cpp:1024-1025, 1036-1037 *)
Definition w_ext_num (p : platform) (ov : option value) : W :=
  wlet (num_val p ov) (fun di =>
    w24 (snd di)
    ;; w16_d p (d_mul (d_sub (fst di) (i2d (snd di))) (d_pow2 16))).

(** OSEGD.cpp:977-1052 *)
Definition ext_std_writer (p : platform) (major : Z) (h : hdr) : W :=
  wlet (num_val p (hget h "R_LINE")) (fun l => w24_d p (fst l))
  ;; wlet (num_val p (hget h "R_POINT")) (fun l => w24_d p (fst l))
  ;; wlet (opt_int h "R_POINT_IDX") wbyte
  ;; (if 1 <? major then wlet (opt_int h "SAMP_NUM") w24
      else wlet (opt_int h "RESHOOT_IDX") wbyte
           ;; wlet (opt_int h "GROUP_IDX") wbyte
           ;; wlet (opt_int h "DEPTH_IDX") wbyte)
  ;; (if 1 <? major then
        w_ext_num p (hget h "R_LINE")
        ;; w_ext_num p (hget h "R_POINT")
        ;; wlet (opt_int h "SENSOR_TYPE") wbyte
      else wnil)
  ;; (if 2 <? major then
        wlet (opt_int h "TRACE_NUMBER") (fun n =>
          if 9999 <? n then w24 n else wnil)
        ;; wlet (opt_int h "SAMP_NUM") (fun n => wput (wr Swapped 4 n))
        ;; wlet (opt_int h "SENSOR_MOVING") wbyte
        ;; wskip 1
        ;; wlet (opt_int h "PHYSICAL_UNIT") wbyte
      else wnil).

(** [trc_hdr_buf] (20 bytes) and [trc_ext_hdr_buf] (32 bytes) as one array,
    CommonSEGD.hpp:1554-1556: its first 32 bytes are zeroed and written to the
    file, the other 20 never reach it. *)
Definition FLAT_SIZE : Z := 52.

(** OSEGD.cpp:924-1056: the memset of 32 bytes into the 20-byte
    [trc_hdr_buf] is an overflow; [p_flat_bufs] says whether it lands in the
    next member. *)
Fixpoint write_exts (p : platform) (major : Z) (ls : ext_layouts) (h : hdr)
         (n i : nat) (f : file) : outcome file :=
  match n with
  | O => Ok f
  | S n' =>
    if p_flat_bufs p then
      let* buf :=
        match ls with
        | [] => match i with
                | O => wrun (ext_std_writer p major h) (zeros FLAT_SIZE)
                | S _ => Ok (zeros FLAT_SIZE)
                end
        | _ => match nth_error ls i with
               | Some l => wr_ext_fields p l h (zeros FLAT_SIZE)
               | None => UB
               end
        end in
      write_exts p major ls h n' (S i) (fwrite (firstn 32 buf) f)
    else UB
  end.

(** OSEGD.cpp:1067-1080: the channel set of the trace; the numbers are
    uint16_t. *)
Definition o_ch_set (s : osegd) (h : hdr) : outcome chset :=
  let num k := match hget h k with
               | Some v => let* z := get_int v in Ok (wrapu 16 z)
               | None => Ok 1
               end in
  let* i := num "SCAN_TYPE_NUM"%string in
  let* j := num "CH_SET_NUM"%string in
  let nth1 {A} (l : list A) (i : Z) : outcome A :=
    if (1 <=? i) && (i <=? len l)
    then match nth_error l (Z.to_nat (i - 1)) with Some a => Ok a | None => UB end
    else UB in
  let* cs := nth1 (od_sets s) i in
  nth1 cs j.

(** OSEGD.cpp:1061-1064 *)
Definition o_samp_buf (p : platform) (s : osegd) (n bits : Z) : outcome (list Z) :=
  let sz := wrapu 64 (n * bits) / 8 in
  if len (od_sbuf s) =? sz then Ok (od_sbuf s) else resize_buf p sz (od_sbuf s).

Definition od_upd (s : osegd) (f : file) (written : Z) (pend sbuf : list Z) : osegd :=
  mkOD f (od_g1 s) (od_g2 s) (od_blocks s) (od_sets s) (od_extd s) (od_extl s)
       (od_layouts s) (od_chans s) written pend sbuf.

(** OSEGDRev2_1.cpp:71-81 [write_trace], OSEGD.cpp:884-1085 *)
Definition d_write_trace (p : platform) (s : osegd) (t : trace) : outcome osegd :=
  if od_written s =? od_chans s then Throw ESedaman
  else
    let* f1 := put_block TRACE_HEADER_SIZE (trace_header_writer p (t_hdr t))
                         (od_file s) in
    let* n := opt_int (t_hdr t) "TR_HDR_EXT" in
    let* f2 := write_exts p (g2_major (od_g2 s)) (od_layouts s) (t_hdr t)
                          (Z.to_nat (wrapu 8 n)) 0 f1 in
    let* (bits, sw) := d_sample_writer p (g1_format_code (od_g1 s)) in
    let* buf := o_samp_buf p s (len (t_smp t)) bits in
    let* c := o_ch_set s (t_hdr t) in
    let descale := d_exp2 p (c_descale c) in
    let* (pend, dc) := write_smps p sw (od_pend s)
                         (map (fun x => d_div x descale) (t_smp t)) buf in
    let buf' := (fst dc ++ snd dc)%list in
    Ok (od_upd s (fwrite buf' f2) (wrapu 64 (od_written s + 1)) pend buf').

(** A client that writes a list of traces. *)
Fixpoint d_write_all (p : platform) (s : osegd) (ts : list trace) : outcome osegd :=
  match ts with
  | [] => Ok s
  | t :: ts' => let* s1 := d_write_trace p s t in d_write_all p s1 ts'
  end.
