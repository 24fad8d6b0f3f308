(** The SEG-D reader.  Models src/ISEGD.cpp on a little-endian host whose
    [char] is signed.  No proofs in this file. *)
From Verif Require Import Base Platform Bcd Fp TraceHdr SegyTypes SegyCodec ISegy
  SegdTypes.

(** ISEGD.cpp:46-49 and the members of CommonSEGD (CommonSEGD.hpp:1554-1570).
    [curr_pos] is always the file position (ISEGD.cpp:1378-1388) and is not a
    separate component; the scratch buffers are overwritten before every use
    and are not part of the state. *)
Record isegd : Type := mkD {
  d_file : file;
  d_g1 : gh1;
  d_g2 : gh2;
  d_g3 : gh3;
  d_blocks : blkmap;
  d_sets : list (list chset);
  d_extd : list (list Z);
  d_extl : list (list Z);
  d_layouts : ext_layouts;
  d_eod : Z;
  d_chans : Z;
  d_read : Z
}.

(** ** Raw readers, ISEGD.cpp:212-281: those of the SEG-Y reader with the
    byte order fixed to big endian. *)
Definition r8 : P Z := rd_u Swapped 1.
Definition r16 : P Z := rd_u Swapped 2.
Definition r32 : P Z := rd_u Swapped 4.
Definition r64 : P Z := rd_u Swapped 8.
Definition r24 (p : platform) : P Z := rd_u24 p Swapped.
(** The byte under the pointer, [*buf]. *)
Definition rpeek : P Z := fun c =>
  match c with b :: _ => Ok (b, c) | [] => UB end.

(** ** General headers *)

(** ISEGD.cpp:318-344 [read_gen_hdr1].  [u * pow(2, exp)] with [u < 256] and
    [exp < 16] is an exact integer. *)
Definition rd_gh1 : P gh1 :=
  let+ file_number := from_bcd false 4 in
  let+ format_code := from_bcd false 4 in
  let+ gen_const := from_bcd false 12 in
  let+ year := from_bcd false 2 in
  let+ add := from_bcd false 1 in
  let+ day := from_bcd true 3 in
  let+ hour := from_bcd false 2 in
  let+ minute := from_bcd false 2 in
  let+ second := from_bcd false 2 in
  let+ manufac_code := from_bcd false 2 in
  let+ manufac_num := from_bcd false 4 in
  let+ bytes_per_scan := from_bcd false 6 in
  let+ bsi := r8 in
  let+ polarity := from_bcd false 1 in
  let+ e := r8 in
  let+ m := r8 in
  let+ record_type := from_bcd false 1 in
  let+ record_length := from_bcd true 3 in
  let+ scan_types := from_bcd false 2 in
  let+ channel_sets := from_bcd false 2 in
  let+ skew := from_bcd false 2 in
  let+ extended := from_bcd false 2 in
  let+ external := from_bcd false 2 in
  pret (mkG1 file_number format_code gen_const year add day hour minute second
             manufac_code manufac_num bytes_per_scan
             (d_div (i2d bsi) (d_pow2 4)) polarity (m * 2 ^ Z.land e 15)
             record_type record_length scan_types channel_sets skew extended
             external).

(** ISEGD.cpp:292-295 *)
Definition rd_rev : P (Z * Z) :=
  let+ _ := pskip 10 in
  let+ major := r8 in
  let+ minor := r8 in
  pret (major, minor).

(** ISEGD.cpp:346-359 [read_gen_hdr2_rev2]; the members it does not assign
    keep the values of [o]. *)
Definition rd_gh2_rev2 (p : platform) (major minor : Z) (o : gh2) : P gh2 :=
  let+ file_num := r24 p in
  let+ ch_sets := r16 in
  let+ extended := r16 in
  let+ external := r16 in
  let+ _ := pskip 3 in
  let+ trailer := r16 in
  let+ record_len := r24 p in
  let+ _ := pskip 1 in
  let+ block_num := rpeek in
  let+ _ := pskip 2 in
  let+ sequence := r16 in
  pret (mkG2 file_num ch_sets extended external (g2_skew_blocks o) major minor
             trailer record_len (g2_record_set o) (g2_add_blocks o)
             (g2_sampling_int o) block_num sequence).

(** ISEGD.cpp:361-375 [read_rev2_add_gen_hdr_blks] *)
Definition rd_ghN (p : platform) : P ghN :=
  let+ file_number := r24 p in
  let+ line := rd_i24 p Swapped in
  let+ linef := r16 in
  let+ point := rd_i24 p Swapped in
  let+ pointf := r16 in
  let+ index := r8 in
  let+ phase := r8 in
  let+ vib := r8 in
  let+ angle := rd_i Swapped 2 in
  let+ block_num := r8 in
  let+ set_num := r8 in
  pret (mkGN file_number (fix16 line linef) (fix16 point pointf) index phase
             vib angle block_num set_num).

(** ISEGD.cpp:380-393, first half of [read_gen_hdr2_and_3] *)
Definition rd_gh2_rev3 (p : platform) (major minor : Z) (o : gh2) : P gh2 :=
  let+ file_num := r24 p in
  let+ ch_sets := r16 in
  let+ extended := r24 p in
  let+ skew := r16 in
  let+ _ := pskip 2 in
  let+ trailer := r32 in
  let+ record_set := r16 in
  let+ add_blocks := r16 in
  let+ sampling := r16 in
  let+ external := r24 p in
  let+ _ := pskip 1 in
  let+ block_num := rpeek in
  pret (mkG2 file_num ch_sets extended external skew major minor trailer
             (g2_record_len o) record_set add_blocks sampling block_num
             (g2_sequence o)).

(** ISEGD.cpp:396-403, second half *)
Definition rd_gh3 : P gh3 :=
  let+ time_zero := r64 in
  let+ record_size := r64 in
  let+ data_size := r64 in
  let+ header_size := r32 in
  let+ rec_mode := r8 in
  let+ time_mode := r8 in
  let+ _ := pskip 1 in
  let+ block_num := rpeek in
  pret (mkG3 time_zero record_size data_size header_size rec_mode time_mode
             block_num).

(** One member of a revision 3 block, ISEGD.cpp:510-915.  The result of
    from_bcd<uint8_t> with two digits fits. *)
Definition rd_bfield (p : platform) (b : bfield) : P (list bval) :=
  match b with
  | BU n => let+ v := rd_u Swapped n in pret [BInt v]
  | BI16 => let+ v := r16 in pret [BInt (wraps 16 v)]
  | BU24 => let+ v := r24 p in pret [BInt v]
  | BFix => let+ i := r24 p in let+ f := r16 in pret [BDbl (fix16 i f)]
  | BBcd2 => let+ v := from_bcd false 2 in pret [BInt v]
  | BTxt n => let+ l := ptake n in pret [BText l]
  | BPad n => let+ _ := pskip n in pret []
  end.

Fixpoint rd_bfields (p : platform) (bs : list bfield) : P (list bval) :=
  match bs with
  | [] => pret []
  | b :: bs' =>
    let+ v := rd_bfield p b in
    let+ vs := rd_bfields p bs' in
    pret (v ++ vs)
  end.

(** ISEGD.cpp:406-508 [read_rev3_add_gen_hdr_blks]: the type is the signed
    character at offset 31; each class then stores the byte after its last
    member as its block type. *)
Definition rd_r3_block (p : platform) (m : blkmap) (buf : list Z) : outcome blkmap :=
  let* c := at_off buf 31 in
  let* (t, _) := rpeek c in
  let ty := wraps 8 t in
  match block_fields ty with
  | None => Ok m
  | Some fs =>
    let* (vs, c') := rd_bfields p fs buf in
    let* (b, _) := rpeek c' in
    Ok (bset m ty (A3 ty vs b))
  end.

(** ISEGD.cpp:298-303 *)
Fixpoint rd_gN_blocks (p : platform) (n : nat) (f : file) (m : blkmap)
  : outcome (blkmap * file) :=
  match n with
  | O => Ok (m, f)
  | S n' =>
    let* (buf, f1) := fread GEN_HDR_SIZE f in
    let* (h, _) := rd_ghN p buf in
    rd_gN_blocks p n' f1 (bset m (gN_block_num h) (AN h))
  end.

(** ISEGD.cpp:309-313 *)
Fixpoint rd_r3_blocks (p : platform) (n : nat) (f : file) (m : blkmap)
  : outcome (blkmap * file) :=
  match n with
  | O => Ok (m, f)
  | S n' =>
    let* (buf, f1) := fread GEN_HDR_SIZE f in
    let* m1 := rd_r3_block p m buf in
    rd_r3_blocks p n' f1 m1
  end.

(** ISEGD.cpp:283-316 [read_general_headers] *)
Definition read_general_headers (p : platform) (s : isegd)
  : outcome (gh1 * gh2 * gh3 * blkmap * file) :=
  let* (buf, f1) := fread GEN_HDR_SIZE (d_file s) in
  let* (g1, _) := rd_gh1 buf in
  if g1_add_blocks g1 =? 0 then Ok (g1, d_g2 s, d_g3 s, d_blocks s, f1)
  else
    let* (buf2, f2) := fread GEN_HDR_SIZE f1 in
    let* (rev, _) := rd_rev buf2 in
    let (major, minor) := (rev : Z * Z) in
    if major <? 3 then
      let* (g2, _) := rd_gh2_rev2 p major minor (d_g2 s) buf2 in
      let* (m, f3) := rd_gN_blocks p (Z.to_nat (g1_add_blocks g1 - 1)) f2
                                   (d_blocks s) in
      Ok (g1, g2, d_g3 s, m, f3)
    else
      let* (g2, _) := rd_gh2_rev3 p major minor (d_g2 s) buf2 in
      let* (buf3, f3) := fread GEN_HDR_SIZE f2 in
      let* (g3, _) := rd_gh3 buf3 in
      let n := if g1_add_blocks g1 =? 15 then g2_add_blocks g2
               else g1_add_blocks g1 in
      let* (m, f4) := rd_r3_blocks p (Z.to_nat (wrapu 16 (n - 2))) f3
                                   (d_blocks s) in
      Ok (g1, g2, g3, m, f4).

(** ** Channel set headers *)

(** [*buf >> 4] for a signed char, stored into a uint8_t. *)
Definition flag_of (b : Z) : Z := wrapu 8 (Z.shiftr (wraps 8 b) 4).

(** ISEGD.cpp:1088-1113 *)
Definition rd_chset (p : platform) : P chset :=
  let+ scan_type := from_bcd false 2 in
  let+ number := from_bcd false 2 in
  let+ start := r16 in
  let+ stop := r16 in
  let+ val := r16 in
  let+ channels := from_bcd false 4 in
  let+ type := from_bcd false 1 in
  let+ _ := pskip 1 in
  let+ sub := from_bcd false 1 in
  let+ gain := from_bcd true 1 in
  let+ alias_freq := from_bcd false 4 in
  let+ alias_slope := from_bcd false 4 in
  let+ low_freq := from_bcd false 4 in
  let+ low_slope := from_bcd false 4 in
  let+ notch1 := from_bcd false 4 in
  let+ notch2 := from_bcd false 4 in
  let+ notch3 := from_bcd false 4 in
  let+ ext_num := r16 in
  let+ fb := rpeek in
  let+ _ := pskip 1 in
  let+ vert := r8 in
  let+ streamer := r8 in
  let+ arr := r8 in
  let descale :=
    d_div (d_mul (if Z.testbit val 15 then i2d (-1) else i2d 1)
                 (i2d (Z.land val 32767))) (d_pow2 10) in
  pret (mkC scan_type number type (start * 2) (stop * 2) descale channels
            (2 ^ sub) gain alias_freq alias_slope low_freq low_slope notch1
            notch2 notch3 ext_num (flag_of fb) (Z.land fb 15) vert streamer arr
            (Some (mkR3 0 0 0 0 0 None))).

(** ISEGD.cpp:1115-1143 *)
Definition rd_chset_r3 (p : platform) : P chset :=
  let+ scan_type := from_bcd false 2 in
  let+ number := r16 in
  let+ type := r8 in
  let+ start := r32 in
  let+ stop := r32 in
  let+ samples := r32 in
  let+ descale := r32 in
  let+ channels := r24 p in
  let+ samp_int := r24 p in
  let+ arr := r8 in
  let+ hdr_ext := r8 in
  let+ fb := rpeek in
  let+ _ := pskip 1 in
  let+ vert := r8 in
  let+ streamer := r8 in
  let+ _ := pskip 1 in
  let+ alias_freq := r32 in
  let+ low_freq := r32 in
  let+ alias_slope := r32 in
  let+ low_slope := r32 in
  let+ notch1 := r32 in
  let+ notch2 := r32 in
  let+ notch3 := r32 in
  let+ phase := r8 in
  let+ unit := r8 in
  let+ _ := pskip 2 in
  let+ delay := r32 in
  let+ descr := ptake 27 in
  pret (mkC scan_type number type start stop (i2d descale) channels 0
            (Z.land fb 15) alias_freq alias_slope low_freq low_slope notch1
            notch2 notch3 0 (flag_of fb) hdr_ext vert streamer arr
            (Some (mkR3 samples samp_int phase unit delay (Some descr)))).

(** ISEGD.cpp:175-177, 1086-1087 *)
Definition is_rev3 (g1 : gh1) (g2 : gh2) : bool :=
  negb (g1_add_blocks g1 =? 0) && negb (g2_major g2 <? 3).

(** ISEGD.cpp:1070-1154 [read_ch_set_hdr] *)
Definition read_ch_set_hdr (p : platform) (r3 : bool) (f : file)
  : outcome (chset * file) :=
  let* (buf, f1) := fread (if r3 then CH_SET_HDR_R3_SIZE else CH_SET_HDR_SIZE) f in
  let* (c, _) := (if r3 then rd_chset_r3 p else rd_chset p) buf in
  Ok (c, f1).

(** ISEGD.cpp:182-186 *)
Fixpoint read_ch_sets (p : platform) (r3 : bool) (n : nat) (f : file)
  : outcome (list chset * file) :=
  match n with
  | O => Ok ([], f)
  | S n' =>
    let* (c, f1) := read_ch_set_hdr p r3 f in
    let* (cs, f2) := read_ch_sets p r3 n' f1 in
    Ok (c :: cs, f2)
  end.

(** ISEGD.cpp:180-191: [n] scan types remain. *)
Fixpoint read_scan_types (p : platform) (r3 : bool) (nsets : nat) (skew : Z)
         (n : nat) (f : file) : outcome (list (list chset) * file) :=
  match n with
  | O => Ok ([], f)
  | S n' =>
    let* (cs, f1) := read_ch_sets p r3 nsets f in
    let* f2 := fseek_cur (skew * SKEW_BLOCK_SIZE) f1 in
    let* (rest, f3) := read_scan_types p r3 nsets skew n' f2 in
    Ok (cs :: rest, f3)
  end.

(** ISEGD.cpp:199-203 and 205-209: [n] blocks of 32 bytes. *)
Fixpoint read_blks (n : nat) (f : file) : outcome (list (list Z) * file) :=
  match n with
  | O => Ok ([], f)
  | S n' =>
    let* (b, f1) := fread 32 f in
    let* (bs, f2) := read_blks n' f1 in
    Ok (b :: bs, f2)
  end.

(** ISEGD.cpp:171-174 *)
Definition nsets_of (g1 : gh1) (g2 : gh2) : Z :=
  wrapu 16 (if g1_channel_sets g1 =? 1665 then g2_channel_sets g2
            else g1_channel_sets g1).
(** ISEGD.cpp:187-189 *)
Definition skew_of (g1 : gh1) (g2 : gh2) : Z :=
  wrapu 16 (if g1_skew_blocks g1 =? 165 then g2_skew_blocks g2
            else g1_skew_blocks g1).
(** ISEGD.cpp:192-197 *)
Definition extended_of (g1 : gh1) (g2 : gh2) : Z :=
  wrapu 32 (if g1_extended_blocks g1 =? 165 then g2_extended_blocks g2
            else g1_extended_blocks g1).
Definition external_of (g1 : gh1) (g2 : gh2) : Z :=
  wrapu 32 (if g1_external_blocks g1 =? 165 then g2_external_blocks g2
            else g1_external_blocks g1).

(** Sum of [number_of_channels]: at most 165 * 65535 * 2^24, so the uint64_t
    does not wrap. *)
Definition sum_channels (sets : list (list chset)) : Z :=
  fold_right Z.add 0 (map c_channels (concat sets)).

(** ** Sample formats, ISEGD.cpp:917-1068: bits per sample and reader.

    8015, 8024, 8044 and 8048 increment the [char const**] instead of the
    pointer and then dereference it: undefined.  8022 and 8042 increment it
    last, so that every sample is read from the first byte. *)
Definition d_sample_reader (p : platform) (fmt : Z) : outcome (Z * P Z) :=
  match fmt with
  | 8015 => Ok (20, fun _ => UB)
  | 8022 =>
    Ok (8, let+ b := rpeek in
           let sign := if Z.testbit b 7 then -1 else 1 in
           pret (d_mul (i2d (sign * Z.land b 15))
                       (d_pow2 (Z.land b 112 - 4))))
  | 8024 => Ok (16, fun _ => UB)
  | 8036 => Ok (24, pmap i2d (rd_i24 p Swapped))
  | 8038 => Ok (32, pmap i2d (rd_i Swapped 4))
  | 8042 =>
    Ok (8, let+ b := rpeek in
           let sign := if Z.testbit b 7 then -1 else 1 in
           pret (d_mul (d_div (i2d (sign * Z.land b 31)) (d_pow2 5))
                       (d_pow2 (4 * Z.land b 96))))
  | 8044 => Ok (16, fun _ => UB)
  | 8048 => Ok (32, fun _ => UB)
  | 8058 => Ok (32, rd_f32 Swapped)
  | 8080 => Ok (64, rd_f64 Swapped)
  | 9036 =>
    Ok (24, let+ (a, b) := rd_16_8 p in
            let r := Z.lor (Z.shiftl a 8) b in
            pret (i2d (if Z.testbit r 23 then Z.lor r 4278190080 else r)))
  | 9038 => Ok (32, pmap i2d (rd_i Native 4))
  | 9058 => Ok (32, rd_f32 Native)
  | 9080 => Ok (64, rd_f64 Native)
  | _ => Throw ESedaman
  end.

(** ISEGD.cpp:166-210 [read_headers_before_traces] on a reader whose channel
    sets and counters have been cleared.  The vectors of extended and external
    blocks take 24 bytes per element. *)
Definition read_headers_before_traces (p : platform) (s : isegd) : outcome isegd :=
  let* (g, f1) := read_general_headers p s in
  let '(g1, g2, g3, m) := g in
  let* _ := d_sample_reader p (g1_format_code g1) in
  let r3 := is_rev3 g1 g2 in
  let* (sets, f2) :=
    read_scan_types p r3 (Z.to_nat (nsets_of g1 g2)) (skew_of g1 g2)
                    (Z.to_nat (g1_scan_types g1)) f1 in
  let* _ := resize_to p (24 * extended_of g1 g2) in
  let* (extd, f3) := read_blks (Z.to_nat (extended_of g1 g2)) f2 in
  let* _ := resize_to p (24 * external_of g1 g2) in
  let* (extl, f4) := read_blks (Z.to_nat (external_of g1 g2)) f3 in
  Ok (mkD f4 g1 g2 g3 m sets extd extl (d_layouts s) (d_eod s)
          (sum_channels sets) 0).

(** ISEGD(file, trace_header_extension): ISEGD.cpp:153-164 on the CommonSEGD
    object with zero headers.  The layouts are not checked
    ([check_trc_hdr_ext], 1156-1236, is never called). *)
Definition isegd_open (p : platform) (content : list Z) (ls : ext_layouts)
  : outcome isegd :=
  read_headers_before_traces p
    (mkD (open_in content) gh1_zero gh2_zero gh3_zero [] [] [] [] ls
         (len content) 0 0).

(** ISEGD.cpp:127-135 *)
Definition has_record (s : isegd) : bool := negb (fpos (d_file s) =? d_eod s).
Definition d_has_trace (s : isegd) : bool := negb (d_chans s =? d_read s).

(** ** Traces *)

(** ISEGD.cpp:1238-1262 [read_trace_header] *)
Definition rd_trace_header (p : platform) : P hdr :=
  let+ ffid := from_bcd false 4 in
  let+ scan := from_bcd false 2 in
  let+ set := from_bcd false 2 in
  let+ chan := from_bcd false 4 in
  let+ ftw := r24 p in
  let+ ext := r8 in
  let+ skew := r8 in
  let+ edit := r8 in
  let+ tbw := r24 p in
  let+ ext_set := r16 in
  let+ ext_file := r24 p in
  let fix8 v := VDbl (d_div (i2d v) (d_pow2 8)) in
  let h := [("FFID", VInt ffid); ("SCAN_TYPE_NUM", VInt scan);
            ("CH_SET_NUM", VInt set); ("CHAN", VInt chan);
            ("FIRST_TIMING_WORD", fix8 ftw); ("TR_HDR_EXT", VInt ext);
            ("SAMPLE_SKEW", fix8 skew); ("TRACE_EDIT", VInt edit);
            ("TIME_BREAK_WIN", fix8 tbw)]%string in
  let h1 := if ext_set =? 0 then h else hset h "CH_SET_NUM" (VInt ext_set) in
  let h2 := if ext_file =? 0 then h1 else hset h1 "FFID" (VInt ext_file) in
  pret h2.

(** ISEGD.cpp:1273-1316: the fields of one layout.  A uint64_t field is read
    through [buf] (which starts at the block and moves 8 bytes per field)
    instead of [pos]. *)
Fixpoint rd_ext_fields (p : platform) (block : list Z) (l : layout)
         (c : list Z) (h : hdr) : outcome hdr :=
  match l with
  | [] => Ok h
  | en :: l' =>
    match e_type en with
    | U64 =>
      let* _ := at_off block (e_off en) in
      let* (v, c') := rd_i Swapped 8 c in
      rd_ext_fields p block l' c' (hset h (e_name en) (VInt v))
    | t =>
      let* pos := at_off block (e_off en) in
      let* (v, _) := rd_field p Swapped t pos in
      rd_ext_fields p block l' c (hset h (e_name en) v)
    end
  end.

(** [if (x != 0.0) hdr[k] = x] on the sum of two non-negative terms. *)
Definition set_nonzero (h : hdr) (k : string) (i f : Z) : hdr :=
  if (i =? 0) && (f =? 0) then h else hset h k (VDbl (fix16 i f)).

(** ISEGD.cpp:1320-1350: the first block according to the standard. *)
Definition rd_ext_std (p : platform) (major : Z) (h : hdr) : P (outcome hdr) :=
  let+ line := r24 p in
  let+ point := r24 p in
  let+ idx := r8 in
  let h1 := hset (hset (hset h "R_LINE" (VInt line)) "R_POINT" (VInt point))
                 "R_POINT_IDX" (VInt idx) in
  let+ h2 :=
    (if major <? 3 then
       let+ n := r24 p in pret (hset h1 "SAMP_NUM" (VInt n))
     else
       let+ a := r8 in let+ b := r8 in let+ c := r8 in
       pret (hset (hset (hset h1 "RESHOOT_IDX" (VInt a)) "GROUP_IDX" (VInt b))
                  "DEPTH_IDX" (VInt c))) in
  let+ h3 :=
    (if 1 <? major then
       let+ li := r24 p in let+ lf := r16 in
       let+ pi := r24 p in let+ pf := r16 in
       let+ st := r8 in
       pret (hset (set_nonzero (set_nonzero h2 "R_LINE" li lf) "R_POINT" pi pf)
                  "SENSOR_TYPE" (VInt st))
     else pret h2) in
  if 2 <? major then
    let+ tn := r24 p in
    let+ n := r32 in
    let+ mv := r8 in
    let+ _ := pskip 1 in
    let+ un := r8 in
    let (v, h4) := hidx h3 "TRACE_NUMBER" in
    pret (let* t := get_int v in
          let h5 := if t =? 16665 then hset h4 "TRACE_NUMBER" (VInt tn) else h4 in
          Ok (hset (hset (hset h5 "SAMP_NUM" (VInt n)) "SENSOR_MOVING" (VInt mv))
                   "PHYSICAL_UNIT" (VInt un)))
  else pret (Ok h3).

(** ISEGD.cpp:1268-1351: [n] blocks remain, block number [i] is next.
    [trace_header_extension[i]] beyond the vector is undefined. *)
Fixpoint rd_exts (p : platform) (major : Z) (ls : ext_layouts) (n i : nat)
         (f : file) (h : hdr) : outcome (hdr * file) :=
  match n with
  | O => Ok (h, f)
  | S n' =>
    let* (block, f1) := fread TRACE_HEADER_EXT_SIZE f in
    let* h1 :=
      match ls with
      | [] => match i with
              | O => let* (o, _) := rd_ext_std p major h block in o
              | S _ => Ok h
              end
      | _ => match nth_error ls i with
             | Some l => rd_ext_fields p block l block h
             | None => UB
             end
      end in
    rd_exts p major ls n' (S i) f1 h1
  end.

(** ISEGD.cpp:1264-1352 [read_trace_header_ext].  [int trc_hdr_ext] from an
    int64_t; a negative count runs no iteration. *)
Definition read_trace_header_ext (p : platform) (s : isegd) (h : hdr) (f : file)
  : outcome (hdr * file) :=
  let (v, h1) := hidx h "TR_HDR_EXT" in
  let* n := get_int v in
  rd_exts p (g2_major (d_g2 s)) (d_layouts s) (Z.to_nat (wraps 32 n)) 0 f h1.

(** [v[i - 1]] for an int64_t [i]: out of range is undefined. *)
Definition nth_1 {A} (l : list A) (i : Z) : outcome A :=
  if (1 <=? i) && (i <=? len l) then
    match nth_error l (Z.to_nat (i - 1)) with Some a => Ok a | None => UB end
  else UB.

(** ISEGD.cpp:1358-1360 *)
Definition curr_ch_set (s : isegd) (h : hdr) : outcome chset :=
  let* i := get_int (fst (hidx h "SCAN_TYPE_NUM")) in
  let* j := get_int (fst (hidx h "CH_SET_NUM")) in
  let* sets := nth_1 (d_sets s) i in
  nth_1 sets j.

(** ISEGD.cpp:1361-1366 *)
Definition samp_num_of (h : hdr) (c : chset) : outcome Z :=
  match hget h "SAMP_NUM" with
  | Some v => let* n := get_int v in Ok (wrapu 32 n)
  | None => match c_number_of_samples c with
            | Some n => Ok n
            | None => Ok (wrapu 32 (c_subscans c))
            end
  end.

(** ISEGD.cpp:1354-1376 [read_trace_samples] *)
Definition read_trace_samples (p : platform) (s : isegd) (h : hdr) (f : file)
  : outcome (list Z * file) :=
  let* c := curr_ch_set s h in
  let* n := samp_num_of h c in
  let* (bits, rs) := d_sample_reader p (g1_format_code (d_g1 s)) in
  let sz := wrapu 32 (n * bits) / 8 in
  let* _ := resize_to p sz in
  let* (buf, f1) := fread sz f in
  let* _ := resize_to p (8 * n) in
  let descale := d_exp2 p (c_descale c) in
  let* (smp, _) := prep (pmap (fun x => d_mul x descale) rs) (Z.to_nat n) buf in
  Ok (smp, f1).

Definition d_set (s : isegd) (f : file) (sets : list (list chset)) (chans rd : Z)
  : isegd :=
  mkD f (d_g1 s) (d_g2 s) (d_g3 s) (d_blocks s) sets (d_extd s) (d_extl s)
      (d_layouts s) (d_eod s) chans rd.

(** ISEGD.cpp:137-151 [read_trace] *)
Definition d_read_trace (p : platform) (s : isegd) : outcome (trace * isegd) :=
  let* (buf, f1) := fread TRACE_HEADER_SIZE (d_file s) in
  let* (h0, _) := rd_trace_header p buf in
  let* (h, f2) := read_trace_header_ext p s h0 f1 in
  let* (smp, f3) := read_trace_samples p s h f2 in
  let rd := wrapu 64 (d_read s + 1) in
  if d_chans s =? rd then
    let s1 := d_set s f3 [] 0 0 in
    let* s2 := (if has_record s1 then read_headers_before_traces p s1 else Ok s1) in
    Ok (mkTrace h smp, s2)
  else Ok (mkTrace h smp, d_set s f3 (d_sets s) (d_chans s) rd).

(** The client loop [while (s.has_trace()) traces.push_back(s.read_trace())];
    [fuel] bounds the number of iterations. *)
Fixpoint d_read_all (p : platform) (fuel : nat) (s : isegd)
  : outcome (list trace * isegd) :=
  if d_has_trace s then
    match fuel with
    | O => Throw ELoop
    | S k =>
      let* (t, s1) := d_read_trace p s in
      let* (ts, s2) := d_read_all p k s1 in
      Ok (t :: ts, s2)
    end
  else Ok ([], s).

(** A client that reads [n] traces. *)
Fixpoint d_take (p : platform) (n : nat) (s : isegd) : outcome (list trace * isegd) :=
  match n with
  | O => Ok ([], s)
  | S k => let* (t, s1) := d_read_trace p s in
           let* (ts, s2) := d_take p k s1 in
           Ok (t :: ts, s2)
  end.

(** ** Accessors, ISEGD.cpp:1398-1717 *)

Definition get_g2 (s : isegd) : option gh2 :=
  if g1_add_blocks (d_g1 s) =? 0 then None else Some (d_g2 s).

Definition get_g3 (s : isegd) : option gh3 :=
  if is_rev3 (d_g1 s) (d_g2 s) then Some (d_g3 s) else None.

(** ISEGD.cpp:1410-1424: the cast of a block of another class gives a null
    pointer, which is dereferenced. *)
Definition get_gN (s : isegd) : outcome (list ghN) :=
  if (g1_add_blocks (d_g1 s) =? 0) || (2 <? g2_major (d_g2 s)) then Ok []
  else mapM (fun kb => match snd kb with AN h => Ok h | A3 _ _ _ => UB end)
            (d_blocks s).

(** ISEGD.cpp:1434-1716: the accessor of the revision 3 class [cls]. *)
Definition get_block (s : isegd) (cls : Z) : outcome (option (list bval)) :=
  match bfind (d_blocks s) cls with
  | None => Ok None
  | Some (A3 c vs _) => if c =? cls then Ok (Some vs) else UB
  | Some (AN _) => UB
  end.
