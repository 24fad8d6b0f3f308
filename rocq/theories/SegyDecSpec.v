(** What the bytes of a SEG-Y file mean, from the tables of the standard
    (SEG-Y Rev 2.0, sections 4 and 5), without the codecs of the library.  Bytes
    are numbered from 1 as in the standard.  Only the record types and the
    layout types are shared with the model; the type of what a call returned
    comes from ReadSpec. *)
From Coq Require Import Reals.
From Flocq Require Import Core.
From Verif Require Import Base CodecSpec FpSpec TraceHdr SegyTypes LayoutSpec ReadSpec.
Local Open Scope Z_scope.

Inductive order : Type := Big | Little.

(** The integer constant in bytes 3297-3300: 0x01020304 as the writer's machine
    stores it, or zero in files of older revisions, which are big-endian. *)
Definition order_in (c : list Z) : option order :=
  match slice 3296 4 c with
  | [0; 0; 0; 0] | [1; 2; 3; 4] => Some Big
  | [4; 3; 2; 1] => Some Little
  | _ => None
  end.

(** The number written in some bytes. *)
Definition uval (o : order) (l : list Z) : Z :=
  fold_left (fun a x => 256 * a + x) (match o with Big => l | Little => rev l end) 0.
Definition sval (o : order) (l : list Z) : Z := as_signed (List.length l) (uval o l).

(** Bytes [a] to [b], the first byte being number 1. *)
Definition span (a b : Z) (l : list Z) : list Z := slice (a - 1) (b - a + 1) l.
Definition unsg (c : list Z) (o : order) (a b : Z) : Z := uval o (span a b c).
Definition sgnd (c : list Z) (o : order) (a b : Z) : Z := sval o (span a b c).

(** ** Binary file header *)
Definition bin_says (c : list Z) (o : order) (b : bin_hdr) : Prop :=
  bh_job_id b = sgnd c o 3201 3204 /\
  bh_line_num b = sgnd c o 3205 3208 /\
  bh_reel_num b = sgnd c o 3209 3212 /\
  bh_tr_per_ens b = sgnd c o 3213 3214 /\
  bh_aux_per_ens b = sgnd c o 3215 3216 /\
  bh_samp_int b = sgnd c o 3217 3218 /\
  bh_samp_int_orig b = sgnd c o 3219 3220 /\
  bh_samp_per_tr b = sgnd c o 3221 3222 /\
  bh_samp_per_tr_orig b = sgnd c o 3223 3224 /\
  bh_format_code b = sgnd c o 3225 3226 /\
  bh_ens_fold b = sgnd c o 3227 3228 /\
  bh_sort_code b = sgnd c o 3229 3230 /\
  bh_vert_sum_code b = sgnd c o 3231 3232 /\
  bh_sw_freq_at_start b = sgnd c o 3233 3234 /\
  bh_sw_freq_at_end b = sgnd c o 3235 3236 /\
  bh_sw_length b = sgnd c o 3237 3238 /\
  bh_sw_type_code b = sgnd c o 3239 3240 /\
  bh_sw_ch_tr_num b = sgnd c o 3241 3242 /\
  bh_taper_at_start b = sgnd c o 3243 3244 /\
  bh_taper_at_end b = sgnd c o 3245 3246 /\
  bh_taper_type b = sgnd c o 3247 3248 /\
  bh_corr_traces b = sgnd c o 3249 3250 /\
  bh_bin_gain_recov b = sgnd c o 3251 3252 /\
  bh_amp_recov_meth b = sgnd c o 3253 3254 /\
  bh_measure_system b = sgnd c o 3255 3256 /\
  bh_impulse_sig_pol b = sgnd c o 3257 3258 /\
  bh_vib_pol_code b = sgnd c o 3259 3260 /\
  bh_ext_tr_per_ens b = sgnd c o 3261 3264 /\
  bh_ext_aux_per_ens b = sgnd c o 3265 3268 /\
  bh_ext_samp_per_tr b = sgnd c o 3269 3272 /\
  bh_ext_samp_int b = unsg c o 3273 3280 /\
  bh_ext_samp_int_orig b = unsg c o 3281 3288 /\
  bh_ext_samp_per_tr_orig b = sgnd c o 3289 3292 /\
  bh_ext_ens_fold b = sgnd c o 3293 3296 /\
  bh_SEGY_rev_major_ver b = unsg c o 3501 3501 /\
  bh_SEGY_rev_minor_ver b = unsg c o 3502 3502 /\
  bh_fixed_tr_length b = sgnd c o 3503 3504 /\
  bh_ext_text_headers_num b = sgnd c o 3505 3506.

(** Members of revision 2. *)
Definition bin2_says (c : list Z) (o : order) (b : bin_hdr) : Prop :=
  bh_max_num_add_tr_headers b = sgnd c o 3507 3510 /\
  bh_time_basis_code b = sgnd c o 3511 3512 /\
  bh_num_of_tr_in_file b = unsg c o 3513 3520 /\
  bh_byte_off_of_first_tr b = unsg c o 3521 3528 /\
  bh_num_of_trailer_stanza b = sgnd c o 3529 3532.
Definition bin2_zero (b : bin_hdr) : Prop :=
  bh_max_num_add_tr_headers b = 0 /\ bh_time_basis_code b = 0 /\ bh_num_of_tr_in_file b = 0 /\
  bh_byte_off_of_first_tr b = 0 /\ bh_num_of_trailer_stanza b = 0.

(** The number that tells the user the byte order of the file. *)
Definition order_number (o : order) (m : Z) : Prop :=
  match o with Little => m = 16909060 | Big => m = 0 \/ m = 67305985 end.

(** ** Numbers in trace headers and samples *)

(** The double [d] has the value [x] and the sign [neg]; zero has one too. *)
Definition signed (neg : bool) (x : R) (d : Z) : Prop := holds d x /\ ieee_neg 52 11 d = neg.

(** Single precision widened to double: exact; infinities and NaNs stay such. *)
Definition widened (w d : Z) : Prop :=
  if flt_finite w then signed (ieee_neg 23 8 w) (flt_val w) d
  else if flt_nan w then is_dbl d /\ dbl_nan d = true
  else d = 2047 * 2 ^ 52 + (if ieee_neg 23 8 w then 2 ^ 63 else 0).

(** Nearest double, ties to even. *)
Definition rne64 (r : R) : R := round radix2 (FLT_exp (-1074) 53) ZnearestE r.

(** What a field of a type shows. *)
Definition shown (o : order) (t : vtype) (l : list Z) (v : value) : Prop :=
  match t with
  | U8 | U16 | U24 | U32 => v = VInt (uval o l)
  | I8 | I16 | I24 | I32 | I64 | U64 => v = VInt (sval o l)
  | Ibm => exists d, v = VDbl d /\ signed (ibm_neg (uval o l)) (ibm_val (uval o l)) d
  | F32 => exists d, v = VDbl d /\ widened (uval o l) d
  | F64 => v = VDbl (uval o l)
  end.

(** Bytes per sample and value of a sample, by data sample format code. *)
Definition code_width (fmt : Z) : option Z :=
  match fmt with
  | 1 | 2 | 5 | 10 => Some 4
  | 3 | 11 => Some 2
  | 6 | 9 | 12 => Some 8
  | 7 | 15 => Some 3
  | 8 | 16 => Some 1
  | _ => None
  end.
Definition sample_says (o : order) (fmt : Z) (l : list Z) (d : Z) : Prop :=
  match fmt with
  | 1 => signed (ibm_neg (uval o l)) (ibm_val (uval o l)) d
  | 2 | 3 | 7 | 8 => signed (sval o l <? 0) (IZR (sval o l)) d
  | 10 | 11 | 15 | 16 => signed false (IZR (uval o l)) d
  | 5 => widened (uval o l) d
  | 6 => d = uval o l
  | 9 => signed (sval o l <? 0) (rne64 (IZR (sval o l))) d
  | 12 => signed false (rne64 (IZR (uval o l))) d
  | _ => False
  end.

(** ** Traces *)

(** Fields of the first [n] header blocks, with the number of their block. *)
Definition fields_of (ls : layouts) (n : nat) : list (Z * entry) :=
  flat_map (fun i => map (pair (Z.of_nat i)) (match nth_error ls i with Some (_, l) => l | None => [] end)) (seq 0 n).
(** The last field of a name. *)
Definition field_named (k : string) (fs : list (Z * entry)) : option (Z * entry) :=
  find (fun f => String.eqb (e_name (snd f)) k) (rev fs).

(** The header [h] shows the fields of the blocks that start at [pos]. *)
Definition hdr_says (o : order) (c : list Z) (ls : layouts) (n : nat) (pos : Z) (k : string) (ov : option value) : Prop :=
  match field_named k (fields_of ls n) with
  | Some (i, en) => exists v, ov = Some v /\
      shown o (e_type en) (slice (pos + 240 * i + e_off en) (width (e_type en)) c) v
  | None => ov = None
  end.

(** Header blocks per trace; do all traces have the same length; how many
    samples then. *)
Definition block_count (b : bin_hdr) : Z := Z.max 0 (bh_max_num_add_tr_headers b + 1).
Definition same_length (b : bin_hdr) : bool :=
  negb (bh_fixed_tr_length b =? 0) || (bh_SEGY_rev_major_ver b =? 0).
Definition declared (b : bin_hdr) : Z :=
  if bh_ext_samp_per_tr b =? 0 then as_unsigned 2 (bh_samp_per_tr b) else bh_ext_samp_per_tr b.

(** The header [h] of the trace at [pos] and its number of samples: the header
    shows the fields, the blocks with fields are inside the file, and the number
    of samples is the declared one or the one in the header.  A header without
    the field SAMP_NUM gets one that shows 0. *)
Definition head_at (o : order) (b : bin_hdr) (ls : layouts) (c : list Z) (pos : Z) (h : hdr) (ns : Z) : Prop :=
  let n := block_count b in
  let num := field_named "SAMP_NUM" (fields_of ls (Z.to_nat n)) in
  (forall k, hdr_says o c ls (Z.to_nat n) pos k (hget h k) \/
     (same_length b = false /\ k = "SAMP_NUM"%string /\ num = None /\ hget h k = Some (VInt 0))) /\
  (0 < Z.min n (len ls) -> pos + 240 * Z.min n (len ls) <= len c) /\
  (if same_length b then ns = declared b else hget h "SAMP_NUM" = Some (VInt ns)).

(** The trace [t] is what the bytes from [pos] to [next] say. *)
Definition trace_at (o : order) (b : bin_hdr) (ls : layouts) (c : list Z) (pos : Z) (t : trace) (next : Z) : Prop :=
  let data := pos + 240 * block_count b in
  let ns := len (t_smp t) in
  exists w, code_width (bh_format_code b) = Some w /\ head_at o b ls c pos (t_hdr t) ns /\
    (forall i d, nth_error (t_smp t) i = Some d ->
       sample_says o (bh_format_code b) (slice (data + w * Z.of_nat i) w c) d) /\
    next = data + w * ns /\ (0 < ns -> next <= len c).

(** What one call returned, and where the next trace begins. *)
Definition item_at (o : order) (b : bin_hdr) (ls : layouts) (c : list Z) (pos : Z) (x : item) (next : Z) : Prop :=
  match x with
  | Full t => trace_at o b ls c pos t next
  | Head h => exists w ns, code_width (bh_format_code b) = Some w /\ head_at o b ls c pos h ns /\
                next = pos + 240 * block_count b + w * ns
  end.

Definition header_of (x : item) : hdr := match x with Full t => t_hdr t | Head h => h end.

(** Consecutive traces from [pos]. *)
Inductive items_at (o : order) (b : bin_hdr) (ls : layouts) (c : list Z) : Z -> list item -> Z -> Prop :=
| ia_nil pos : items_at o b ls c pos [] pos
| ia_cons pos x mid l next : item_at o b ls c pos x mid -> items_at o b ls c mid l next ->
    items_at o b ls c pos (x :: l) next.

(** A complete trace of [ns] samples, [w] bytes each, starts at [pos]. *)
Definition complete_at (o : order) (b : bin_hdr) (ls : layouts) (c : list Z) (pos ns w : Z) : Prop :=
  let n := block_count b in
  code_width (bh_format_code b) = Some w /\ 0 <= ns /\ pos + 240 * n + w * ns <= len c /\
  if same_length b then ns = declared b
  else exists i en, field_named "SAMP_NUM" (fields_of ls (Z.to_nat n)) = Some (i, en) /\
         shown o (e_type en) (slice (pos + 240 * i + e_off en) (width (e_type en)) c) (VInt ns).

(** Where the traces begin: behind the headers and the [n] text headers, or at
    the announced offset. *)
Definition first_at (b : bin_hdr) (n : Z) : Z :=
  if bh_byte_off_of_first_tr b =? 0 then 400 + 3200 * n else as_signed 8 (bh_byte_off_of_first_tr b).

(** The sample count has at most 32 bits. *)
Definition short_count (ls : layouts) : Prop :=
  forall n l en, In (n, l) ls -> In en l -> e_name en = "SAMP_NUM"%string -> width (e_type en) <= 4.

(** ** The trace header of the standard, under the names of the library *)
Definition std_header : list (string * (Z * Z)) :=
  [("TRC_SEQ_LINE", (1, 4)); ("TRC_SEQ_SGY", (5, 8)); ("FFID", (9, 12)); ("CHAN", (13, 16)); ("ESP", (17, 20));
   ("ENS_NO", (21, 24)); ("SEQ_NO", (25, 28)); ("TRACE_ID", (29, 30)); ("VERT_SUM", (31, 32)); ("HOR_SUM", (33, 34));
   ("DATA_USE", (35, 36)); ("OFFSET", (37, 40)); ("R_ELEV", (41, 44)); ("S_ELEV", (45, 48)); ("S_DEPTH", (49, 52));
   ("R_DATUM", (53, 56)); ("S_DATUM", (57, 60)); ("S_WATER", (61, 64)); ("R_WATER", (65, 68));
   ("ELEV_SCALAR", (69, 70)); ("COORD_SCALAR", (71, 72)); ("SOU_X", (73, 76)); ("SOU_Y", (77, 80));
   ("REC_X", (81, 84)); ("REC_Y", (85, 88)); ("COORD_UNITS", (89, 90)); ("WEATH_VEL", (91, 92));
   ("SUBWEATH_VEL", (93, 94)); ("S_UPHOLE", (95, 96)); ("R_UPHOLE", (97, 98)); ("S_STAT", (99, 100));
   ("R_STAT", (101, 102)); ("TOT_STAT", (103, 104)); ("LAG_A", (105, 106)); ("LAG_B", (107, 108));
   ("DELAY_TIME", (109, 110)); ("MUTE_START", (111, 112)); ("MUTE_END", (113, 114)); ("SAMP_NUM", (115, 116));
   ("SAMP_INT", (117, 118)); ("GAIN_TYPE", (119, 120)); ("GAIN_CONST", (121, 122)); ("INIT_GAIN", (123, 124));
   ("CORRELATED", (125, 126)); ("SW_START", (127, 128)); ("SW_END", (129, 130)); ("SW_LENGTH", (131, 132));
   ("SW_TYPE", (133, 134)); ("SW_TAPER_START", (135, 136)); ("SW_TAPER_END", (137, 138)); ("TAPER_TYPE", (139, 140));
   ("ALIAS_FILT_FREQ", (141, 142)); ("ALIAS_FILT_SLOPE", (143, 144)); ("NOTCH_FILT_FREQ", (145, 146));
   ("NOTCH_FILT_SLOPE", (147, 148)); ("LOW_CUT_FREQ", (149, 150)); ("HIGH_CUT_FREQ", (151, 152));
   ("LOW_CUT_SLOPE", (153, 154)); ("HIGH_CUT_SLOPE", (155, 156)); ("YEAR", (157, 158)); ("DAY", (159, 160));
   ("HOUR", (161, 162)); ("MINUTE", (163, 164)); ("SECOND", (165, 166)); ("TIME_BASIS_CODE", (167, 168));
   ("TRACE_WEIGHT", (169, 170)); ("GROUP_NUM_ROLL", (171, 172)); ("GROUP_NUM_FIRST", (173, 174));
   ("GROUP_NUM_LAST", (175, 176)); ("GAP_SIZE", (177, 178)); ("OVER_TRAVEL", (179, 180)); ("CDP_X", (181, 184));
   ("CDP_Y", (185, 188)); ("INLINE", (189, 192)); ("XLINE", (193, 196)); ("SP_NUM", (197, 200));
   ("SP_NUM_SCALAR", (201, 202)); ("TR_VAL_UNIT", (203, 204)); ("TRANS_CONST_MANT", (205, 208));
   ("TRANS_CONST_EXP", (209, 210)); ("TRANS_UNITS", (211, 212)); ("DEVICE_ID", (213, 214)); ("TIME_SCALAR", (215, 216));
   ("SOURCE_TYPE", (217, 218)); ("SOU_V_DIR", (219, 220)); ("SOU_X_DIR", (221, 222)); ("SOU_I_DIR", (223, 224));
   ("SOURCE_MEASUREMENT_MANT", (225, 228)); ("SOURCE_MEASUREMENT_EXP", (229, 230)); ("SOU_MEAS_UNIT", (231, 232))]%string.

(** Trace header extension 1: integers and double precision numbers. *)
Definition ext_ints : list (string * (Z * Z)) :=
  [("TRC_SEQ_LINE", (1, 8)); ("TRC_SEQ_SGY", (9, 16)); ("FFID", (17, 24)); ("ENS_NO", (25, 32));
   ("SAMP_NUM", (137, 140)); ("NANOSECOND", (141, 144)); ("CABLE_NUM", (153, 156));
   ("ADD_TRC_HDR_NUM", (157, 158)); ("LAST_TRC_FLAG", (159, 160))]%string.
Definition ext_dbls : list (string * (Z * Z)) :=
  [("R_ELEV", (33, 40)); ("R_DEPTH", (41, 48)); ("S_ELEV", (49, 56)); ("S_DEPTH", (57, 64)); ("R_DATUM", (65, 72));
   ("S_DATUM", (73, 80)); ("S_WATER", (81, 88)); ("R_WATER", (89, 96)); ("SOU_X", (97, 104)); ("SOU_Y", (105, 112));
   ("REC_X", (113, 120)); ("REC_Y", (121, 128)); ("OFFSET", (129, 136)); ("SAMP_INT", (145, 152));
   ("CDP_X", (161, 168)); ("CDP_Y", (169, 176))]%string.

(** Place of a name in a table. *)
Definition place (tab : list (string * (Z * Z))) (k : string) : option (Z * Z) :=
  option_map snd (find (fun e => String.eqb (fst e) k) tab).

(** What a name shows in a trace with the standard header [blk], and in one
    with the header [blk] and the extension [ext]. *)
Definition std_shows (o : order) (blk : list Z) (k : string) : option value :=
  match place std_header k with
  | Some (a, b) => Some (VInt (sgnd blk o a b))
  | None => None
  end.
Definition ext_shows (o : order) (blk ext : list Z) (k : string) : option value :=
  match place ext_ints k, place ext_dbls k with
  | Some (a, b), _ => Some (VInt (sgnd ext o a b))
  | None, Some (a, b) => Some (VDbl (unsg ext o a b))
  | None, None => std_shows o blk k
  end.

(** The same binary header apart from the byte order member. *)
Definition same_but_order (a b : bin_hdr) : Prop :=
  firstn 34 (bin_fields a) = firstn 34 (bin_fields b) /\ skipn 35 (bin_fields a) = skipn 35 (bin_fields b).
