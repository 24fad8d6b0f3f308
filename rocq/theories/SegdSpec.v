(** Specification vocabulary for SEG-D revision 2 headers: the half-byte
    layouts of the standard (SEG-D Rev 2.1, sections 6 and 7) and the values
    they can hold.  Only the record types and the IEEE value of a double are
    shared with the model. *)
From Coq Require Import Reals.
From Verif Require Import Base Platform BcdSpec CodecSpec FpSpec TraceHdr SegyTypes SegdTypes.
Local Open Scope Z_scope.

(** The double [d] is [k / 2^n] (and not the negative zero). *)
Definition fixp (d k n : Z) : Prop :=
  holds d (IZR k * powerRZ 2 (- n)) /\ d <> 2 ^ 63.

(** A number of [n] decimal digits, or all ones when it does not fit. *)
Definition esc (n : nat) (v : Z) : list Z :=
  if 10 ^ Z.of_nat n <=? v then repeat 15 n else digits n v.
(** What a decimal reader makes of it: FF is 165, FFFF is 16665. *)
Definition unesc (n : nat) (v : Z) : Z :=
  if 10 ^ Z.of_nat n <=? v then pos_value (repeat 15 n) else v.

Definition below (n : nat) (v : Z) : Prop := 0 <= v < 10 ^ Z.of_nat n.

(** ** General header 1 *)

(** [k]: base scan interval in 1/16 ms; [e]: log2 of the scans per block. *)
Definition gh1_range (g : gh1) (k e : Z) : Prop :=
  0 <= g1_file_number g < 2 ^ 31 /\
  below 4 (g1_format_code g) /\
  below 12 (g1_gen_const g) /\
  below 2 (g1_year g) /\
  0 <= g1_add_blocks g < 16 /\
  below 3 (g1_day g) /\
  below 2 (g1_hour g) /\
  below 2 (g1_minute g) /\
  below 2 (g1_second g) /\
  below 2 (g1_manufac_code g) /\
  below 4 (g1_manufac_num g) /\
  below 6 (g1_bytes_per_scan g) /\
  (0 <= k < 128 /\ fixp (g1_base_scan_int g) k 4) /\
  below 1 (g1_polarity g) /\
  (0 <= e < 16 /\ g1_scans_per_block g = 2 ^ e) /\
  below 1 (g1_record_type g) /\
  below 3 (g1_record_length g) /\
  0 <= g1_scan_types g < 2 ^ 31 /\
  below 2 (g1_channel_sets g) /\
  below 2 (g1_skew_blocks g) /\
  0 <= g1_extended_blocks g < 2 ^ 31 /\
  0 <= g1_external_blocks g < 2 ^ 31.

(** [ext]: the record length is in general header 2. *)
Definition gh1_layout (g : gh1) (ext : bool) (k e : Z) : list Z :=
  esc 4 (g1_file_number g) ++
  digits 4 (g1_format_code g) ++
  digits 12 (g1_gen_const g) ++
  digits 2 (g1_year g) ++
  [g1_add_blocks g] ++ digits 3 (g1_day g) ++
  digits 2 (g1_hour g) ++
  digits 2 (g1_minute g) ++
  digits 2 (g1_second g) ++
  digits 2 (g1_manufac_code g) ++
  digits 4 (g1_manufac_num g) ++
  digits 6 (g1_bytes_per_scan g) ++
  nibs [k] ++
  digits 1 (g1_polarity g) ++ [e] ++ nibs [1] ++
  digits 1 (g1_record_type g) ++
  (if ext then [15; 15; 15] else digits 3 (g1_record_length g)) ++
  esc 2 (g1_scan_types g) ++
  digits 2 (g1_channel_sets g) ++
  digits 2 (g1_skew_blocks g) ++
  esc 2 (g1_extended_blocks g) ++
  esc 2 (g1_external_blocks g).

(** What a reader of that block sees: the same values, except for the escapes. *)
Definition gh1_seen (g : gh1) (ext : bool) : gh1 :=
  mkG1 (unesc 4 (g1_file_number g)) (g1_format_code g) (g1_gen_const g)
       (g1_year g) (g1_add_blocks g) (g1_day g) (g1_hour g) (g1_minute g)
       (g1_second g) (g1_manufac_code g) (g1_manufac_num g)
       (g1_bytes_per_scan g) (g1_base_scan_int g) (g1_polarity g)
       (g1_scans_per_block g) (g1_record_type g)
       (if ext then 1665 else g1_record_length g)
       (unesc 2 (g1_scan_types g)) (g1_channel_sets g) (g1_skew_blocks g)
       (unesc 2 (g1_extended_blocks g)) (unesc 2 (g1_external_blocks g)).

(** ** General header 2 (revisions below 3) *)
Definition gh2_range (g : gh2) : Prop :=
  0 <= g2_file_num g < 2 ^ 24 /\
  0 <= g2_channel_sets g < 2 ^ 16 /\
  0 <= g2_extended_blocks g < 2 ^ 16 /\
  0 <= g2_external_blocks g < 2 ^ 16 /\
  0 <= g2_major g < 256 /\
  0 <= g2_minor g < 256 /\
  0 <= g2_trailer_blocks g < 2 ^ 16 /\
  0 <= g2_record_len g < 2 ^ 24 /\
  0 <= g2_block_num g < 256 /\
  0 <= g2_sequence g < 2 ^ 16.

Definition gh2_layout (g : gh2) : list Z :=
  nibs (be_bytes 3 (g2_file_num g)) ++
  nibs (be_bytes 2 (g2_channel_sets g)) ++
  nibs (be_bytes 2 (g2_extended_blocks g)) ++
  nibs (be_bytes 2 (g2_external_blocks g)) ++
  [0; 0] ++
  nibs [g2_major g] ++
  nibs [g2_minor g] ++
  nibs (be_bytes 2 (g2_trailer_blocks g)) ++
  nibs (be_bytes 3 (g2_record_len g)) ++
  [0; 0] ++
  nibs [g2_block_num g] ++
  [0; 0] ++
  nibs (be_bytes 2 (g2_sequence g)).

(** The members a revision 2 block does not carry keep their old values. *)
Definition gh2_seen (g o : gh2) : gh2 :=
  mkG2 (g2_file_num g) (g2_channel_sets g) (g2_extended_blocks g)
       (g2_external_blocks g) (g2_skew_blocks o) (g2_major g) (g2_minor g)
       (g2_trailer_blocks g) (g2_record_len g) (g2_record_set o)
       (g2_add_blocks o) (g2_sampling_int o) (g2_block_num g) (g2_sequence g).

(** ** General header N: [kl], [kp] are the source line and point numbers in
    units of 2^-16. *)
Definition ghN_range (h : ghN) (kl kp : Z) : Prop :=
  0 <= gN_file_number h < 2 ^ 24 /\
  (0 <= kl < 2 ^ 39 /\ fixp (gN_line h) kl 16) /\
  (0 <= kp < 2 ^ 39 /\ fixp (gN_point h) kp 16) /\
  0 <= gN_point_index h < 256 /\
  0 <= gN_phase_control h < 256 /\
  0 <= gN_type_vibrator h < 256 /\
  - 2 ^ 15 <= gN_phase_angle h < 2 ^ 15 /\
  0 <= gN_block_num h < 256 /\
  0 <= gN_set_num h < 256.

Definition ghN_layout (h : ghN) (kl kp : Z) : list Z :=
  nibs (be_bytes 3 (gN_file_number h)) ++
  nibs (be_bytes 3 (kl / 2 ^ 16)) ++ nibs (be_bytes 2 (kl mod 2 ^ 16)) ++
  nibs (be_bytes 3 (kp / 2 ^ 16)) ++ nibs (be_bytes 2 (kp mod 2 ^ 16)) ++
  nibs [gN_point_index h] ++
  nibs [gN_phase_control h] ++
  nibs [gN_type_vibrator h] ++
  nibs (be_bytes 2 (gN_phase_angle h)) ++
  nibs [gN_block_num h] ++
  nibs [gN_set_num h].

(** ** Channel set header (revisions below 3)

    [k]: descale exponent in units of 2^-10; [e]: log2 of the subscans.  Times
    are even numbers of milliseconds. *)
Definition chset_range (c : chset) (k e : Z) : Prop :=
  below 2 (c_scan_type c) /\
  below 2 (c_number c) /\
  (0 <= c_start c < 2 ^ 17 /\ c_start c mod 2 = 0) /\
  (0 <= c_end c < 2 ^ 17 /\ c_end c mod 2 = 0) /\
  (0 <= k < 2 ^ 15 /\ fixp (c_descale c) k 10) /\
  below 4 (c_channels c) /\
  below 1 (c_type c) /\
  (0 <= e < 10 /\ c_subscans c = 2 ^ e) /\
  below 1 (c_gain c) /\
  below 4 (c_alias_freq c) /\
  below 4 (c_alias_slope c) /\
  below 4 (c_low_freq c) /\
  below 4 (c_low_slope c) /\
  below 4 (c_notch1 c) /\
  below 4 (c_notch2 c) /\
  below 4 (c_notch3 c) /\
  0 <= c_ext_num c < 2 ^ 16 /\
  0 <= c_ext_flag c < 8 /\
  0 <= c_hdr_ext c < 16 /\
  0 <= c_vert_stack c < 256 /\
  0 <= c_streamer c < 256 /\
  0 <= c_array c < 256.

Definition chset_layout (c : chset) (k e : Z) : list Z :=
  digits 2 (c_scan_type c) ++
  digits 2 (c_number c) ++
  nibs (be_bytes 2 (c_start c / 2)) ++
  nibs (be_bytes 2 (c_end c / 2)) ++
  nibs (be_bytes 2 k) ++
  digits 4 (c_channels c) ++
  digits 1 (c_type c) ++ [0] ++
  digits 1 e ++ digits 1 (c_gain c) ++
  digits 4 (c_alias_freq c) ++
  digits 4 (c_alias_slope c) ++
  digits 4 (c_low_freq c) ++
  digits 4 (c_low_slope c) ++
  digits 4 (c_notch1 c) ++
  digits 4 (c_notch2 c) ++
  digits 4 (c_notch3 c) ++
  nibs (be_bytes 2 (c_ext_num c)) ++
  [c_ext_flag c; c_hdr_ext c] ++
  nibs [c_vert_stack c] ++
  nibs [c_streamer c] ++
  nibs [c_array c].

(** The reader fills the revision 3 members with zeros. *)
Definition chset_seen (c : chset) : chset :=
  mkC (c_scan_type c) (c_number c) (c_type c) (c_start c) (c_end c)
      (c_descale c) (c_channels c) (c_subscans c) (c_gain c) (c_alias_freq c)
      (c_alias_slope c) (c_low_freq c) (c_low_slope c) (c_notch1 c)
      (c_notch2 c) (c_notch3 c) (c_ext_num c) (c_ext_flag c) (c_hdr_ext c)
      (c_vert_stack c) (c_streamer c) (c_array c)
      (Some (mkR3 0 0 0 0 0 None)).

(** ** Demux trace header: the values a trace carries *)
Record th : Type := mkTH {
  th_ffid : Z; th_scan : Z; th_set : Z; th_chan : Z;
  th_ftw : Z;   (* first timing word, units of 2^-8 *)
  th_ext : Z;   (* number of header extension blocks *)
  th_skew : Z;  (* sample skew, units of 2^-8 *)
  th_edit : Z;
  th_tbw : Z    (* time break window, units of 2^-8 *)
}.

(** An absent key stands for zero. *)
Definition int_key (h : hdr) (k : string) (v : Z) : Prop :=
  hget h k = Some (VInt v) \/ (hget h k = None /\ v = 0).
Definition fix_key (h : hdr) (k : string) (m : Z) : Prop :=
  (exists d, hget h k = Some (VDbl d) /\ fixp d m 8) \/ (hget h k = None /\ m = 0).

Definition th_carries (h : hdr) (t : th) : Prop :=
  int_key h "FFID" (th_ffid t) /\
  int_key h "SCAN_TYPE_NUM" (th_scan t) /\
  hget h "CH_SET_NUM" = Some (VInt (th_set t)) /\
  int_key h "CHAN" (th_chan t) /\
  fix_key h "FIRST_TIMING_WORD" (th_ftw t) /\
  int_key h "TR_HDR_EXT" (th_ext t) /\
  fix_key h "SAMPLE_SKEW" (th_skew t) /\
  int_key h "TRACE_EDIT" (th_edit t) /\
  fix_key h "TIME_BREAK_WIN" (th_tbw t).

Definition th_range (t : th) : Prop :=
  0 <= th_ffid t < 2 ^ 24 /\
  below 2 (th_scan t) /\
  0 <= th_set t < 2 ^ 16 /\
  0 <= th_chan t < 2 ^ 31 /\
  0 <= th_ftw t < 2 ^ 24 /\
  0 <= th_ext t < 256 /\
  0 <= th_skew t < 128 /\
  0 <= th_edit t < 256 /\
  0 <= th_tbw t < 2 ^ 24.

Definition th_layout (t : th) : list Z :=
  esc 4 (th_ffid t) ++
  digits 2 (th_scan t) ++
  esc 2 (th_set t) ++
  esc 4 (th_chan t) ++
  nibs (be_bytes 3 (th_ftw t)) ++
  nibs [th_ext t] ++
  nibs [th_skew t] ++
  nibs [th_edit t] ++
  nibs (be_bytes 3 (th_tbw t)) ++
  nibs (be_bytes 2 (if th_set t <? 100 then 0 else th_set t)) ++
  nibs (be_bytes 3 (th_ffid t)).

(** The header a reader returns for it: every key present. *)
Definition th_shows (h : hdr) (t : th) : Prop :=
  hget h "FFID" = Some (VInt (th_ffid t)) /\
  hget h "SCAN_TYPE_NUM" = Some (VInt (th_scan t)) /\
  hget h "CH_SET_NUM" = Some (VInt (th_set t)) /\
  hget h "CHAN" = Some (VInt (unesc 4 (th_chan t))) /\
  hget h "TR_HDR_EXT" = Some (VInt (th_ext t)) /\
  hget h "TRACE_EDIT" = Some (VInt (th_edit t)) /\
  exists ftw skew tbw,
    hget h "FIRST_TIMING_WORD" = Some (VDbl ftw) /\ fixp ftw (th_ftw t) 8 /\
    hget h "SAMPLE_SKEW" = Some (VDbl skew) /\ fixp skew (th_skew t) 8 /\
    hget h "TIME_BREAK_WIN" = Some (VDbl tbw) /\ fixp tbw (th_tbw t) 8.

(** ** First trace header extension block of a revision 2 record *)
Record te : Type := mkTE {
  te_line : Z;    (* receiver line, units of 2^-16 *)
  te_point : Z;   (* receiver point, units of 2^-16 *)
  te_idx : Z;
  te_samp : Z;    (* number of samples *)
  te_sensor : Z
}.

(** A line or point number may be given as an integer or as a double. *)
Definition num_key (h : hdr) (k : string) (m : Z) : Prop :=
  (exists d, hget h k = Some (VDbl d) /\ fixp d m 16) \/
  (exists z, hget h k = Some (VInt z) /\ m = z * 2 ^ 16) \/
  (hget h k = None /\ m = 0).

Definition te_carries (h : hdr) (t : te) : Prop :=
  num_key h "R_LINE" (te_line t) /\
  num_key h "R_POINT" (te_point t) /\
  int_key h "R_POINT_IDX" (te_idx t) /\
  int_key h "SAMP_NUM" (te_samp t) /\
  int_key h "SENSOR_TYPE" (te_sensor t).

Definition te_range (t : te) : Prop :=
  0 <= te_line t < 2 ^ 40 /\
  0 <= te_point t < 2 ^ 40 /\
  0 <= te_idx t < 256 /\
  0 <= te_samp t < 2 ^ 24 /\
  0 <= te_sensor t < 256.

Definition te_layout (t : te) : list Z :=
  nibs (be_bytes 3 (te_line t / 2 ^ 16)) ++
  nibs (be_bytes 3 (te_point t / 2 ^ 16)) ++
  nibs [te_idx t] ++
  nibs (be_bytes 3 (te_samp t)) ++
  nibs (be_bytes 3 (te_line t / 2 ^ 16)) ++ nibs (be_bytes 2 (te_line t mod 2 ^ 16)) ++
  nibs (be_bytes 3 (te_point t / 2 ^ 16)) ++ nibs (be_bytes 2 (te_point t mod 2 ^ 16)) ++
  nibs [te_sensor t].

(** Zero line and point numbers are returned as integers, others as doubles. *)
Definition num_shows (h : hdr) (k : string) (m : Z) : Prop :=
  if m =? 0 then hget h k = Some (VInt 0)
  else exists d, hget h k = Some (VDbl d) /\ fixp d m 16.

Definition te_shows (h : hdr) (t : te) : Prop :=
  num_shows h "R_LINE" (te_line t) /\
  num_shows h "R_POINT" (te_point t) /\
  hget h "R_POINT_IDX" = Some (VInt (te_idx t)) /\
  hget h "SAMP_NUM" = Some (VInt (te_samp t)) /\
  hget h "SENSOR_TYPE" = Some (VInt (te_sensor t)).

(** ** Whole records *)

(** Bytes of half bytes. *)
Fixpoint pack (ns : list Z) : list Z :=
  match ns with
  | a :: b :: r => 16 * a + b :: pack r
  | _ => []
  end.
(** A block of [n] bytes: the half bytes [ns], then zeros. *)
Definition blk (n : nat) (ns : list Z) : list Z :=
  pack (ns ++ repeat 0 (2 * n - List.length ns)).

(** The headers of one record, every block with the integers behind its
    doubles. *)
Record srec : Type := mkSR {
  r_g1 : gh1; r_k : Z; r_e : Z;
  r_g2 : gh2;
  r_N : list (ghN * Z * Z);
  r_sets : list (list (chset * Z * Z));
  r_extd : list (list Z);
  r_extl : list (list Z)
}.

Definition fst3 {A B C} (x : A * B * C) : A := fst (fst x).

(** The record length of general header 1 is replaced by FFF when general
    header 2 has one. *)
Definition r_ext (r : srec) : bool := negb (g2_record_len (r_g2 r) =? 0).

(** A number of blocks: from general header 1 if it has two digits, otherwise
    from general header 2. *)
Definition count_ok (c1 c2 n : Z) : Prop :=
  (c1 < 100 /\ n = c1) \/ (c1 = 165 /\ n = c2) \/ (100 <= c1 /\ c1 = c2 /\ n = c2).

Definition srec_ok (r : srec) : Prop :=
  gh1_range (r_g1 r) (r_k r) (r_e r) /\
  gh2_range (r_g2 r) /\ g2_major (r_g2 r) < 3 /\
  Forall (fun h => ghN_range (fst3 h) (snd (fst h)) (snd h)) (r_N r) /\
  g1_add_blocks (r_g1 r) = 1 + len (r_N r) /\
  Forall (Forall (fun c => chset_range (fst3 c) (snd (fst c)) (snd c))) (r_sets r) /\
  g1_scan_types (r_g1 r) = len (r_sets r) /\ len (r_sets r) < 100 /\
  Forall (fun cs => len cs = g1_channel_sets (r_g1 r)) (r_sets r) /\
  Forall (fun b => List.length b = 32%nat /\ bytes b) (r_extd r) /\
  count_ok (g1_extended_blocks (r_g1 r)) (g2_extended_blocks (r_g2 r)) (len (r_extd r)) /\
  Forall (fun b => List.length b = 32%nat /\ bytes b) (r_extl r) /\
  count_ok (g1_external_blocks (r_g1 r)) (g2_external_blocks (r_g2 r)) (len (r_extl r)).

Definition gN_blk (x : ghN * Z * Z) : list Z := blk 32 (ghN_layout (fst3 x) (snd (fst x)) (snd x)).
Definition chset_blk (x : chset * Z * Z) : list Z :=
  blk 32 (chset_layout (fst3 x) (snd (fst x)) (snd x)).

(** The bytes of the headers of a record. *)
Definition rec_hdr (r : srec) : list Z :=
  blk 32 (gh1_layout (r_g1 r) (r_ext r) (r_k r) (r_e r)) ++
  blk 32 (gh2_layout (r_g2 r)) ++
  concat (map gN_blk (r_N r)) ++
  concat (map (fun cs => concat (map chset_blk cs) ++
                         repeat 0 (32 * Z.to_nat (g1_skew_blocks (r_g1 r)))) (r_sets r)) ++
  concat (r_extd r) ++
  concat (r_extl r).

(** The number of traces the channel set headers declare. *)
Definition r_chans (r : srec) : Z :=
  fold_right Z.add 0 (map (fun c => c_channels (fst3 c)) (concat (r_sets r))).

(** ** Samples *)

(** The bytes [bs] are the word of the value [y] in the given format code. *)
Definition int_word (n : nat) (y : Z) (v : Z) : Prop :=
  holds y (IZR v) /\ y <> 2 ^ 63 /\ - 2 ^ (8 * Z.of_nat n - 1) <= v < 2 ^ (8 * Z.of_nat n - 1).
Definition flt_word (y f : Z) : Prop :=
  is_flt f /\ flt_finite f = true /\ holds y (flt_val f) /\ ieee_neg 52 11 y = ieee_neg 23 8 f.
Definition sample_word (fmt y : Z) (bs : list Z) : Prop :=
  match fmt with
  | 8036 => exists v, int_word 3 y v /\ bs = be_bytes 3 v
  | 8038 => exists v, int_word 4 y v /\ bs = be_bytes 4 v
  | 8058 => exists f, flt_word y f /\ bs = be_bytes 4 f
  | 8080 => is_dbl y /\ dbl_finite y = true /\ bs = be_bytes 8 y
  | 9038 => exists v, int_word 4 y v /\ bs = le_bytes 4 v
  | 9058 => exists f, flt_word y f /\ bs = le_bytes 4 f
  | 9080 => is_dbl y /\ dbl_finite y = true /\ bs = le_bytes 8 y
  | _ => False
  end.
(** [x = y * 2^k] *)
Definition scaled (x k y : Z) : Prop :=
  exists r, holds y r /\ holds x (r * powerRZ 2 k) /\ ieee_neg 52 11 x = ieee_neg 52 11 y.

(** ** Traces *)

(** The contents of a trace on disk: header, first extension block, words. *)
Record strc : Type := mkST { s_th : th; s_te : te; s_words : list (list Z) }.

Definition nth1 {A} (l : list A) (i : Z) (a : A) : Prop :=
  1 <= i /\ nth_error l (Z.to_nat (i - 1)) = Some a.

(** The trace [t] has the contents [c] in the record [r]: its header has at
    least one extension block and carries the sample count; its samples are
    scaled by the descale exponent (an integer) of its channel set. *)
Definition trace_in (r : srec) (t : trace) (c : strc) : Prop :=
  th_carries (t_hdr t) (s_th c) /\ th_range (s_th c) /\ 1 <= th_ext (s_th c) /\
  te_carries (t_hdr t) (s_te c) /\ te_range (s_te c) /\ te_samp (s_te c) = len (t_smp t) /\
  exists cs x m, nth1 (r_sets r) (th_scan (s_th c)) cs /\ nth1 cs (th_set (s_th c)) x /\
    fixp (c_descale (fst3 x)) (m * 2 ^ 10) 10 /\
    Forall2 (fun v w => exists y, scaled v m y /\ sample_word (g1_format_code (r_g1 r)) y w)
            (t_smp t) (s_words c).

Definition trc_bytes (c : strc) : list Z :=
  blk 20 (th_layout (s_th c)) ++ blk 32 (te_layout (s_te c)) ++
  repeat 0 (32 * (Z.to_nat (th_ext (s_th c)) - 1)) ++ concat (s_words c).

(** The trace [t'] shows the contents [c] and the samples of [t]. *)
Definition trace_same (t : trace) (c : strc) (t' : trace) : Prop :=
  th_shows (t_hdr t') (s_th c) /\ te_shows (t_hdr t') (s_te c) /\ t_smp t' = t_smp t /\
  forall k, hget (t_hdr t') k <> None ->
    In k ["FFID"; "SCAN_TYPE_NUM"; "CH_SET_NUM"; "CHAN"; "FIRST_TIMING_WORD"; "TR_HDR_EXT";
          "SAMPLE_SKEW"; "TRACE_EDIT"; "TIME_BREAK_WIN"; "R_LINE"; "R_POINT"; "R_POINT_IDX";
          "SAMP_NUM"; "SENSOR_TYPE"]%string.

(** ** Files of several records *)

(** The formats whose writer and reader are both defined and agree. *)
Definition good_formats : list Z := [8036; 8038; 8058; 8080; 9038; 9058; 9080].

(** Negative samples of 8036 and 8038 need gcc's double to unsigned
    conversion. *)
Definition conv_fmt (p : platform) (fmt : Z) : Prop :=
  p_d2u p = gcc_d2u \/ ~ In fmt [8036; 8038].

(** A record of revision 2.x that can be written and read. *)
Definition rec_good (p : platform) (r : srec) : Prop :=
  srec_ok r /\ g2_major (r_g2 r) = 2 /\ conv_fmt p (g1_format_code (r_g1 r)) /\
  In (g1_format_code (r_g1 r)) good_formats.

(** Left operands first; the trace header buffers are adjacent; allocations of
    128 MiB succeed. *)
Definition plat_ok (p : platform) : Prop :=
  p_left_first p = true /\ p_flat_bufs p = true /\ 2 ^ 27 <= p_max_alloc p.

(** Traces and their contents; records. *)
Definition tc_in (r : srec) (x : trace * strc) : Prop := trace_in r (fst x) (snd x).
Definition tc_bytes (tcs : list (trace * strc)) : list Z := concat (map (fun x => trc_bytes (snd x)) tcs).
Definition fr : Type := (srec * list (trace * strc))%type.
Definition fr_bytes (x : fr) : list Z := rec_hdr (fst x) ++ tc_bytes (snd x).
Definition fr_ok (p : platform) (x : fr) : Prop :=
  rec_good p (fst x) /\ Forall (tc_in (fst x)) (snd x) /\ len (snd x) = r_chans (fst x) /\
  (snd x) <> [] /\ len (snd x) < 2 ^ 63.

Definition fr_traces (xs : list fr) : list (trace * strc) := concat (map snd xs).


(** Additional general header blocks are kept in ascending order of their
    block numbers. *)
Definition in_order (hs : list ghN) : Prop :=
  forall i j a b, (i < j)%nat -> nth_error hs i = Some a -> nth_error hs j = Some b ->
    gN_block_num a < gN_block_num b.
