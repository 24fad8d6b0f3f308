(** The SEG-D reader once more, with what a call that throws leaves behind.
    Models src/ISEGD.cpp:127-210, 283-316, 1238-1388. *)
From Verif Require Import Base Platform Bcd Fp TraceHdr SegyTypes SegyCodec ISegy SegdTypes ISegd StepX.

(** The reader and failbit of its stream.  The exception mask contains failbit
    (CommonSEGD.cpp:41), so [read], [seekg] and [tellg] throw on a stream on
    which it is set; nothing in the library clears it.

    Two members are simplified: the sample reader is taken from the format code
    of general header 1 also when that code was refused (ISEGD.cpp:168), which
    no call can see, for the channel sets are empty then and every trace is
    undefined before its samples are read; and the extended and external blocks
    change when all of them were read. *)
Record dreader : Type := mkDR { y_d : isegd; y_fail : bool }.
Definition Y (A : Type) : Type := St dreader A.

Definition d_at (s : isegd) (f : file) : isegd := d_set s f (d_sets s) (d_chans s) (d_read s).

(** An operation on the stream followed by [curr_pos = file.tellg()].  A failed
    operation leaves a position no later operation can see; it is not modelled. *)
Definition y_file {A} (op : file -> outcome (A * file)) : Y A := fun r =>
  if y_fail r then (Throw EIO, r) else
  match op (d_file (y_d r)) with
  | Ok (a, f) => (Ok a, mkDR (d_at (y_d r) f) false)
  | Throw e => (Throw e, mkDR (y_d r) true)
  | UB => (UB, r)
  end.

(** ISEGD.cpp:1378-1382 *)
Definition y_fill (n : Z) : Y (list Z) := y_file (fread n).
(** ISEGD.cpp:1384-1388 *)
Definition y_skip (off : Z) : Y unit :=
  y_file (fun f => let* f1 := fseek_cur off f in Ok (tt, f1)).

(** Assignments to members. *)
Definition y_mod (g : isegd -> isegd) : Y unit := fun r => (Ok tt, mkDR (g (y_d r)) (y_fail r)).
Definition with_g1 (g : gh1) (s : isegd) : isegd :=
  mkD (d_file s) g (d_g2 s) (d_g3 s) (d_blocks s) (d_sets s) (d_extd s) (d_extl s) (d_layouts s) (d_eod s) (d_chans s) (d_read s).
Definition with_g2 (g : gh2) (s : isegd) : isegd :=
  mkD (d_file s) (d_g1 s) g (d_g3 s) (d_blocks s) (d_sets s) (d_extd s) (d_extl s) (d_layouts s) (d_eod s) (d_chans s) (d_read s).
Definition with_g3 (g : gh3) (s : isegd) : isegd :=
  mkD (d_file s) (d_g1 s) (d_g2 s) g (d_blocks s) (d_sets s) (d_extd s) (d_extl s) (d_layouts s) (d_eod s) (d_chans s) (d_read s).
Definition with_blocks (m : blkmap) (s : isegd) : isegd :=
  mkD (d_file s) (d_g1 s) (d_g2 s) (d_g3 s) m (d_sets s) (d_extd s) (d_extl s) (d_layouts s) (d_eod s) (d_chans s) (d_read s).
Definition with_extd (b : list (list Z)) (s : isegd) : isegd :=
  mkD (d_file s) (d_g1 s) (d_g2 s) (d_g3 s) (d_blocks s) (d_sets s) b (d_extl s) (d_layouts s) (d_eod s) (d_chans s) (d_read s).
Definition with_extl (b : list (list Z)) (s : isegd) : isegd :=
  mkD (d_file s) (d_g1 s) (d_g2 s) (d_g3 s) (d_blocks s) (d_sets s) (d_extd s) b (d_layouts s) (d_eod s) (d_chans s) (d_read s).

(** ** General headers, ISEGD.cpp:283-316 *)

(** ISEGD.cpp:298-303, [n] blocks remain. *)
Fixpoint y_gN_blocks (p : platform) (n : nat) : Y unit :=
  match n with
  | O => xret tt
  | S n' =>
    let! buf := y_fill GEN_HDR_SIZE in
    let! (h, _) := xlift (rd_ghN p buf) in
    let! _ := y_mod (fun s => with_blocks (bset (d_blocks s) (gN_block_num h) (AN h)) s) in
    y_gN_blocks p n'
  end.

(** ISEGD.cpp:309-313, [n] blocks remain. *)
Fixpoint y_r3_blocks (p : platform) (n : nat) : Y unit :=
  match n with
  | O => xret tt
  | S n' =>
    let! buf := y_fill GEN_HDR_SIZE in
    let! r := xget in
    let! m := xlift (rd_r3_block p (d_blocks (y_d r)) buf) in
    let! _ := y_mod (with_blocks m) in
    y_r3_blocks p n'
  end.

Definition y_general_headers (p : platform) : Y unit :=
  let! buf := y_fill GEN_HDR_SIZE in
  let! (g1, _) := xlift (rd_gh1 buf) in
  let! _ := y_mod (with_g1 g1) in
  if g1_add_blocks g1 =? 0 then xret tt
  else
    let! buf2 := y_fill GEN_HDR_SIZE in
    let! (rev, _) := xlift (rd_rev buf2) in
    let (major, minor) := (rev : Z * Z) in
    let! r := xget in
    if major <? 3 then
      let! (g2, _) := xlift (rd_gh2_rev2 p major minor (d_g2 (y_d r)) buf2) in
      let! _ := y_mod (with_g2 g2) in
      y_gN_blocks p (Z.to_nat (g1_add_blocks g1 - 1))
    else
      let! (g2, _) := xlift (rd_gh2_rev3 p major minor (d_g2 (y_d r)) buf2) in
      let! _ := y_mod (with_g2 g2) in
      let! buf3 := y_fill GEN_HDR_SIZE in
      let! (g3, _) := xlift (rd_gh3 buf3) in
      let! _ := y_mod (with_g3 g3) in
      let n := if g1_add_blocks g1 =? 15 then g2_add_blocks g2 else g1_add_blocks g1 in
      y_r3_blocks p (Z.to_nat (wrapu 16 (n - 2))).

(** ** Channel sets, ISEGD.cpp:180-191 *)

(** [common.channel_sets.push_back({})] *)
Definition new_scan (s : isegd) : isegd :=
  d_set s (d_file s) (d_sets s ++ [[]]) (d_chans s) (d_read s).
(** ISEGD.cpp:184-185: the vector being filled is the last one.  The uint64_t
    does not wrap (see [sum_channels]). *)
Definition new_set (c : chset) (s : isegd) : isegd :=
  d_set s (d_file s) (removelast (d_sets s) ++ [last (d_sets s) [] ++ [c]]) (d_chans s + c_channels c) (d_read s).

Fixpoint y_ch_sets (p : platform) (r3 : bool) (n : nat) : Y unit :=
  match n with
  | O => xret tt
  | S n' =>
    let! buf := y_fill (if r3 then CH_SET_HDR_R3_SIZE else CH_SET_HDR_SIZE) in
    let! (c, _) := xlift ((if r3 then rd_chset_r3 p else rd_chset p) buf) in
    let! _ := y_mod (new_set c) in
    y_ch_sets p r3 n'
  end.

Fixpoint y_scan_types (p : platform) (r3 : bool) (nsets : nat) (skew : Z) (n : nat) : Y unit :=
  match n with
  | O => xret tt
  | S n' =>
    let! _ := y_mod new_scan in
    let! _ := y_ch_sets p r3 nsets in
    let! _ := y_skip (skew * SKEW_BLOCK_SIZE) in
    y_scan_types p r3 nsets skew n'
  end.

(** ISEGD.cpp:199-203 and 205-209 *)
Fixpoint y_blks (n : nat) : Y (list (list Z)) :=
  match n with
  | O => xret []
  | S n' =>
    let! b := y_fill 32 in
    let! bs := y_blks n' in
    xret (b :: bs)
  end.

(** ISEGD.cpp:166-210 [read_headers_before_traces] *)
Definition y_headers (p : platform) : Y unit :=
  let! _ := y_general_headers p in
  let! r := xget in
  let g1 := d_g1 (y_d r) in
  let g2 := d_g2 (y_d r) in
  let! _ := xlift (d_sample_reader p (g1_format_code g1)) in
  let! _ := y_scan_types p (is_rev3 g1 g2) (Z.to_nat (nsets_of g1 g2)) (skew_of g1 g2) (Z.to_nat (g1_scan_types g1)) in
  let! _ := xlift (resize_to p (24 * extended_of g1 g2)) in
  let! extd := y_blks (Z.to_nat (extended_of g1 g2)) in
  let! _ := y_mod (with_extd extd) in
  let! _ := xlift (resize_to p (24 * external_of g1 g2)) in
  let! extl := y_blks (Z.to_nat (external_of g1 g2)) in
  y_mod (with_extl extl).

(** ** Traces *)

(** ISEGD.cpp:1268-1351: [n] blocks remain, block number [i] is next. *)
Fixpoint y_exts (p : platform) (n i : nat) (h : hdr) : Y hdr :=
  match n with
  | O => xret h
  | S n' =>
    let! block := y_fill TRACE_HEADER_EXT_SIZE in
    let! r := xget in
    let! h1 := xlift
      match d_layouts (y_d r) with
      | [] => match i with
              | O => let* (o, _) := rd_ext_std p (g2_major (d_g2 (y_d r))) h block in o
              | S _ => Ok h
              end
      | _ => match nth_error (d_layouts (y_d r)) i with
             | Some l => rd_ext_fields p block l block h
             | None => UB
             end
      end in
    y_exts p n' (S i) h1
  end.

(** ISEGD.cpp:1264-1352 *)
Definition y_trace_ext (p : platform) (h : hdr) : Y hdr :=
  let (v, h1) := hidx h "TR_HDR_EXT" in
  let! n := xlift (get_int v) in
  y_exts p (Z.to_nat (wraps 32 n)) 0 h1.

(** ISEGD.cpp:1354-1376 *)
Definition y_samples (p : platform) (h : hdr) : Y (list Z) :=
  let! r := xget in
  let! c := xlift (curr_ch_set (y_d r) h) in
  let! n := xlift (samp_num_of h c) in
  let! (bits, rs) := xlift (d_sample_reader p (g1_format_code (d_g1 (y_d r)))) in
  let sz := wrapu 32 (n * bits) / 8 in
  let! _ := xlift (resize_to p sz) in
  let! buf := y_fill sz in
  let! _ := xlift (resize_to p (8 * n)) in
  let descale := d_exp2 p (c_descale c) in
  let! (smp, _) := xlift (prep (pmap (fun x => d_mul x descale) rs) (Z.to_nat n) buf) in
  xret smp.

(** ISEGD.cpp:137-151 *)
Definition y_read_trace (p : platform) : Y trace :=
  let! buf := y_fill TRACE_HEADER_SIZE in
  let! (h0, _) := xlift (rd_trace_header p buf) in
  let! h := y_trace_ext p h0 in
  let! smp := y_samples p h in
  let! _ := y_mod (fun s => d_set s (d_file s) (d_sets s) (d_chans s) (wrapu 64 (d_read s + 1))) in
  let! r := xget in
  if d_chans (y_d r) =? d_read (y_d r) then
    let! _ := y_mod (fun s => d_set s (d_file s) [] 0 0) in
    let! r1 := xget in
    let! _ := (if has_record (y_d r1) then y_headers p else xret tt) in
    xret (mkTrace h smp)
  else xret (mkTrace h smp).

(** ISEGD.cpp:132-135 *)
Definition y_has_trace (r : dreader) : bool := d_has_trace (y_d r).
Definition y_fresh (s : isegd) : dreader := mkDR s false.
