(** The SEG-D writer on a disk that can become full, from its constructor to its
    destructor.  The stream is the one of DiskX.v; its exception mask contains
    badbit (CommonSEGD.cpp:41).  CtorX.v and OSegdX.v assume that the operating
    system takes every byte; here every [file.write] is noted.  Models
    src/OSEGD.cpp:1277-1296, src/OSEGDRev2_1.cpp:24-81 and
    src/OSEGD.cpp:884-1085; OSEGDRev2_1.cpp:95: the destructor does nothing but
    to destroy the members.

    Simplification: when an operation on the stream has failed, no later call
    can write anything, and the client makes none.  No proofs in this file. *)
From Verif Require Import Base Platform Bcd Fp TraceHdr SegyTypes SegyCodec ISegy OSegy SegdTypes OSegd StepX OSegdX Procs CtorX DiskX.

(** A state and the operations on the stream so far. *)
Definition LG (S A : Type) : Type := St (S * list fop) A.
(** A step that does not touch the stream. *)
Definition g_do {S A} (m : St S A) : LG S A := fun sl => let (o, s) := m (fst sl) in (o, (s, snd sl)).

(** ** The constructor *)
Definition gf_write (d : list Z) : LG file unit := fun sl => (Ok tt, (fwrite d (fst sl), snd sl ++ [FWrite d])).
(** As in CtorX.v: OSEGD.cpp:226-298, 818-882, OSEGDRev2_1.cpp:34-68 *)
Definition gf_block (n : Z) (w : W) : LG file unit :=
  let! blk := xlift (wrun w (zeros n)) in gf_write blk.
Fixpoint gf_gNs (p : platform) (m : blkmap) : LG file unit :=
  match m with
  | [] => xret tt
  | (_, AN h) :: m' => let! _ := gf_block GEN_HDR_SIZE (ghN_writer p h) in gf_gNs p m'
  | (_, A3 _ _ _) :: _ => xlift UB
  end.
Fixpoint gf_ch_sets (p : platform) (g1 : gh1) (g2 : gh2) (cs : list chset) : LG file unit :=
  match cs with
  | [] => xret tt
  | c :: cs' =>
    let! _ := (if negb (g1_add_blocks g1 =? 0) && negb (g2_major g2 <? 3) then xlift UB
               else gf_block CH_SET_HDR_SIZE (chset_writer p c)) in
    gf_ch_sets p g1 g2 cs'
  end.
Fixpoint gf_zeros (n : nat) : LG file unit :=
  match n with
  | O => xret tt
  | S n' => let! _ := gf_write (zeros SKEW_BLOCK_SIZE) in gf_zeros n'
  end.
Fixpoint gf_scan_types (p : platform) (g1 : gh1) (g2 : gh2) (sets : list (list chset)) : LG file unit :=
  match sets with
  | [] => xret tt
  | cs :: sets' =>
    if negb (len cs =? o_nsets g1 g2) then xthrow ESedaman
    else
      let! _ := gf_ch_sets p g1 g2 cs in
      let! _ := gf_zeros (Z.to_nat (g1_skew_blocks g1)) in
      gf_scan_types p g1 g2 sets'
  end.
Fixpoint gf_blks (n : nat) (bs : list (list Z)) : LG file unit :=
  match n with
  | O => xret tt
  | S n' =>
    match bs with
    | [] => xlift UB
    | b :: bs' => if len b <? 32 then xlift UB
                  else let! _ := gf_write (firstn 32 b) in gf_blks n' bs'
    end
  end.

(** OSEGD.cpp:1277-1296 and OSEGDRev2_1.cpp:24-69 *)
Definition g_segd (p : platform) (a : osegd_args) : LG file osegd :=
  let g1 := oa_g1 a in
  let g2 := oa_g2 a in
  let! m := xlift (add_blocks [] (oa_adds a)) in
  if negb (len (oa_sets a) =? wrapu 64 (g1_scan_types g1)) then xthrow ESedaman
  else
    let chans := wrapu 64 (p_chans0 p + fold_right Z.add 0 (map c_channels (concat (oa_sets a)))) in
    let! _ := xlift (d_sample_writer p (g1_format_code g1)) in
    let! _ := gf_block GEN_HDR_SIZE (gh1_writer p g1 g2) in
    let! _ := gf_block GEN_HDR_SIZE (gh2_writer g2) in
    let! _ := gf_gNs p m in
    let! _ := gf_scan_types p g1 g2 (oa_sets a) in
    let nextd := wrapu 32 (if g1_extended_blocks g1 =? 165 then g2_extended_blocks g2 else g1_extended_blocks g1) in
    let nextl := wrapu 32 (if g1_external_blocks g1 =? 165 then g2_external_blocks g2 else g1_external_blocks g1) in
    let! _ := gf_blks (Z.to_nat nextd) (oa_extd a) in
    let! _ := gf_blks (Z.to_nat nextl) (oa_extl a) in
    let! f := g_do xget in
    xret (mkOD f g1 g2 m (oa_sets a) (oa_extd a) (oa_extl a) (oa_layouts a) chans 0 [] []).

(** ** write_trace, as in OSegdX.v *)
Definition gd_put (blk : list Z) : LG osegd unit := fun sl =>
  (Ok tt, (od_upd (fst sl) (fwrite blk (od_file (fst sl))) (od_written (fst sl)) (od_pend (fst sl)) (od_sbuf (fst sl)), snd sl ++ [FWrite blk])).
(** OSEGD.cpp:884-918 *)
Definition gd_header (p : platform) (h : hdr) : LG osegd unit :=
  let! blk := xlift (wrun (trace_header_writer p h) (zeros TRACE_HEADER_SIZE)) in
  gd_put blk.
(** OSEGD.cpp:920-1057 *)
Fixpoint gd_exts (p : platform) (h : hdr) (n i : nat) : LG osegd unit :=
  match n with
  | O => xret tt
  | S n' =>
    let! s := g_do xget in
    if p_flat_bufs p then
      let! buf := xlift
        (match od_layouts s with
         | [] => match i with
                 | O => wrun (ext_std_writer p (g2_major (od_g2 s)) h) (zeros FLAT_SIZE)
                 | S _ => Ok (zeros FLAT_SIZE)
                 end
         | _ => match nth_error (od_layouts s) i with
                | Some l => wr_ext_fields p l h (zeros FLAT_SIZE)
                | None => UB
                end
         end) in
      let! _ := gd_put (firstn 32 buf) in
      gd_exts p h n' (S i)
    else xlift UB
  end.
(** OSEGD.cpp:1059-1085 and OSEGDRev2_1.cpp:80 *)
Definition gd_samples (p : platform) (t : trace) : LG osegd unit :=
  let! s := g_do xget in
  let! (bits, sw) := xlift (d_sample_writer p (g1_format_code (od_g1 s))) in
  let! buf := xlift (o_samp_buf p s (len (t_smp t)) bits) in
  let! _ := g_do (xd_buf buf) in
  let! c := xlift (o_ch_set s (t_hdr t)) in
  let descale := d_exp2 p (c_descale c) in
  let! (pend, dc) := xlift (write_smps p sw (od_pend s) (map (fun x => d_div x descale) (t_smp t)) buf) in
  let buf' := (fst dc ++ snd dc)%list in
  let! _ := g_do (xput (od_upd s (od_file s) (od_written s) pend buf')) in
  let! _ := gd_put buf' in
  g_do (fun s => (Ok tt, od_upd s (od_file s) (wrapu 64 (od_written s + 1)) (od_pend s) (od_sbuf s))).
(** OSEGDRev2_1.cpp:71-81 *)
Definition gd_write_trace (p : platform) (t : trace) : LG osegd unit :=
  let! s := g_do xget in
  if od_written s =? od_chans s then xthrow ESedaman
  else
    let! _ := gd_header p (t_hdr t) in
    let! n := xlift (opt_int (t_hdr t) "TR_HDR_EXT") in
    let! _ := gd_exts p (t_hdr t) (Z.to_nat (wrapu 8 n)) 0 in
    gd_samples p t.

(** ** A program that constructs a writer, gives it traces, goes on after traces
    that are refused, stops when the disk is full, and destroys the writer *)
Inductive dend : Type :=
| DRefused                       (* the constructor threw, not because of the disk *)
| DNoRoom                        (* an operation of the constructor on the stream failed *)
| DDone (bs : list bool)         (* which calls of write_trace returned *)
| DFull (bs : list bool).        (* the same, for those before the one with the full disk *)
Definition dcons (b : bool) (e : dend) : dend :=
  match e with DDone bs => DDone (b :: bs) | DFull bs => DFull (b :: bs) | _ => e end.

Fixpoint d_client (cap : Z) (sch : nat -> nat) (p : platform) (s : osegd) (k : stream) (ts : list trace) : outcome (dend * stream) :=
  match ts with
  | [] => Ok (DDone [], k)
  | t :: ts' =>
    let (o, sl) := gd_write_trace p t (s, []) in
    match k_ops cap sch (snd sl) k, o with
    | (false, k1), _ => Ok (DFull [], k1)
    | (true, k1), UB => UB
    | (true, k1), o => let* (e, k2) := d_client cap sch p (fst sl) k1 ts' in Ok (dcons (is_ok o) e, k2)
    end
  end.

(** What the program saw, and what is on the disk in the end.  CommonSEGD.cpp:42:
    the file is empty when it is opened. *)
Definition d_program (cap : Z) (sch : nat -> nat) (p : platform) (a : osegd_args) (ts : list trace) : outcome (dend * list Z) :=
  let (o, sl) := g_segd p a (empty_file, []) in
  match k_ops cap sch (snd sl) (mkStream [] 0 [] false 0), o with
  | (false, k), _ => Ok (DNoRoom, k_close cap k)
  | (true, k), Throw _ => Ok (DRefused, k_close cap k)
  | (true, k), UB => UB
  | (true, k), Ok s => let* (e, k1) := d_client cap sch p s k ts in Ok (e, k_close cap k1)
  end.

(** All operations of this program on a disk without an end. *)
Fixpoint d_calls_ops (p : platform) (s : osegd) (ts : list trace) : list fop :=
  match ts with
  | [] => []
  | t :: ts' => let (o, sl) := gd_write_trace p t (s, []) in snd sl ++ d_calls_ops p (fst sl) ts'
  end.
Definition d_program_ops (p : platform) (a : osegd_args) (ts : list trace) : list fop :=
  let (o, sl) := g_segd p a (empty_file, []) in
  snd sl ++ match o with Ok s => d_calls_ops p s ts | _ => [] end.
