(** The SEG-D writer once more, with what a call that throws leaves behind.
    OSegd.v describes a call by its outcome alone; here every step acts on the
    object, and the object survives an exception.  Models
    src/OSEGDRev2_1.cpp:71-81 and src/OSEGD.cpp:884-1085.  The buffers
    [trc_hdr_buf] and [trc_ext_hdr_buf] are zeroed before every use
    (OSEGD.cpp:887, 925) and are no part of the object. *)
From Verif Require Import Base Platform Bcd Fp TraceHdr SegyTypes SegyCodec ISegy OSegy SegdTypes OSegd StepX.

Definition XD (A : Type) : Type := St osegd A.

(** [common.file.write] of a complete block. *)
Definition xd_put (blk : list Z) : XD unit := fun s =>
  (Ok tt, od_upd s (fwrite blk (od_file s)) (od_written s) (od_pend s) (od_sbuf s)).
(** [trc_samp_buf] after [resize], which has the strong exception guarantee. *)
Definition xd_buf (sb : list Z) : XD unit := fun s =>
  (Ok tt, od_upd s (od_file s) (od_written s) (od_pend s) sb).

(** OSEGD.cpp:884-918: the block is complete before it is written. *)
Definition xd_header (p : platform) (h : hdr) : XD unit :=
  let! blk := xlift (wrun (trace_header_writer p h) (zeros TRACE_HEADER_SIZE)) in
  xd_put blk.

(** OSEGD.cpp:924-1056: every extension block is written when it is complete;
    [n] blocks remain, block number [i] is next. *)
Fixpoint xd_exts (p : platform) (h : hdr) (n i : nat) : XD unit :=
  match n with
  | O => xret tt
  | S n' =>
    let! s := xget in
    if p_flat_bufs p then
      let! buf := xlift
        (match od_layouts s with
         | [] => match i with
                 | O => wrun (ext_std_writer p (g2_major (od_g2 s)) h) (zeros FLAT_SIZE)
                 | S _ => Ok (zeros FLAT_SIZE)
                 end
         | _ => match nth_error (od_layouts s) i with
                | Some l => wr_ext_fields p l h (zeros FLAT_SIZE)
                | None => UB
                end
         end) in
      let! _ := xd_put (firstn 32 buf) in
      xd_exts p h n' (S i)
    else xlift UB
  end.

(** OSEGD.cpp:1059-1085 and OSEGDRev2_1.cpp:80: the buffer, the stores, the
    write, the count.  The stores do not throw. *)
Definition xd_samples (p : platform) (t : trace) : XD unit :=
  let! s := xget in
  let! (bits, sw) := xlift (d_sample_writer p (g1_format_code (od_g1 s))) in
  let! buf := xlift (o_samp_buf p s (len (t_smp t)) bits) in
  let! _ := xd_buf buf in
  let! c := xlift (o_ch_set s (t_hdr t)) in
  let descale := d_exp2 p (c_descale c) in
  let! (pend, dc) := xlift (write_smps p sw (od_pend s) (map (fun x => d_div x descale) (t_smp t)) buf) in
  let buf' := (fst dc ++ snd dc)%list in
  xput (od_upd s (fwrite buf' (od_file s)) (wrapu 64 (od_written s + 1)) pend buf').

(** OSEGDRev2_1.cpp:71-81 *)
Definition xd_write_trace (p : platform) (t : trace) : XD unit :=
  let! s := xget in
  if od_written s =? od_chans s then xthrow ESedaman
  else
    let! _ := xd_header p (t_hdr t) in
    let! n := xlift (opt_int (t_hdr t) "TR_HDR_EXT") in
    let! _ := xd_exts p (t_hdr t) (Z.to_nat (wrapu 8 n)) 0 in
    xd_samples p t.

(** A client that catches what write_trace throws and goes on: which calls
    succeeded, and the object at the end. *)
Fixpoint d_attempt (p : platform) (s : osegd) (ts : list trace) : outcome (list bool * osegd) :=
  match ts with
  | [] => Ok ([], s)
  | t :: ts' =>
    match xd_write_trace p t s with
    | (Ok _, s1) => let* (bs, s2) := d_attempt p s1 ts' in Ok (true :: bs, s2)
    | (Throw _, s1) => let* (bs, s2) := d_attempt p s1 ts' in Ok (false :: bs, s2)
    | (UB, _) => UB
    end
  end.
