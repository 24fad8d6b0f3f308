(** The SEG-Y writers once more, with what a call that throws leaves behind.
    OSegy.v describes a call by its outcome alone; here every step acts on the
    object, and the object survives an exception.  Models src/OSEGY.cpp,
    src/OSEGYRev0.cpp, src/OSEGYRev1.cpp and src/OSEGYRev2.cpp. *)
From Verif Require Import Base Platform Fp TraceHdr SegyTypes SegyCodec ISegy OSegy StepX.

Definition X (A : Type) : Type := St osegy A.

(** Assignments to members. *)
Definition put_file (f : file) : X unit := fun s => (Ok tt, o_upd s f (o_bh s) (o_sbuf s)).
Definition put_bh (b : bin_hdr) : X unit := fun s => (Ok tt, o_upd s (o_file s) b (o_sbuf s)).
Definition put_sbuf (sb : list Z) : X unit := fun s => (Ok tt, o_upd s (o_file s) (o_bh s) sb).

(** OSEGY.cpp:236-287: the block is complete before the file is touched. *)
Definition xwrite_bin_header : X unit :=
  let! s := xget in
  let! blk := xlift (bin_header_bytes (o_endian s) (o_bh s)) in
  let! f := xlift (fseek TEXT_HEADER_SIZE (o_file s)) in
  put_file (fwrite blk f).

(** OSEGYRev0.cpp:69-94, OSEGYRev1.cpp:80-107, OSEGYRev2.cpp:132-151: the
    members are assigned one after the other, before the next check. *)
Definition xset_min (p : platform) (m : minimal) (h : hdr) : X unit :=
  let! s := xget in
  if negb (fpos (o_file s) =? o_first s) then xret tt else
  let! v := xlift (get_req h "SAMP_NUM") in
  let! n := xlift (get_int v) in
  if 32767 <? n then xthrow ESedaman else
  let! _ := put_bh (set_samp_per_tr (o_bh s) (wraps 16 n)) in
  let! v := xlift (get_req h "SAMP_INT") in
  let! d := xlift (match m, v with
            | MIntOnly, _ => let* z := get_int v in Ok (i2d z)
            | _, VInt z => Ok (i2d z)
            | _, VDbl d => Ok d
            end) in
  if d_lt (i2d 32767) d then xthrow ESedaman else
  let! si := xlift (d2s p 16 d) in
  if si =? 0 then xthrow ESedaman else
  let! _ := put_bh (set_samp_int (set_samp_per_tr (o_bh s) (wraps 16 n)) si) in
  let! bytes := xlift (sarith 64 (n * o_bps s)) in
  let! sb := xlift (resize_buf p bytes (o_sbuf s)) in
  let! _ := put_sbuf sb in
  xwrite_bin_header.

(** OSEGY.cpp:289-351: the block is complete before it is written. *)
Definition xwrite_header (p : platform) (h : hdr) : X unit :=
  let! s := xget in
  match o_maps s with
  | [] => xlift UB
  | (_, l) :: _ =>
    let! blk := xlift (hdr_block p (o_endian s) l h) in
    put_file (fwrite blk (o_file s))
  end.

(** OSEGY.cpp:353-422: every additional block is written when it is complete. *)
Fixpoint xwrite_additional (p : platform) (ls : layouts) (h : hdr) (n : nat) : X unit :=
  match n with
  | O => xret tt
  | S n' =>
    let! s := xget in
    match ls with
    | [] =>
      let! _ := put_file (fwrite (zeros TR_HEADER_SIZE) (o_file s)) in
      xwrite_additional p [] h n'
    | (_, l) :: ls' =>
      let! blk := xlift (hdr_block p (o_endian s) l h) in
      let! _ := put_file (fwrite blk (o_file s)) in
      xwrite_additional p ls' h n'
    end
  end.

(** OSEGY.cpp:442-459: [resize] has the strong exception guarantee; the samples
    are stored in the buffer, then the buffer is written. *)
Definition xwrite_samples (p : platform) (t : trace) : X unit :=
  let! s := xget in
  let! sb := xlift (if o_var s then var_buf p (t_hdr t) (o_bps s) (o_sbuf s) else Ok (o_sbuf s)) in
  let! _ := put_sbuf sb in
  let! sb' := xlift (fill_samples p (o_endian s) (bh_format_code (o_bh s)) (t_smp t) sb) in
  let! _ := put_sbuf sb' in
  let! s1 := xget in
  put_file (fwrite sb' (o_file s1)).

(** The [write_trace] lambdas of the three revisions. *)
Definition xwrite_trace (p : platform) (t : trace) : X unit :=
  let! s := xget in
  let! _ := (match o_min s with
             | MNone => xret tt
             | m => xset_min p m (t_hdr t)
             end) in
  let! _ := xwrite_header p (t_hdr t) in
  let! s1 := xget in
  let! _ := (if o_add s1
             then xwrite_additional p (tl (o_maps s1)) (t_hdr t)
                    (Z.to_nat (bh_max_num_add_tr_headers (o_bh s1) - 1))
             else xret tt) in
  xwrite_samples p t.

(** A client that catches what write_trace throws and goes on: which calls
    succeeded, and the object at the end. *)
Fixpoint attempt (p : platform) (s : osegy) (ts : list trace) : outcome (list bool * osegy) :=
  match ts with
  | [] => Ok ([], s)
  | t :: ts' =>
    match xwrite_trace p t s with
    | (Ok _, s1) => let* (bs, s2) := attempt p s1 ts' in Ok (true :: bs, s2)
    | (Throw _, s1) => let* (bs, s2) := attempt p s1 ts' in Ok (false :: bs, s2)
    | (UB, _) => UB
    end
  end.
