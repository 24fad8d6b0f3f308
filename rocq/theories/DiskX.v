(** The SEG-Y writers on a disk that can become full.  OSegy.v and OSegyX.v
    assume that the operating system takes every byte; here the file may have
    at most [cap] bytes.  Models src/OSEGY.cpp:236-459, the write_trace lambdas
    of src/OSEGYRev0.cpp, src/OSEGYRev1.cpp and src/OSEGYRev2.cpp and the
    destructors (OSEGYRev2.cpp:169-174), as OSegyX.v does, with the operations
    on the stream in their order.

    The stream ([std::basic_filebuf], part of the trusted base) keeps bytes in
    a buffer.  When it hands how many of them to the operating system is left
    open, except that it hands over all of them before the position is changed
    and when it is closed.  If not all bytes can be stored, those that fit are
    stored, and badbit is set; the exception mask contains badbit
    (CommonSEGY.cpp:27), so the operation throws, and every later one throws as
    well.  The destructor of the stream closes it and ignores errors.

    Simplifications: a call in which an operation fails ends there, and the
    members of the object afterwards are not described; no later call can write
    anything.  A disk that has become full stays full.  No proofs in this
    file. *)
From Verif Require Import Base Platform Fp TraceHdr SegyTypes SegyCodec ISegy OSegy StepX OSegyX.

(** ** The stream *)
Inductive fop : Type :=
| FWrite (d : list Z)       (* file.write *)
| FSeek (pos : Z)           (* file.seekg(pos, beg) *)
| FEnd                      (* file.seekg(0, end) *)
| FTell.                    (* file.tellg() *)

(** Without a limit. *)
Definition fop_do (o : fop) (f : file) : outcome file :=
  match o with
  | FWrite d => Ok (fwrite d f)
  | FSeek pos => fseek pos f
  | FEnd => fseek_end 0 f
  | FTell => Ok f
  end.

(** The bytes of the file on the disk, the bytes in the buffer and the place in
    the file of the first of them, badbit, and the number of operations so far. *)
Record stream : Type := mkStream { k_disk : list Z; k_at : Z; k_buf : list Z; k_bad : bool; k_n : nat }.

(** [l] stored over [d] from position [pos]. *)
Definition over (d : list Z) (pos : Z) (l : list Z) : list Z := fdata (fwrite l (mkFile d pos)).

(** The first [n] bytes of the buffer go to the disk. *)
Definition k_flush (cap : Z) (n : nat) (k : stream) : stream :=
  let l := firstn n (k_buf k) in
  if k_at k + len l <=? cap
  then mkStream (over (k_disk k) (k_at k) l) (k_at k + len l) (skipn n (k_buf k)) false (k_n k)
  else mkStream (over (k_disk k) (k_at k) (firstn (Z.to_nat (cap - k_at k)) l)) (k_at k) (k_buf k) true (k_n k).
Definition k_sync (cap : Z) (k : stream) : stream := k_flush cap (List.length (k_buf k)) k.

(** One operation; [sch i] bytes go to the disk after the [i]-th write.  [false]:
    the operation throws. *)
Definition k_op (cap : Z) (sch : nat -> nat) (o : fop) (k : stream) : bool * stream :=
  if k_bad k then (false, k) else
  let i := k_n k in
  let k := mkStream (k_disk k) (k_at k) (k_buf k) false (S i) in
  match o with
  | FWrite d =>
    let k1 := k_flush cap (sch i) (mkStream (k_disk k) (k_at k) (k_buf k ++ d) false (k_n k)) in
    (negb (k_bad k1), k1)
  | FSeek pos =>
    let k1 := k_sync cap k in
    if k_bad k1 then (false, k1) else (true, mkStream (k_disk k1) pos [] false (k_n k1))
  | FEnd =>
    let k1 := k_sync cap k in
    if k_bad k1 then (false, k1) else (true, mkStream (k_disk k1) (len (k_disk k1)) [] false (k_n k1))
  | FTell => (true, k)
  end.
Fixpoint k_ops (cap : Z) (sch : nat -> nat) (l : list fop) (k : stream) : bool * stream :=
  match l with
  | [] => (true, k)
  | o :: l' => match k_op cap sch o k with (true, k1) => k_ops cap sch l' k1 | (false, k1) => (false, k1) end
  end.

(** The destructor of the stream: what is on the disk afterwards. *)
Definition k_close (cap : Z) (k : stream) : list Z := k_disk (if k_bad k then k else k_sync cap k).

(** ** A call of write_trace, with the operations it makes *)
Definition LX (A : Type) : Type := St (osegy * list fop) A.
Definition l_op (o : fop) : LX unit := fun sl =>
  match fop_do o (o_file (fst sl)) with
  | Ok f => (Ok tt, (o_upd (fst sl) f (o_bh (fst sl)) (o_sbuf (fst sl)), snd sl ++ [o]))
  | Throw e => (Throw e, sl)
  | UB => (UB, sl)
  end.
(** A step that does not touch the stream. *)
Definition l_do {A} (m : X A) : LX A := fun sl => let (o, s) := m (fst sl) in (o, (s, snd sl)).

(** OSEGY.cpp:236-287 *)
Definition l_bin_header : LX unit :=
  let! s := l_do xget in
  let! blk := xlift (bin_header_bytes (o_endian s) (o_bh s)) in
  let! _ := l_op (FSeek TEXT_HEADER_SIZE) in
  l_op (FWrite blk).

(** OSEGYRev0.cpp:69-94, OSEGYRev1.cpp:80-107, OSEGYRev2.cpp:132-151 *)
Definition l_set_min (p : platform) (m : minimal) (h : hdr) : LX unit :=
  let! _ := l_op FTell in
  let! s := l_do xget in
  if negb (fpos (o_file s) =? o_first s) then xret tt else
  let! v := xlift (get_req h "SAMP_NUM") in
  let! n := xlift (get_int v) in
  if 32767 <? n then xthrow ESedaman else
  let! _ := l_do (put_bh (set_samp_per_tr (o_bh s) (wraps 16 n))) in
  let! v := xlift (get_req h "SAMP_INT") in
  let! d := xlift (match m, v with
            | MIntOnly, _ => let* z := get_int v in Ok (i2d z)
            | _, VInt z => Ok (i2d z)
            | _, VDbl d => Ok d
            end) in
  if d_lt (i2d 32767) d then xthrow ESedaman else
  let! si := xlift (d2s p 16 d) in
  if si =? 0 then xthrow ESedaman else
  let! _ := l_do (put_bh (set_samp_int (set_samp_per_tr (o_bh s) (wraps 16 n)) si)) in
  let! bytes := xlift (sarith 64 (n * o_bps s)) in
  let! sb := xlift (resize_buf p bytes (o_sbuf s)) in
  let! _ := l_do (put_sbuf sb) in
  l_bin_header.

(** OSEGY.cpp:289-351 *)
Definition l_header (p : platform) (h : hdr) : LX unit :=
  let! s := l_do xget in
  match o_maps s with
  | [] => xlift UB
  | (_, l) :: _ =>
    let! blk := xlift (hdr_block p (o_endian s) l h) in
    l_op (FWrite blk)
  end.

(** OSEGY.cpp:353-422 *)
Fixpoint l_additional (p : platform) (ls : layouts) (h : hdr) (n : nat) : LX unit :=
  match n with
  | O => xret tt
  | S n' =>
    let! s := l_do xget in
    match ls with
    | [] =>
      let! _ := l_op (FWrite (zeros TR_HEADER_SIZE)) in
      l_additional p [] h n'
    | (_, l) :: ls' =>
      let! blk := xlift (hdr_block p (o_endian s) l h) in
      let! _ := l_op (FWrite blk) in
      l_additional p ls' h n'
    end
  end.

(** OSEGY.cpp:442-459 *)
Definition l_samples (p : platform) (t : trace) : LX unit :=
  let! s := l_do xget in
  let! sb := xlift (if o_var s then var_buf p (t_hdr t) (o_bps s) (o_sbuf s) else Ok (o_sbuf s)) in
  let! _ := l_do (put_sbuf sb) in
  let! sb' := xlift (fill_samples p (o_endian s) (bh_format_code (o_bh s)) (t_smp t) sb) in
  let! _ := l_do (put_sbuf sb') in
  l_op (FWrite sb').

Definition l_rest (p : platform) (t : trace) : LX unit :=
  let! _ := l_header p (t_hdr t) in
  let! s1 := l_do xget in
  let! _ := (if o_add s1
             then l_additional p (tl (o_maps s1)) (t_hdr t)
                    (Z.to_nat (bh_max_num_add_tr_headers (o_bh s1) - 1))
             else xret tt) in
  l_samples p t.
Definition l_write_trace (p : platform) (t : trace) : LX unit :=
  let! s := l_do xget in
  let! _ := (match o_min s with
             | MNone => xret tt
             | m => l_set_min p m (t_hdr t)
             end) in
  l_rest p t.

(** ** A client that writes traces until a call throws *)
Inductive ending : Type :=
| AllWritten            (* every call returned *)
| Refused (n : nat)     (* call [n] threw for another reason *)
| DiskFull (n : nat).   (* an operation on the stream failed in call [n] *)
Definition later (e : ending) : ending :=
  match e with AllWritten => AllWritten | Refused n => Refused (S n) | DiskFull n => DiskFull (S n) end.

Fixpoint client (cap : Z) (sch : nat -> nat) (p : platform) (s : osegy) (k : stream) (ts : list trace)
  : outcome (ending * osegy * stream) :=
  match ts with
  | [] => Ok (AllWritten, s, k)
  | t :: ts' =>
    let (o, sl) := l_write_trace p t (s, []) in
    match k_ops cap sch (snd sl) k, o with
    | (false, k1), _ => Ok (DiskFull 0, fst sl, k1)
    | (true, k1), Ok _ => let* (x, k2) := client cap sch p (fst sl) k1 ts' in
                          let (e, s2) := (x : ending * osegy) in Ok (later e, s2, k2)
    | (true, k1), Throw _ => Ok (Refused 0, fst sl, k1)
    | (true, _), UB => UB
    end
  end.

(** The destructor: what is on the disk at the end, and whether the program is
    still running.  Destructors are noexcept: an exception in the body of the
    destructor of OSEGYRev2 is the end of the program (std::terminate), and then
    nobody closes the stream. *)
Definition close_ops (s : osegy) : list fop :=
  FEnd :: (if bh_num_of_trailer_stanza (o_bh s) =? 0 then []
           else map (fun t => FWrite (firstn (Z.to_nat TEXT_HEADER_SIZE) t)) (o_stanzas s)).
Definition destroy (rev2 : bool) (cap : Z) (sch : nat -> nat) (s : osegy) (k : stream) : bool * list Z :=
  if rev2 then
    match k_ops cap sch (close_ops s) k with
    | (true, k1) => (true, k_close cap k1)
    | (false, k1) => (false, k_disk k1)
    end
  else (true, k_close cap k).
