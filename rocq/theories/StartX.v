(** A SEG-Y writer on a disk that can become full, from its constructor to its
    destructor.  DiskX.v begins when the constructor has returned; here the
    operations of the constructors on the stream are added.  Models the
    operations of src/OSEGYRev0.cpp:47-53, src/OSEGYRev1.cpp:50-55,
    src/OSEGYRev2.cpp:56-62, src/OSEGY.cpp:284-286 and src/OSEGY.cpp:424-431.
    Simplification: only for arguments with which the constructor returns on a
    disk without an end; what other arguments leave behind is in CtorX.v.  No
    proofs in this file. *)
From Verif Require Import Base Platform Fp TraceHdr SegyTypes SegyCodec ISegy OSegy FileSpec DiskX DiskSpec.

(** The format code with which the header is written: OSEGYRev0.cpp:49-50,
    OSEGYRev1.cpp:51-52, OSEGYRev2.cpp:58-59. *)
Definition ctor_header (w : writer) (bh : bin_hdr) : bin_hdr :=
  if bh_format_code bh =? 0 then set_format_code bh (match w with W0 _ => 1 | _ => 5 end) else bh.

(** [file.write(s.c_str(), 3200)] *)
Definition text_op (t : list Z) : fop := FWrite (firstn (Z.to_nat TEXT_HEADER_SIZE) t).

(** The operations of the constructor of the writer [s]: OSEGYRev0.cpp:47-53,
    OSEGYRev1.cpp:50-55, OSEGYRev2.cpp:57-62. *)
Definition ctor_ops (w : writer) (bh : bin_hdr) (s : osegy) : list fop :=
  match o_text s with
  | [] => []
  | t0 :: more =>
    match bin_header_bytes (o_endian s) (ctor_header w bh) with
    | Ok blk => [text_op t0; FSeek TEXT_HEADER_SIZE; FWrite blk] ++ map text_op more ++ [FTell]
    | _ => []
    end
  end.

(** The stream after CommonSEGY.cpp:28: opened with [trunc], the file is empty. *)
Definition new_stream : stream := mkStream [] 0 [] false 0.

(** The constructor, [write_trace] for every trace until a call throws, the
    destructor.  [None]: an operation of the constructor failed; it throws, and
    the stream is destroyed with the other members.  The boolean: the program is
    still running.  Then what is found on the disk. *)
Definition session (cap : Z) (sch : nat -> nat) (p : platform) (w : writer) (bh : bin_hdr) (ls : layouts) (ts : list trace)
  : outcome (option ending * bool * list Z) :=
  let* s := w_open p w bh ls in
  match k_ops cap sch (ctor_ops w bh s) new_stream with
  | (false, k) => Ok (None, true, k_close cap k)
  | (true, k) =>
    let* (x, k') := client cap sch p s k ts in
    let (e, s') := (x : ending * osegy) in
    let (b, found) := destroy (is_rev2 w) cap sch s' k' in
    Ok (Some e, b, found)
  end.
