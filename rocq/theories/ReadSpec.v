(** Vocabulary for reading arbitrary SEG-Y files (C22-C27, C29): client
    programs over a reader, and blocks of a file. *)
From Verif Require Import Base Platform TraceHdr SegyTypes SegyCodec ISegy.

(** What one call returned. *)
Inductive item : Type :=
| Full (t : trace)    (* read_trace *)
| Head (h : hdr).     (* read_header *)

(** A program that calls read_trace ([true]) or read_header ([false]) in the
    given order. *)
Fixpoint read_mixed (p : platform) (ops : list bool) (s : isegy) : outcome (list item * isegy) :=
  match ops with
  | [] => Ok ([], s)
  | op :: ops' =>
    let* (x, s1) := (if op then let* (t, s1) := read_trace p s in Ok (Full t, s1)
                     else let* (h, s1) := read_header p s in Ok (Head h, s1)) in
    let* (l, s2) := read_mixed p ops' s1 in
    Ok (x :: l, s2)
  end.

(** What remains of a trace when only the header is asked for. *)
Definition part_of (op : bool) (t : trace) : item := if op then Full t else Head (t_hdr t).

(** The loop [while (has_trace()) read_header()]. *)
Fixpoint read_all_headers (p : platform) (fuel : nat) (s : isegy) : outcome (list hdr * isegy) :=
  if has_trace s then
    match fuel with
    | O => Throw ELoop
    | S k =>
      let* (t, s1) := read_header p s in
      let* (ts, s2) := read_all_headers p k s1 in
      Ok (t :: ts, s2)
    end
  else Ok ([], s).

(** The loop ended: at the end of the data or by an exception. *)
Definition ended {A} (x : outcome (A * isegy)) : Prop :=
  match x with
  | Ok (_, s) => has_trace s = false
  | Throw e => e <> ELoop
  | UB => False
  end.

(** The loop [while (has_trace()) use(read_trace())]: the traces used before it
    stopped, and how it stopped. *)
Fixpoint collect (p : platform) (fuel : nat) (s : isegy) : list trace * outcome isegy :=
  if has_trace s then
    match fuel with
    | O => ([], Throw ELoop)
    | S k =>
      match read_trace p s with
      | Ok (t, s1) => let (ts, o) := collect p k s1 in (t :: ts, o)
      | Throw e => ([], Throw e)
      | UB => ([], UB)
      end
    end
  else ([], Ok s).

(** Consecutive 3200-byte blocks of a file, the first one at [pos]. *)
Definition blocks_at (content : list Z) (pos : Z) (bs : list (list Z)) : Prop :=
  forall i b, nth_error bs i = Some b ->
    pos + 3200 * (Z.of_nat i + 1) <= len content /\ b = slice (pos + 3200 * Z.of_nat i) 3200 content.

(** The text that ends a list of unknown length. *)
Definition is_end (b : list Z) : Prop := firstn 16 b = bytes_of_string "((SEG: EndText))".

(** A reader obtained by one of the two constructors. *)
Definition opened (p : platform) (content : list Z) (maps : layouts) (s : isegy) : Prop :=
  isegy_open p content maps = Ok s \/ exists bh, isegy_open_bh p content bh maps = Ok s.

(** Fewer than 2^31 - 1 additional headers announced: the number of header
    blocks per trace is an int. *)
Definition add_ok (b : bin_hdr) : Prop := - 2 ^ 31 <= bh_max_num_add_tr_headers b < 2 ^ 31 - 1.

(** Every trace occupies at least one byte: it has a header block, or a fixed
    positive number of samples. *)
Definition nonempty_traces (s : isegy) : Prop :=
  0 <= bh_max_num_add_tr_headers (i_bh s) \/ (is_fixed (i_bh s) = true /\ 0 < i_spt s).

(** The sample count field cannot hold a negative number. *)
Definition unsigned_count (ls : layouts) : Prop :=
  forall n l en, In (n, l) ls -> In en l -> e_name en = "SAMP_NUM"%string ->
    In (e_type en) [U8; U16; U24; U32].

(** The reader on the file cut off after [k] bytes. *)
Definition cut (k : Z) (s : isegy) : isegy :=
  mkI (mkFile (firstn (Z.to_nat k) (fdata (i_file s))) (fpos (i_file s)))
      (i_bh s) (i_maps s) (i_text s) (i_stanzas s) (i_endian s) (i_bps s)
      (i_spt s) (i_bufsz s) (i_first s) (i_cur s) k.

(** The number of samples per trace a binary header declares. *)
Definition sample_count (b : bin_hdr) : Z :=
  if bh_ext_samp_per_tr b =? 0 then wrapu 16 (bh_samp_per_tr b) else bh_ext_samp_per_tr b.

(** The binary header [b] is what the 400 bytes [blk] say, in the byte order
    [e] of their marker. *)
Definition says (blk : list Z) (e : endian) (b : bin_hdr) : Prop :=
  let m := wraps 32 (le_dec (slice 96 4 blk)) in
  endian_of m = Ok e /\ exists c, fill_bin_header e (set_endianness bin_zero m) blk = Ok (b, c).

(** A trace on disk: one 240-byte header with the number of samples in bytes
    114 and 115, and that many samples. *)
Definition own_record (e : endian) (bps : Z) (r : list Z) : Prop :=
  exists hb smp n, r = hb ++ smp /\ len hb = 240 /\ slice 114 2 hb = wr e 2 n /\
    0 <= n < 2 ^ 15 /\ len smp = n * bps.

(** Sizes computed from the header fit an int. *)
Definition bounded (b : bin_hdr) (bps : Z) : Prop :=
  - 2 ^ 31 <= bh_ext_samp_per_tr b * bps < 2 ^ 31 /\ - 2 ^ 31 <= bh_num_of_trailer_stanza b * 3200 < 2 ^ 31.

(** The byte order marker of a file. *)
Definition marker (content : list Z) : Z := wraps 32 (le_dec (slice 3296 4 content)).

(** The traces [ts] are what consecutive calls of read_trace return. *)
Definition reads (p : platform) (s : isegy) (ts : list trace) (s' : isegy) : Prop :=
  read_mixed p (repeat true (List.length ts)) s = Ok (map Full ts, s').

(** One of the two constructors of ISEGY, applied to a file content. *)
Definition constructor (p : platform) (maps : layouts) (open : list Z -> outcome isegy) : Prop :=
  (forall c, open c = isegy_open p c maps) \/
  (exists bh, forall c, open c = isegy_open_bh p c bh maps).
