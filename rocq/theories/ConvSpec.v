(** Specification for C95: a client that converts a SEG-D file of revision
    below 3 to SEG-Y. *)
From Coq Require Import Reals.
From Verif Require Import Base Platform CodecSpec FpSpec TraceHdr SegyTypes ISegy OSegy LayoutSpec RoundSpec SegyDecSpec FileSpec SegyEncSpec
     SegdTypes SegdSpec SegdDecSpec SegdTrcSpec SegdReadSpec ISegd.
Local Open Scope string_scope.
Local Open Scope list_scope.
Local Open Scope Z_scope.

(** The loop: while there is a trace, read it from the SEG-D file and write it
    to the SEG-Y file. *)
Fixpoint conv_loop (p : platform) (fuel : nat) (s : isegd) (o : osegy) : outcome osegy :=
  if d_has_trace s then
    match fuel with
    | O => Throw ELoop
    | S k =>
      let* (t, s1) := d_read_trace p s in
      let* o1 := write_trace p o t in
      conv_loop p k s1 o1
    end
  else Ok o.

(** The program: open the SEG-D file, open the SEG-Y file, run the loop.  The
    result is the SEG-Y file when the loop ends (the destructor of revision 2
    only appends trailer stanzas). *)
Definition convert (p : platform) (b : list Z) (w : writer) (bh : bin_hdr) (ls : layouts) (fuel : nat) : outcome (list Z) :=
  let* s := isegd_open p b [] in
  let* o := w_open p w bh ls in
  let* o1 := conv_loop p fuel s o in
  Ok (fdata (o_file o1)).

(** The traces of the SEG-D file: the states of the reader before each of them,
    from [s] to the end of the file, and the traces themselves. *)
Inductive visits (p : platform) : isegd -> list (isegd * trace) -> Prop :=
| visits_end s : d_has_trace s = false -> visits p s []
| visits_next s t s1 l : d_has_trace s = true -> d_read_trace p s = Ok (t, s1) -> visits p s1 l -> visits p s ((s, t) :: l).

(** A state this property is about: a sample format with one number per word,
    and no record of revision 3 behind the trace. *)
Definition plain_trace (b : list Z) (s : isegd) : Prop :=
  In (g1_format_code (d_g1 s)) [8036; 8038; 8058; 8080; 9038; 9058; 9080] /\
  (last_trace s -> old_rev (skipn (Z.to_nat (trace_end s)) b)).

(** The integers in the header of a SEG-D trace, by byte number.  The receiver
    numbers are integers unless the extended ones are used. *)
Definition receiver_int (s : isegd) (k : string) (i j : nat) : list (string * Z) :=
  if (1 <? g2_major (d_g2 s)) && negb (big (te_at s) j 5 =? 0) then [] else [(k, big (te_at s) i 3)].
Definition integers_of (s : isegd) : list (string * Z) :=
  [("FFID", if big (th_at s) 17 3 =? 0 then dec (th_at s) 0 4 else big (th_at s) 17 3);
   ("SCAN_TYPE_NUM", dec (th_at s) 4 2);
   ("CH_SET_NUM", set_num (th_at s));
   ("CHAN", dec (th_at s) 8 4);
   ("TR_HDR_EXT", byt (th_at s) 9);
   ("TRACE_EDIT", byt (th_at s) 11)] ++
  (if byt (th_at s) 9 =? 0 then [] else
   receiver_int s "R_LINE" 0 10 ++ receiver_int s "R_POINT" 3 15 ++
   [("R_POINT_IDX", byt (te_at s) 6); ("SAMP_NUM", big (te_at s) 7 3)] ++
   (if 1 <? g2_major (d_g2 s) then [("SENSOR_TYPE", byt (te_at s) 20)] else [])).
(** The fixed point numbers of the header. *)
Definition fixed_points (s : isegd) : list string :=
  ["FIRST_TIMING_WORD"; "SAMPLE_SKEW"; "TIME_BREAK_WIN"] ++
  (if (byt (th_at s) 9 =? 0) || negb (1 <? g2_major (d_g2 s)) then [] else
   (if big (te_at s) 10 5 =? 0 then [] else ["R_LINE"]) ++
   (if big (te_at s) 15 5 =? 0 then [] else ["R_POINT"])).

(** The integer of the SEG-D trace that a SEG-Y header field gets: that with
    the name of the field, zero if the trace has none. *)
Definition integer_for (s : isegd) (k : string) (z : Z) : Prop :=
  In (k, z) (integers_of s) \/ (~ In k (map fst (integers_of s)) /\ z = 0).

(** The SEG-Y trace that starts at [pos] of the file [c] carries the SEG-D
    trace at the state [s] of a reader of [b]: the fields of the header blocks
    hold the integers, the samples are the words of the SEG-D trace, scaled by
    the channel set, in the sample format [fmt]. *)
Definition carries (p : platform) (o : order) (fmt : Z) (ls : layouts) (n : Z) (c : list Z) (pos : Z) (b : list Z) (s : isegd) : Prop :=
  (forall i nm l en, 0 <= i < n -> nth_error ls (Z.to_nat i) = Some (nm, l) -> In en l ->
     exists z, integer_for s (e_name en) z /\
       stored_int p o (e_type en) z (slice (pos + 240 * i + e_off en) (width (e_type en)) c)) /\
  (exists cs, in_table s cs /\ forall m j w r, holds (c_descale cs) (IZR m) -> -31 <= m <= 31 ->
     nth_error (words (skipn (Z.to_nat (smp_at s)) b) (sample_bytes (g1_format_code (d_g1 s))) (Z.to_nat (smp_num s))) j = Some w ->
     word_real (g1_format_code (d_g1 s)) w r -> (exists z, holds z (r * powerRZ 2 m)%R) ->
     exists d, holds d (r * powerRZ 2 m)%R /\
       stored_sample p o fmt d (slice (pos + 240 * n + sample_width fmt * Z.of_nat j) (sample_width fmt) c)).

(** Bytes of the SEG-Y traces made from [l]: [hb] bytes of header blocks, then
    the samples, [n] of them or as many as the trace has. *)
Definition conv_sizes (own : bool) (n hb fmt : Z) (l : list (isegd * trace)) : Z :=
  sum (map (fun x => hb + (if own then smp_num (fst x) else n) * sample_width fmt) l).

(** The platform's pow() returns doubles. *)
Definition pow_typed (p : platform) : Prop := forall x, is_dbl (p_pow2 p x).

(** Can the header fields of the trace be stored? *)
Definition storable (ls : layouts) (s : isegd) : Prop :=
  forall nm l en, In (nm, l) ls -> In en l -> ~ In (e_name en) (fixed_points s) /\ e_type en <> Ibm.
(** Is there room for the samples of the trace?  A writer that takes the number
    of samples from each trace needs the trace to have one. *)
Definition room (w : writer) (bh : bin_hdr) (s : isegd) : Prop :=
  if own_count w bh then byt (th_at s) 9 <> 0 else smp_num s <= bh_samp_per_tr bh mod 2 ^ 16.

(** A SEG-D file [b] and the arguments of a SEG-Y writer this property is
    about; [s] is the reader after opening, [l] are the traces of the file. *)
Definition convertible (p : platform) (b : list Z) (w : writer) (bh : bin_hdr) (ls : layouts) (s : isegd) (l : list (isegd * trace)) : Prop :=
  bytes b /\ len b < 2 ^ 63 /\ old_rev b /\ isegd_open p b [] = Ok s /\ visits p s l /\ Forall (fun x => plain_trace b (fst x)) l /\
  safe_layouts ls /\ len (given_texts w) <= 65536 /\ bin_ok bh = true.
