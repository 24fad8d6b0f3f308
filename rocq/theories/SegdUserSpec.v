(** Specification vocabulary for reading the traces of a SEG-D file with
    layouts of the trace header extensions. *)
From Coq Require Import Reals.
From Verif Require Import Base Platform CodecSpec FpSpec TraceHdr SegyTypes LayoutSpec SegdTypes SegdSpec SegdDecSpec SegdTrcSpec
  SegdReadSpec SegdExtSpec ISegd.
Local Open Scope Z_scope.

(** The names of the 20-byte trace header. *)
Definition th_words : list string :=
  ["FFID"; "SCAN_TYPE_NUM"; "CH_SET_NUM"; "CHAN"; "FIRST_TIMING_WORD"; "TR_HDR_EXT"; "SAMPLE_SKEW"; "TRACE_EDIT";
   "TIME_BREAK_WIN"]%string.

(** Layouts that describe the blocks of a SEG-D trace: disjoint fields inside
    the blocks, no name used twice or for a word of the trace header, the
    number of samples where the standard has it. *)
Record trace_layouts (ls : ext_layouts) : Prop := {
  tl_blocks : forall l, In l ls -> block_layout l;
  tl_names : NoDup (concat (map names ls));
  tl_words : forall k, In k th_words -> ~ In k (concat (map names ls));
  tl_count : exists l r, ls = l :: r /\ In (7, ("SAMP_NUM"%string, U24)) l }.

(** What a trace header shows of [n] blocks from byte [o] on: the fields of the
    first [n] layouts (all but uint64_t fields) and nothing else. *)
Definition user_fields (ls : ext_layouts) (n : Z) (b : list Z) (o : Z) (h : hdr) : Prop :=
  (forall j l en, Z.of_nat j < n -> nth_error ls j = Some l -> In en l -> e_type en <> U64 ->
     exists v, hget h (e_name en) = Some v /\
       field_value (e_type en) (slice (o + 32 * Z.of_nat j + e_off en) (width (e_type en)) b) v) /\
  (forall k, ~ In k th_words -> (forall j l, Z.of_nat j < n -> nth_error ls j = Some l -> ~ In k (names l)) -> hget h k = None).

(** The states of a reader of the file [b] opened with the layouts [ls]; every
    record is of revision below 3. *)
Inductive reader_with (p : platform) (b : list Z) (ls : ext_layouts) : isegd -> Prop :=
| with_open s : old_rev b -> isegd_open p b ls = Ok s -> reader_with p b ls s
| with_next s t s' : reader_with p b ls s -> d_read_trace p s = Ok (t, s') ->
    (last_trace s -> old_rev (skipn (Z.to_nat (trace_end s)) b)) -> reader_with p b ls s'.
