# Design: a formal model of sedaman's SEG-Y / SEG-D codecs

Source: `/repo` (C++), read as text.  Nothing in `/repo` was built or run.
Proof assistant: Coq 8.16.1, files under `rocq/theories` (logical root `Verif`).

## 1. What the model is

The model is a set of total, executable Gallina functions, one per C++ function,
each with a comment that cites the file and lines it models.

* **Bytes** are `Z` in `[0,256)`; buffers, strings and files are lists of them.
* **A file** is its content plus one position (libstdc++'s `basic_filebuf` keeps one
  joint position, so `tellg`/`seekg` on an output stream use it too).  A write past the
  end pads with zeros.  A read that does not fit throws (`failbit` is in the
  exception mask, `CommonSEGY.cpp:27`).
* **Outcomes.**  Every operation that can fail returns `Ok`, `Throw e` (a C++ exception
  of a named kind) or `UB` (the standard leaves the behaviour undefined: out-of-bounds
  access, dereferenced empty optional, signed overflow, out-of-range double-to-integer
  conversion, ...).  `UB` is never silently turned into a value.
* **Loops** are structural recursions on the count the C++ loop uses.  The one loop whose
  count is not known beforehand (the reading loops of a client program, C23) takes fuel
  and has its own outcome when the fuel runs out.
* **Machine integers** are `Z` with the wraps written out (`wrapu n`, `wraps n`).
* **Doubles** are 64-bit patterns.  Arithmetic goes through the standard library's
  `SpecFloat` (IEEE 754 binary64, round to nearest even).  NaN results of arithmetic are
  collapsed to the canonical quiet NaN (simplification; moves of NaNs are exact).
* **Objects.**  `Trace`, `Trace::Header` and `Exception` are also modelled as C++ objects
  (a heap, pimpl pointers, copies and moves) in `Objects.v`; elsewhere they are values,
  which C34, C35 and C47 justify.
* **Platform.**  What the C++ standard leaves to the compiler or to libm is a
  record of parameters (`platform`, in `Platform.v`), quantified over in the theorems,
  never an axiom: the evaluation order of `a(buf) | b(buf)`, the value of an out-of-range
  double-to-unsigned conversion (or `UB`), the value of the `log()` expressions in the
  floating-point encoders, `pow(2, x)` for non-integer `x`, `log2` of a number that is
  not a power of two, the largest possible allocation, whether padding
  bytes of two equal structs compare equal in `memcmp`, whether two adjacent member
  arrays are contiguous, and the initial value of an uninitialised counter.  Theorems
  that need a particular answer say so in a hypothesis about the record.
* **Host**: little-endian, `FLT_RADIX == 2 && DBL_MANT_DIG == 53`, signed `char`
  (x86-64, gcc).  The other branch of the `#if`-like tests is not modelled.

## 2. Layers (files)

Model files contain no proofs; specification files (`*Spec.v`) do not mention the
model's helpers beyond the records and the primitive notions of bytes and files;
`*Facts.v`, `*Props.v`, `*Read.v` and `*Real.v` hold lemmas; `Properties*.v` hold only the
property theorems, each with an `Example` that meets its hypotheses and a
`Print Assumptions`.

| Model | Models | Specification | Lemmas | Theorems |
|---|---|---|---|---|
| `Base.v`, `Platform.v` | outcomes, bytes, files | | `BaseFacts` | |
| `Bcd.v` | `util.hpp` BCD templates | `BcdSpec` | `BcdFacts`, `BcdFacts2`, `NibFacts` | `PropertiesBcd` (C01-C03) |
| `SegyCodec.v`, `Ebcdic.v` | raw readers/writers, sample codecs, tables | `CodecSpec` | `CodecFacts`, `EbcdicFacts` | `PropertiesCodec` (C04, C05, C10, C28, C82) |
| `Fp.v` | float and double arithmetic | `FpSpec` | `FpFacts`, `FpReal`, `SampleFacts`, `SampleReal` | `PropertiesFp` (C06-C09) |
| `SegyTypes.v`, `TraceHdr.v` | headers, layouts, `check_tr_hdr_map`, text | `LayoutSpec` | `LayoutFacts`, `HdrFacts`, `BinFacts` | `PropertiesLayout` (C11-C14, C34), `PropertiesText` (C30, C79) |
| `OSegy.v` | `OSEGY*`, revisions 0, 1, 2 | `FileSpec`, `SegyEncSpec` | `FileFacts`, `FileArea`, `WriterFacts`, `SegyEncFacts`-`SegyEncFacts5` | `PropertiesFile` (C19-C21), `PropertiesSegyEnc` (C59-C61, C84, C90) |
| `ISegy.v`, `OSegy.v` | reader and writers together | `CopySpec` | `CopyFacts`-`CopyFacts4` | `PropertiesCopy` (C62) |
| `ISegy.v`, `OSegy.v` | reader, header changes, writers | `EditSpec` | `EditFacts` | `PropertiesEdit` (C94) |
| `ISegd.v`, `OSegy.v` | SEG-D reader, SEG-Y writers | `ConvSpec` | `ConvFacts`, `ConvFacts2` | `PropertiesConv` (C95) |
| `StepX.v`, `OSegyX.v` | the SEG-Y writers with the object a throwing call leaves behind | `RefuseSpec` | `RefuseFacts` | `PropertiesRefuse` (C63) |
| `StepX.v`, `OSegdX.v` | the SEG-D writer with the object a throwing call leaves behind | `RefuseSpec`, `DRefuseSpec` | `DRefuseFacts` | `PropertiesDRefuse` (C96, C98) |
| `StepX.v`, `ISegdX.v` | the SEG-D reader with the object a throwing call leaves behind | `RereadSpec`, `DRereadSpec` | `DRereadFacts` | `PropertiesDReread` (C97, C99) |
| `Procs.v` | several SEG-D writers in one program, with the static array of format 8015 | `ProcSpec` | `ProcFacts` | `PropertiesProc` (C100) |
| `CtorX.v` | constructors of all writers with the file after an exception, and the directory | `CtorSpec` | `CtorFacts` | `PropertiesCtor` (C101, C102) |
| `StepX.v`, `ISegyX.v` | the SEG-Y readers with the object a throwing call leaves behind | `RereadSpec` | `RereadFacts`-`RereadFacts4` | `PropertiesReread` (C64, C65, C89) |
| `ISegy.v` | `ISEGY` | `ReadSpec`, `RoundSpec`, `SegyDecSpec` | `ReadFacts`-`ReadFacts5`, `ReaderFacts`, `OpenFacts`, `RoundFacts`, `SegyDecFacts`-`SegyDecFacts4` | `PropertiesRead` (C22-C27, C29, C77, C88), `PropertiesRound` (C15-C18, C84, C87), `PropertiesSegyDec` (C56-C58, C86) |
| `Sorted1D.v` | `ISEGYSorted1D` | `SortedSpec` | `SortedFacts` | `PropertiesSorted` (C31-C33, C78) |
| `Objects.v` | `Trace`, `Trace::Header`, `Exception` | `ObjSpec` | `ObjFacts` | `PropertiesObjects` (C35, C47, C83) |
| `SegdTypes.v`, `ISegd.v`, `OSegd.v`, `Sercel.v` | `CommonSEGD`, `ISEGD`, `OSEGD`, `OSEGDRev2_1` | `SegdSpec`, `SegdDecSpec`, `SegdReadSpec`, `SegdTrcSpec`, `SegdExtSpec`, `SegdUserSpec`, `Segd3Spec`, `Segd3TrcSpec` | `Segd*Facts`, `Segd*Props`, `Segd3Trc`, `SegdTrcRead`, `SegdUserRead`, `SegdExamples`, `SegdTrcExamples`, `Segd3Examples`, `FixFacts` | `PropertiesSegd{Hdr,File,Open,Trc,Ext}`, `PropertiesSercel`, `PropertiesSegd3`, `PropertiesSegd3Trc` (C36-C46, C48-C55, C74-C76, C80, C81, C85) |
| `PyBind.v` | `pybind.cpp`: header objects, readers, iterators | `PySpec` | `PyFacts`, `PyFacts2`, `PyIterFacts` | `PropertiesPy` (C66, C67, C71), `PropertiesPyIter` (C68, C69, C72, C73) |
| `PyTrace.v` | `pybind.cpp`: traces and headers as Python objects | `PyTraceSpec`, `PyDictSpec` | `PyTraceFacts`, `PyDictFacts` | `PropertiesPyTrace` (C91-C93) |
| `PyWrite.v` | `pybind.cpp`: layouts as lists of dicts, the writers, a program that copies a file | `PyWriteSpec` | `PyWriteFacts` | `PropertiesPyWrite` (C103, C104) |
| `DiskX.v` | the SEG-Y writers with their operations on a stream that buffers, on a disk of limited size | `DiskSpec`, `CrashSpec` | `DiskFacts`, `CrashFacts` | `PropertiesDisk` (C105), `PropertiesCrash` (C106) |
| `StartX.v` | the SEG-Y writers on such a disk, from the constructor to the destructor | `DiskSpec`, `CrashSpec` | `StartFacts`, `BlankFacts` | `PropertiesStart` (C108) |
| `DiskD.v` | the SEG-D writer on such a disk, with a log of its operations | `DiskSpec`, `DiskDSpec` | `DiskDFacts`, `CutDFacts`, `StopDFacts`, `AckFacts`, `AckYFacts` | `PropertiesDiskD` (C109), `PropertiesAck` (C110, with `DiskX.v`) |
| `ChAcc.v` | the accessors of channel set headers for the members of revision 3 | `ChAccSpec` | `ChAccFacts` | `PropertiesChAcc` (C107) |
| `NameTables.v` | enumerators and their descriptions | `NameSpec` | `NameFacts` | `PropertiesNames` (C70) |


### Not modelled

* Of `src/pybind/pybind.cpp`: the enumerations as Python objects.  pybind11 itself is trusted (its source is not in the tree).
* `dox.conf`, the tests.
* A big-endian host and hosts with unsigned `char`.
* The state of a stream after an exception is not part of `ISegy.v`, `OSegy.v`, `ISegd.v`
  and `OSegd.v`; `ISegyX.v`, `OSegyX.v`, `ISegdX.v` and `OSegdX.v` model it, and C63-C65,
  C89 and C96-C99 tie these to the former.  What the accessors of the SEG-D reader return
  after an exception is simplified in `ISegdX.v` and nothing is proved about it.
* Two objects on the same file, threads, signals.  Of disk errors: a short read everywhere, a
  full disk for the SEG-Y writers (`DiskX.v`, `StartX.v`) and the SEG-D writer (`DiskD.v`), no
  others.
* The writer of SEG-D format 8015 keeps its four-sample group in an array shared by all
  objects of the process; `OSegd.v` gives every writer its own, `Procs.v` models the
  sharing and C100 says when it makes no difference.
* Destructors, except those of traces and headers in `Objects.v`, of `OSEGYRev2` in `OSegy.v`
  and `DiskX.v`, and of the SEG-Y writers' streams in `DiskX.v`.

## 3. Properties: what is modelled and how it is proved

Status and theorem names are in `MANIFEST.json`; a name ending in `_partial` keeps
the full English statement in view and says in its comment what is missing; a name
ending in `_refuted` proves that the statement fails in the faithful model.

| Id | Model and proof |
|---|---|
| C01-C03 | `to_bcd` as the double-dabble loop over a digit vector plus remaining bits; invariant "digits hold the decimal expansion of the consumed prefix"; `from_bcd` by induction on the digit count; specification = positional value and `n / 10^i mod 10` |
| C04 | bit-level codecs against a specification by division and remainder; induction on the width; 24-bit readers for both evaluation orders (C82, one refuted) |
| C05 | tables copied from the source; finite check over 256 bytes lifted to strings |
| C06, C07 | SpecFloat evaluation tied to real numbers through Flocq; `log` is a platform parameter |
| C08, C09 | conversions tied to the nearest representable real; integers below 2^53 exact |
| C10 | finite dispatch over all 65536 codes |
| C11, C12 | `check_tr_hdr_map` against an independent specification of pairwise disjoint in-bounds intervals; refuted for the unchecked first entry; proved with the first entry in bounds |
| C13, C14 | induction on the layout; disjoint writes do not interfere; C14 refuted (writer insists on integers) |
| C15 | field-by-field writer/reader |
| C16-C21 | writer invariant "file = preamble ++ records"; reader consumes records; induction on the trace list; refutations for the zero-initialised header, additional headers, stale buffer |
| C22-C24 | position reasoning over arbitrary file contents; every read moves the position forward; refutations by concrete files |
| C25, C26 | loops over blocks; C26 refuted in general form (no file with a positive count opens) |
| C27, C28 | independence from file bytes; case analysis on the marker |
| C29 | no `UB` in the reader over arbitrary bytes under exact side conditions |
| C30 | length test |
| C31-C33 | map from key to position list; sortedness, permutation, stability, against an insertion-sort specification.  A NaN key compares equal to everything, so a query with NaN finds the first key; C32 excludes NaN queries |
| C34, C35, C47 | association map laws; heap of objects simulated by value semantics |
| C36-C39 | packed header codecs: decoding of arbitrary blocks against positional specifications (C74-C76), and round trips against record equality |
| C40 | extension blocks: reader over a shared cursor proved to stay in the buffers; layout specification by intervals; round trip by induction on blocks and fields |
| C41 | sample codecs per format; seven positive, seven refuted |
| C42-C44 | file of any number of records; the reader follows the writer's record list; counters as invariants |
| C45 | arbitrary file bytes; block counts against an independent reading of the header bytes |
| C46 | refuted by a concrete file |
| C48 | a "reads safely" predicate closed under the parser combinators, over arbitrary files and reader states |
| C49 | state left by the previous record compared with a fresh reader |
| C50 | the tables checked by computation; invariant of the reader with layouts, refinement of `d_read_trace` to the bytes of the blocks |
| C51-C54 | arbitrary bytes of a revision 3 file; invariant of the block loop "the map holds the last block of every type seen so far"; member tables as data in the specification |
| C55 | invariant of the reader within the first record; refinement of `d_read_trace` to the bytes of the trace |
| C56 | refinement of the header parser to the byte table of the standard |
| C57 | induction over the calls with the reader invariant; each field and sample reader refined to the number its bytes denote; converse for complete traces |
| C58 | both tables compared by computation for the listed names, lifted to all names; then C57 |
| C59 | the block of C15 refined to the byte table of the standard, with the invariant of C19 that nothing else ever changes it |
| C60 | the records of C19 refined field by field and sample by sample to the numbers their bytes denote; induction over the traces; both default tables compared with the standard by computation |
| C61 | case analysis of the constructors and of the first write; comparison and truncation of doubles through their real values |
| C62 | the statement of C57 about the bytes read and the encoders' inverses give each field, sample, header and trace back; induction over the traces; the binary header is tiled by its members |
| C63 | each step of `OSegyX.v` is paired with the step of `OSegy.v`; invariant: a writer that refused a trace early has its old state (or, still waiting for its first trace, only other bytes in the binary header); induction over the traces |
| C64 | the reader with a failbit simulates `ISegy.v` while the bit is clear; a failed reader answers every call with the same exception; induction over the calls |
| C65 | two readers of the same file differ only in position and buffer, and each visit seeks first; the scan of the constructor read every header and ended inside the file, so every trace lies in the file; induction over the calls |
| C66 | the table of bindings (class, attribute, member, type) compared by computation with the member tables of C52, lifted to all blocks; then C52; UTF-8 specified by an inductive relation, the decoder proved sound and complete |
| C67 | each type caster against the range of its field; objects as member lists, invariant "members have their types", induction over the assignments; binary header by C56 |
| C68 | loop with fuel; induction over the remaining traces from C24 and C57 (read in any order), C31 for the sorted reader, C43 for SEG-D |
| C69 | C25 and C26 with the UTF-8 decoder; the conversions get a temporary copy |
| C70 | finite check over the tables copied from the source |
| C71-C73 | as C67 to C69 |
| C74-C76 | one lemma per reader: every field of the parser equals the digits or bytes of its place |
| C77-C90 | parts of earlier properties stated on their own: C77 of C23, C78 of C33, C79 of C30, C80 of C41, C81 of C44, C82 of C04, C83 of C47, C84 of C15 and C59, C85 of C50, C86 of C57 and C58, C87 of C17, C88 of C24, C89 of C64, C90 of C61 |
| C91 | programs over names as lists of statements; the interpreter with reference counts, `keep_alive` and freed cells refines the store that never frees: invariant relating counts to names, induction over the program |
| C92 | by C91 on the store; association lists |
| C93 | by C91; the map caster on distinct keys, the UTF-8 decoder, `int` to `double` exact up to 2^53 |
| C94 | the bytes of the patched file are shown to hold the changed trace in the sense of the reader's specification; then the step lemma of C62 applies trace by trace |
| C95 | the loop is shown to be a sequence of writes of the traces that the SEG-D reader returns; the decoding theorem of C41 gives the numbers in these traces, that of C60 the numbers in the file; success by an invariant of the writer's buffer |
| C96 | the call of `OSegdX.v` is shown to be that of `OSegd.v` plus the blocks written before an exception; which traces throw after their header is found by cases over every writer; induction over the traces |
| C97 | each step of `ISegdX.v` is paired with the step of `ISegd.v` (same outcome; the object after an exception has a failed stream, or no trace left, or memory was refused); which exceptions a call can throw is found by cases over all parsers; induction over the calls |
| C98 | the blocks written before an exception are those found for C96; invariant over the traces: the position is the end of the file and the count is the number of accepted traces |
| C99 | every step of `ISegdX.v` that throws EIO leaves a failed stream, whatever the object is like; a reader with a failed stream throws at its first step |
| C100 | every step of `write_trace` but the stores of format 8015 commutes with a change of the array; invariant "the array holds what the writers of that format left"; induction over the commands of the program, with every writer run alone beside it; refuted for two writers of format 8015 |
| C101 | proved when the file cannot be opened and for other files; refuted by evaluation for arguments that are refused after the file was emptied |
| C102 | constructors as steps on the file, proved equal to the constructions of `OSegy.v`/`OSegd.v` in outcome and file; the SEG-D header writers proved never to throw and to write blocks of 32 bytes |
| C103 | conversion of dicts against a specification by membership and order; the interleaved loop of the Python program proved equal to reading everything and writing everything (C62's `copy`) |
| C104 | constructor with the arguments the binding passes; round trip from C42 and C72; refuted by evaluation and, for announced headers, for all arguments |
| C105 | every call yields the list of its operations; invariant: disk with the buffer stored over it is the file of the model without a limit; a failed hand-over leaves the first `cap` bytes of it |
| C106 | what is on the disk is a beginning of the complete file (C105; for a killed program the disk only gets longer); C24 for this beginning, with the positions of the reader between two traces identified as the lengths of the writer's files by C16-C18 for the first `n` traces |
| C107 | revision 3: from the facts of C53; earlier revisions: by induction over the constructor of the reader, every channel set header has the zeros of the long constructor |
| C108 | the operations of the constructor are writes without a gap, so what is on the disk is always a beginning of the headers; then C105 and C106; a program killed while the completed binary header is stored over the first one leaves a mixture of both, which is shown to be the block of another valid header (`bin_mix`) |
| C109 | every function of `DiskD.v` is paired with the one of `CtorX.v` or `OSegdX.v` (same outcome and object, and the logged operations turn the file before into the file after); all operations append, so what is on the disk is a beginning of the file; every step of the reader either does the same on a cut file or throws EIO because it goes past the end; then C42 |
| C110 | what is on the disk plus the buffer is the file after the last call that returned (invariant of C105 and C109); the call that throws leaves a full disk, so no more than the buffer is missing |

Nothing turned out to be inexpressible.

## 4. Trusted base

* Coq's kernel, and the assumptions printed for each theorem (section 6).
* The correspondence between the cited C++ lines and the model (by reading).  As a check,
  the model was evaluated (`vm_compute`) on the five files in `/repo/samples`, with an
  exact logarithm for `p_ibm_exp`: it gives what the programs in `/repo/tests/segy`
  expect of the library: the binary header of `check_bin_header.cpp`, 160 traces of 501
  samples, the sum of the first trace and of the second and third compared with it in
  `check_reading_samples_*.cpp`, and a revision 0 copy equal to the file byte by byte
  (`verify_writing.cpp`).  These evaluations are not part of the build, because `coqchk`
  needs minutes for each.
* The C++ library behaviour described in section 1 (`fstream`, `vector::resize`,
  `unordered_map`, `map`, `variant`, `optional`), `basic_filebuf` on a full disk as described in
  `DiskX.v`, pybind11's conversions as described in
  `PyBind.v`, CPython's reference counting and pybind11's registered instances and
  `reference_internal` as described in `PyTrace.v`, `pow` being exact on powers of two,
  IEEE 754 conversions, and for `Objects.v` that a moved-from container is valid.
* The English statements in `properties.jsonl` against the Coq statements.

## 5. Faults of the code the proofs expose

Each is the content of a `_refuted` theorem or of a hypothesis that cannot be dropped.

* SEG-Y writers: the default header names no revision (C87); extended headers that were
  not announced are not counted (C87); one additional trace header fewer is written than
  announced (C18); a shorter trace is padded with old samples and a longer one overruns
  (C21); header values given as floats cannot be written (C14); the swapped marker is
  stored so that it reads back as native order (C84); the revision 0 default text (C79);
  a first trace without SAMP_NUM or SAMP_INT is undefined and padding bytes decide whether a
  header is blank (C90); a trace refused after its header block was written stays in the file
  as a stray block (C63).
* SEG-Y reader: a refused sample count leaves the reader in the middle of a trace (C89); positive stanza counts never open (C18, C26); with an unknown number the
  data end is computed without the trace headers (C26); endless loops on `-1` additional
  headers or negative counts (C23); cut traces accepted when blocks are skipped (C88);
  sizes overflow `int` (C29) and, with an 8-byte count, 64 bits (C86); 32768 samples in the
  16-bit count are refused (C86); the first layout entry is not checked (C11).
* Sorted reader: empty file dereferences `end()` (C78).
* `Exception`: copying dereferences a null pointer (C83).
* SEG-D writer: base scan interval over 8 ms, scans per block that are no power of two,
  100 and more channel sets (C36); negative source numbers (C37); odd times, negative
  descale exponents (C38); the extension writer clears 32 bytes of a 20-byte array (C40);
  an uninitialised channel counter (C44); the destructor loses the last bytes silently when the
  disk is full (C109).
* SEG-D reader: seven sample formats (C41); the general trailer is taken for a record
  (C43); the channel set escape is never recognised (C45); traces without extension have
  no samples (C46); unknown channel set numbers index out of range, the sensor block reads
  past its buffer (C48); headers of the previous record stay visible (C49); more
  extension blocks than layouts index out of range (C50); in revision 3 the record length is
  skipped in general header 2 and the fields behind it are shifted (C51, C54), source
  offsets are one byte long and negative numbers lose their sign (C52), the descale
  multiplier is taken for an exponent of two given by its bits (C53, C55), the trace number
  escape is never followed and sample sizes overflow 32 bits (C55); channel set headers of older
  files claim to have the members of revision 3 (C107).

* Python module: two block methods bound to other blocks, five attributes bound to other
  members, six members without attribute (C66, C71); texts read back padded or not at all
  (C71); loops over SEG-D files with a general trailer raise (C72); EBCDIC stanzas cannot be
  read, the conversions do nothing (C73).
* Descriptions: the table of the orientation block is two entries short; five trace header
  words have none (C70).
* `OSEGDRev2_1` in Python takes no extended and external headers, and the list of additional
  general headers cannot be converted (C104);
* after a failed operation on the stream the destructor of `OSEGYRev2` ends the program
  (std::terminate), and errors when the stream is closed are not reported (C105);
* Constructors of writers empty an existing file before they check their arguments (C101);
  SEG-D writers of format 8015 share their samples with each other (C100).

## 6. Assumptions

`Print Assumptions` follows every property theorem.  No theorem depends on an axiom of
this development or of a library other than Coq's standard library (Flocq is used for
lemmas and adds none).  The axioms that occur are those of the standard real numbers:

* `ClassicalDedekindReals.sig_forall_dec`, `ClassicalDedekindReals.sig_not_dec`
* `FunctionalExtensionality.functional_extensionality_dep`
* `Classical_Prop.classic`

Closed under the global context (no axioms), 185 theorems:
`C01_bcd_round_trip`, `C02_bcd_dirty_nibble_refuted`,
`C02_bcd_truncates_and_frames_partial`, `C03_bcd_decode_positional`,
`C04_raw_integer_round_trip`, `C05_ebcdic_alphanumerics`, `C05_ebcdic_ascii_round_trip`,
`C08_ieee_double_identity`, `C08_ieee_single_nan`, `C100_alone_partial`,
`C100_defined_partial`, `C100_shared_array_refuted`, `C101_existing_file_refuted`,
`C101_untouched_partial`, `C102_content`, `C103_copy`, `C103_layouts`, `C103_returned`,
`C103_type_error`, `C104_additional_headers_refuted`, `C104_announced_refuted`,
`C105_answers`, `C105_file`, `C105_rev2_terminates_refuted`, `C105_room`,
`C105_silent_refuted`, `C106_disk_full`, `C106_killed`, `C107_old_revisions_refuted`,
`C108_constructor`, `C108_constructor_throws`, `C108_disk_full`, `C108_killed`,
`C108_room`, `C109_file`, `C109_killed`, `C109_room`,
`C10_constructed_objects_have_a_supported_format`, `C10_format_dispatch_agrees`,
`C110_segd`, `C110_segd_unbuffered`, `C110_segy`, `C11_accepted_layouts_safe_partial`,
`C11_accepted_layouts_safe_refuted`, `C12_default_layout_valid`,
`C12_valid_layouts_accepted`, `C13_header_block_can_be_written`,
`C13_header_fields_round_trip`, `C14_float_values_never_written_refuted`,
`C15_binary_header_round_trip`, `C16_rev0_file_round_trip`, `C17_rev1_file_round_trip`,
`C18_additional_headers_refuted`, `C18_rev2_file_round_trip_partial`,
`C18_trailer_stanza_refuted`, `C19_file_layout`, `C20_writing_only_appends`,
`C21_exact_traces_do_not_mix_partial`, `C21_longer_trace_not_written`,
`C21_longer_trace_undefined_refuted`, `C21_sample_areas`, `C21_stale_samples_refuted`,
`C22_read_header_and_read_trace_agree`, `C23_negative_count_refuted`,
`C23_no_progress_refuted`, `C23_read_header_loop_ends_partial`,
`C23_read_trace_loop_ends_partial`, `C24_truncated_files_are_reported`,
`C25_extended_text_headers`, `C26_announced_stanzas_refuted`,
`C26_unknown_number_fixed_length_refuted`, `C26_unknown_number_variable_length_partial`,
`C27_override_is_honoured`, `C27_own_header`, `C27_stored_values_do_not_matter`,
`C28_unsupported_byte_order_refused`, `C29_opening_is_safe_partial`,
`C29_reading_is_safe_partial`, `C29_sizes_overflow_refuted`, `C30_wrong_size_throws`,
`C31_sorted_iteration`, `C32_key_queries`, `C33_missing_header_throws`,
`C34_header_is_a_map`, `C35_copies_are_independent`, `C35_value_semantics`,
`C36_general_header1_refuted`, `C37_general_header2_partial`,
`C37_general_headerN_refuted`, `C38_channel_set_refuted`, `C39_trace_header_refuted`,
`C40_buffer_overflow_refuted`, `C40_layouts_refuted`, `C40_line_type_refuted`,
`C40_uint64_refuted`, `C40_write_partial`, `C44_channel_limit_partial`,
`C44_uninitialised_refuted`, `C45_channel_sets_refuted`, `C47_message_survives_moves`,
`C48_sensor_block_refuted`, `C49_stale_block_refuted`, `C49_stale_count_refuted`,
`C51_general_header2_refuted`, `C53_filter_delay_refuted`,
`C54_additional_count_refuted`, `C54_external_count_refuted`,
`C56_binary_header_members`, `C56_overridden_header`, `C56_read_binary_header`,
`C62_copy_refuted`, `C62_marked_big_endian_refuted`, `C62_real_field_refuted`,
`C63_blank_header_refuted`, `C63_negative_count_refuted`, `C63_none_accepted_partial`,
`C63_refused_traces_partial`, `C63_same_calls`, `C63_second_block_refuted`,
`C64_fail_stop`, `C64_fixed_length`, `C64_same_calls`, `C65_only_memory`,
`C65_sorted_reader`, `C66_client_name_refuted`, `C66_explosive_info_refuted`,
`C66_missing_attributes_refuted`, `C66_other_field_refuted`, `C66_same_names_partial`,
`C67_binary_header`, `C67_values_taken`, `C68_adjacent_headers`, `C68_cut_files`,
`C68_for_loop`, `C68_sorted_loop`, `C69_text_headers`,
`C70_member_descriptions_partial`, `C70_orientation_refuted`,
`C70_trace_header_partial`, `C70_undescribed_refuted`, `C71_overlap_refuted`,
`C71_texts_partial`, `C71_texts_refuted`, `C73_conversion_refuted`,
`C73_ebcdic_stanzas_refuted`, `C73_stanzas_partial`, `C74_general_header2`,
`C75_extension_flag_refuted`, `C77_open_ends`, `C78_empty_file_refuted`,
`C79_default_text_partial`, `C79_rev0_default_refuted`, `C81_accepted_tables`,
`C82_operand_order_refuted`, `C82_round_trip_partial`, `C83_copy_refuted`,
`C84_read_back_refuted`, `C84_written_refuted`, `C85_sercel_layouts`,
`C86_many_samples_refuted`, `C86_wide_count_refuted`, `C87_default_header_refuted`,
`C87_unannounced_text_headers_refuted`, `C88_skipped_header_blocks_refuted`,
`C89_reader_partial`, `C89_variable_length_refuted`, `C90_missing_name_refuted`,
`C90_padding_refuted`, `C91_nothing_leaks`, `C91_python_objects`, `C92_big_int_refuted`,
`C92_set_get_partial`, `C94_out_of_range_refuted`, `C94_samp_num_refuted`,
`C96_extension_refuted`, `C96_refused_traces_partial`, `C96_same_calls`, `C97_defined`,
`C97_endless_refuted`, `C97_lost_trace_refuted`, `C97_memory_refuted`,
`C97_persistent_partial`, `C97_same_calls`, `C98_what_stays`, `C99_fail_stop`.

Only `ClassicalDedekindReals.sig_forall_dec`, `FunctionalExtensionality.functional_extensionality_dep`, 3 theorems:
`C07_ibm_zero_refuted`, `C52_same_type_refuted`, `C52_source_offsets_refuted`.

All four axioms, 90 theorems:
`C06_ibm_decode_exact`, `C07_ibm_encode_truncates`,
`C07_ibm_exponent_too_small_refuted`, `C07_ibm_normalised_words_survive`,
`C07_ibm_relative_error`, `C07_ibm_zero_if_defined`, `C08_ieee_single_representable`,
`C08_ieee_single_rounds`, `C08_rne32_is_nearest`, `C09_integer_samples_survive_partial`,
`C09_negative_samples_refuted`, `C104_record_partial`, `C107_revision3_partial`,
`C109_read_partial`, `C109_silent_refuted`, `C109_stopped_partial`,
`C14_integers_in_float_fields_partial`, `C36_general_header1_partial`,
`C37_general_headerN_partial`, `C38_channel_set_partial`, `C39_trace_header_partial`,
`C40_read_partial`, `C40_round_trip_partial`, `C40_standard_round_trip_partial`,
`C41_24bit_little_endian_refuted`, `C41_decode_partial`, `C41_first_word_only_refuted`,
`C41_reads_partial`, `C41_round_trip_partial`, `C41_unreadable_formats_refuted`,
`C42_record_round_trip_partial`, `C43_record_cursor_partial`, `C43_trailer_refuted`,
`C44_accepts_partial`, `C45_block_counts_partial`, `C45_opens_partial`,
`C46_sample_count_refuted`, `C48_channel_set_number_refuted`, `C48_open_safe_partial`,
`C48_traces_safe_partial`, `C49_next_record_partial`, `C50_decode_partial`,
`C50_extended_line_refuted`, `C50_first_block_partial`, `C50_more_blocks_refuted`,
`C50_reads_partial`, `C51_general_headers_partial`, `C52_blocks_partial`,
`C52_negative_line_refuted`, `C53_channel_sets_partial`, `C53_descale_refuted`,
`C54_open_safe_partial`, `C54_opens_partial`, `C54_places_partial`,
`C55_channel_set_number_refuted`, `C55_decode_partial`, `C55_descale_refuted`,
`C55_negative_receiver_refuted`, `C55_reads_partial`, `C55_sample_count_refuted`,
`C55_trace_number_refuted`, `C57_complete_traces_are_read`, `C57_traces_decoded`,
`C58_default_layouts`, `C59_written_binary_header`, `C60_default_layout`,
`C60_written_traces`, `C61_bad_first_trace`, `C61_first_trace_completes`,
`C62_copy_partial`, `C66_block_attributes_partial`, `C67_assignments`,
`C71_assignments_partial`, `C72_loop_partial`, `C72_trailer_refuted`,
`C74_general_header1`, `C74_general_headerN`, `C75_channel_set_partial`,
`C76_trace_header`, `C80_other_codes_refused`, `C81_mismatch_refused`, `C93_new_trace`,
`C94_edit_partial`, `C95_blank_refuted`, `C95_convert_partial`,
`C95_default_layout_partial`, `C95_exact_partial`, `C95_fixed_point_refuted`,
`C95_no_room_refuted`, `C95_succeeds_partial`.
