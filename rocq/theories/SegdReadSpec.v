(** Specification vocabulary for the traces a reader returns from an arbitrary
    file of revision below 3: where the parts of the trace at the position of
    the reader are, and the states a reader can get into. *)
From Coq Require Import Reals.
From Verif Require Import Base Platform CodecSpec FpSpec TraceHdr SegyTypes SegdTypes SegdSpec SegdDecSpec SegdTrcSpec ISegd.
Local Open Scope Z_scope.

(** The bytes of the trace at the position of the reader. *)
Definition th_at (s : isegd) : list Z := slice (fpos (d_file s)) 20 (fdata (d_file s)).
Definition te_at (s : isegd) : list Z := slice (fpos (d_file s) + 20) 32 (fdata (d_file s)).
Definition smp_at (s : isegd) : Z := fpos (d_file s) + 20 + 32 * byt (th_at s) 9.
Definition smp_num (s : isegd) : Z := if byt (th_at s) 9 =? 0 then 0 else big (te_at s) 7 3.
Definition trace_end (s : isegd) : Z := smp_at s + Z.of_nat (sample_bytes (g1_format_code (d_g1 s))) * smp_num s.
Definition in_table (s : isegd) (c : chset) : Prop :=
  exists cs, nth1 (d_sets s) (dec (th_at s) 4 2) cs /\ nth1 cs (set_num (th_at s)) c.

(** That trace is the last one of its record (the counters are uint64_t). *)
Definition last_trace (s : isegd) : Prop := d_chans s = (d_read s + 1) mod 2 ^ 64.

(** The states of a reader of the file [b], opened without layouts of the
    header extensions, when the record at the start of the file and those that
    follow a record read to its end are of revision below 3. *)
Inductive reader (p : platform) (b : list Z) : isegd -> Prop :=
| reader_open s : old_rev b -> isegd_open p b [] = Ok s -> reader p b s
| reader_next s t s' : reader p b s -> d_read_trace p s = Ok (t, s') ->
    (last_trace s -> old_rev (skipn (Z.to_nat (trace_end s)) b)) -> reader p b s'.

(** Formats whose sample reader is undefined behaviour, with their bits per
    sample, and all the others. *)
Definition bad_formats : list Z := [8015; 8024; 8044; 8048].
Definition bad_bits (fmt : Z) : Z := match fmt with 8015 => 20 | 8048 => 32 | _ => 16 end.
Definition safe_formats : list Z := 9036 :: 8022 :: 8042 :: good_formats.

(** The number that a word stands for, and the sample [x] shown for it in a
    channel set with descale exponent [m]. *)
Definition word_real (fmt : Z) (w : list Z) (r : R) : Prop :=
  match fmt with
  | 8036 => r = IZR (as_signed 3 (big w 0 3))
  | 8038 => r = IZR (as_signed 4 (big w 0 4))
  | 9036 => r = IZR (as_signed 3 (big (rev w) 0 3))
  | 9038 => r = IZR (as_signed 4 (big (rev w) 0 4))
  | 8058 => flt_finite (big w 0 4) = true /\ r = flt_val (big w 0 4)
  | 9058 => flt_finite (big (rev w) 0 4) = true /\ r = flt_val (big (rev w) 0 4)
  | 8080 => dbl_finite (big w 0 8) = true /\ r = dbl_val (big w 0 8)
  | 9080 => dbl_finite (big (rev w) 0 8) = true /\ r = dbl_val (big (rev w) 0 8)
  | _ => False
  end.
Definition sample_of (fmt m : Z) (w : list Z) (x : Z) : Prop :=
  forall r, word_real fmt w r ->
  (fmt = 8080 \/ fmt = 9080 -> exists z, holds z (r * powerRZ 2 m)) -> holds x (r * powerRZ 2 m).

(** FF in the numbers of extended and external blocks comes with a general
    header 2. *)
Definition no_escape (b : list Z) : Prop := add_of b = 0 -> byt b 30 <> 255 /\ byt b 31 <> 255.
