(** Everything the library's behaviour depends on that neither the source nor
    the C++ standard fixes.  Theorems quantify over this record; nothing about
    it is assumed globally. *)
From Verif Require Import Base.

Record platform : Type := mkPlatform {
  (** In [f(buf) | g(buf)] the order of the two calls is unspecified
      (ISEGY.cpp:206-209, 221-225 and ISEGD.cpp).  [true]: left first. *)
  p_left_first : bool;
  (** Value of converting a finite double whose truncation [t] does not fit
      into an unsigned type of [w] bits ([None]: undefined, as in the
      standard).  Infinite and NaN sources are passed as [t = None]. *)
  p_d2u : Z -> option Z -> option Z;
  (** Value of [static_cast<uint32_t>(log(x)/log(2)/4 + 1 + 64)]
      (OSEGY.cpp:150-151) for the double with the given bits ([None]:
      undefined, e.g. x = 0 where log is -inf). *)
  p_ibm_exp : Z -> option Z;
  (** Largest byte count [vector<char>::resize] can satisfy. *)
  p_max_alloc : Z;
  (** Result of [memcmp(&a, &b, sizeof(BinaryHeader)) == 0] when all members
      are equal: padding bytes have unspecified values (OSEGYRev0.cpp:58). *)
  p_pad_eq : bool;
  (** CommonSEGD.hpp:1554-1556: a write that runs past [trc_hdr_buf] lands in
      [trc_ext_hdr_buf] ([true]) or is simply undefined ([false]). *)
  p_flat_bufs : bool;
  (** Value found in the uninitialised member [chans_in_record] of OSEGD::Impl
      (OSEGD.cpp:40-43). *)
  p_chans0 : Z;
  (** Integral part of [log2(n)] for a positive [n] that is not a power of two
      (OSEGD.cpp:206, 836); exact powers are assumed exact, as in glibc. *)
  p_log2 : Z -> Z;
  (** Bits of [pow(2, x)] for the double [x] when [x] is not an integer or the
      result is not a normal number (ISEGD.cpp:1372, OSEGD.cpp:1081). *)
  p_pow2 : Z -> Z;
  (** Value of the [static_cast] to unsigned of the log() expression of the
      SEG-D sample format [f] for the magnitude with the given bits ([None]:
      undefined; OSEGD.cpp:1102, 1121, 1134, 1151, 1163, 1175). *)
  p_fmt_exp : Z -> Z -> option Z
}.

(** Placeholders for platforms in examples that do not reach these calls. *)
Definition no_exp : Z -> Z -> option Z := fun _ _ => None.

(** The reading of the standard: out-of-range conversions are undefined. *)
Definition strict_d2u : Z -> option Z -> option Z := fun _ _ => None.

(** What gcc emits on x86-64 for double -> unsigned: [cvttsd2si] into a
    64-bit register for 32- and 64-bit targets (32-bit register for 8- and
    16-bit ones) and truncation; out-of-range gives the "indefinite" value.
    Values in [2^63, 2^64) take the compiler's second path. *)
Definition gcc_d2u : Z -> option Z -> option Z := fun w t =>
  let src := if w <=? 16 then 32 else 64 in
  match t with
  | Some v => if in_i src v then Some (wrapu w v)
              else Some (wrapu w (2 ^ (src - 1)))
  | None => Some (wrapu w (2 ^ (src - 1)))
  end.
