(** C04, C05, C10, C28, C82: raw codecs, character sets, format dispatch, byte
    order markers. *)
From Verif Require Import BaseFacts Platform Fp SegyTypes SegyCodec CodecSpec CodecFacts
     Ebcdic EbcdicFacts SampleFacts ISegy OSegy OpenFacts.

(** C04.  For every marker the library accepts, the [n]-byte writers store the
    representation in that byte order and the readers return the stored value
    as an unsigned or signed [n]-byte number (C++ widths are n = 1, 2, 4, 8). *)
Theorem C04_raw_integer_round_trip : forall m ord e n v rest,
  order_of m ord -> endian_of m = Ok e -> (0 < n)%nat ->
  wr e n v = ord n v /\
  rd_u e n (wr e n v ++ rest) = Ok (as_unsigned n v, rest) /\
  rd_i e n (wr e n v ++ rest) = Ok (as_signed n v, rest).
Proof.
  intros m ord e n v rest Ho He Hn. split; [|split].
  - destruct (endian_of_order m e He) as [[-> ->]|[-> Hm]].
    + inversion Ho; subst. apply wr_native.
    + inversion Ho; subst; try (destruct Hm; discriminate); apply wr_swapped.
  - rewrite as_unsigned_wrapu. apply rd_u_wr.
  - rewrite as_signed_wraps by exact Hn. apply rd_i_wr.
Qed.

(** C82.  The three-byte codecs, on a compiler that evaluates the left operand of
    [read(buf) | read(buf)] first. *)
Theorem C82_round_trip_partial : forall p m ord e v rest,
  p_left_first p = true -> order_of m ord -> endian_of m = Ok e ->
  wr24 e v = ord 3%nat v /\
  rd_u24 p e (wr24 e v ++ rest) = Ok (as_unsigned 3 v, rest) /\
  rd_i24 p e (wr24 e v ++ rest) = Ok (as_signed 3 v, rest).
Proof.
  intros p m ord e v rest Hp Ho He. split; [|split].
  - destruct (endian_of_order m e He) as [[-> ->]|[-> Hm]].
    + inversion Ho; subst. apply wr24_native.
    + inversion Ho; subst; try (destruct Hm; discriminate); apply wr24_swapped.
  - rewrite as_unsigned_wrapu. apply rd_u24_wr24, Hp.
  - rewrite as_signed_wraps by lia. apply rd_i24_wr24, Hp.
Qed.

(** C82, refuted: with the other evaluation order, which the standard allows, the 24-bit
    readers return a different number in both byte orders. *)
Theorem C82_operand_order_refuted : forall p,
  p_left_first p = false ->
  exists v, forall e, rd_u24 p e (wr24 e v) <> Ok (as_unsigned 3 v, []).
Proof.
  intros p Hp. exists 66051. intros e.
  unfold rd_u24, rd_16_8. rewrite Hp. destruct e; vm_compute; discriminate.
Qed.

Definition plat_example : platform :=
  mkPlatform true gcc_d2u (fun _ => Some 65) (2 ^ 40) true true 0 Z.log2 (fun _ => 0) no_exp.

Example C04_case :
  order_of 67305985 be_bytes /\ endian_of 67305985 = Ok Swapped /\
  wr Swapped 4 (-2) = [255; 255; 255; 254] /\
  rd_i Swapped 4 [255; 255; 255; 254; 9] = Ok (-2, [9]) /\
  rd_i24 plat_example Native (wr24 Native (-70000)) = Ok (-70000, []).
Proof. split; [constructor|]. vm_compute. repeat split. Qed.

(** C05.  Both conversions are mutually inverse on all byte strings and keep
    the length.  Letters, digits and the space map to their EBCDIC (code page
    037) codes. *)
Theorem C05_ebcdic_ascii_round_trip : forall s, bytes s ->
  ebcdic_to_ascii (ascii_to_ebcdic s) = s /\
  ascii_to_ebcdic (ebcdic_to_ascii s) = s /\
  List.length (ascii_to_ebcdic s) = List.length s /\
  List.length (ebcdic_to_ascii s) = List.length s /\
  bytes (ascii_to_ebcdic s) /\ bytes (ebcdic_to_ascii s).
Proof.
  intros s H. repeat split.
  - apply a2e2a_str, H.
  - apply e2a2e_str, H.
  - apply map_length.
  - apply map_length.
  - apply tr_bytes_a2e.
  - apply tr_bytes_e2a.
Qed.

(** 'A'-'I' = C1-C9, 'J'-'R' = D1-D9, 'S'-'Z' = E2-E9, '0'-'9' = F0-F9,
    ' ' = 40, lower case letters 40 (hex) below the upper case ones. *)
Definition cp037_upper (c : Z) : Z :=
  if c <=? 73 then 193 + (c - 65) else if c <=? 82 then 209 + (c - 74) else 226 + (c - 83).

Theorem C05_ebcdic_alphanumerics : forall c,
  (65 <= c <= 90 -> ascii_to_ebcdic [c] = [cp037_upper c]) /\
  (97 <= c <= 122 -> ascii_to_ebcdic [c] = [cp037_upper (c - 32) - 64]) /\
  (48 <= c <= 57 -> ascii_to_ebcdic [c] = [240 + (c - 48)]) /\
  (c = 32 -> ascii_to_ebcdic [c] = [64]).
Proof. exact alnum_codes. Qed.

Example C05_case :
  ascii_to_ebcdic [67; 32; 49] = [195; 64; 241] /\
  ebcdic_to_ascii [195; 64; 241] = [67; 32; 49].
Proof. vm_compute. split; reflexivity. Qed.

(** C10.  Reader and writer accept the same thirteen codes, refuse every other
    one with the library's exception, and agree on the width [n]: a sample
    read consumes [n] bytes of any long enough buffer and a sample written
    produces [n] bytes. *)
Theorem C10_format_dispatch_agrees : forall p e fmt,
  (In fmt [1; 2; 3; 5; 6; 7; 8; 9; 10; 11; 12; 15; 16] ->
   exists n rd wr, (1 <= n <= 8)%nat /\
     bytes_per_sample fmt = Some (Z.of_nat n) /\
     o_bytes_per_sample fmt = Some (Z.of_nat n) /\
     sample_reader p e fmt = Ok rd /\ sample_writer p e fmt = Ok wr /\
     (forall c, (n <= List.length c)%nat -> exists v, rd c = Ok (v, skipn n c)) /\
     (forall d b, wr d = Ok b -> List.length b = n /\ bytes b)) /\
  (~ In fmt [1; 2; 3; 5; 6; 7; 8; 9; 10; 11; 12; 15; 16] ->
   sample_reader p e fmt = Throw ESedaman /\ sample_writer p e fmt = Throw ESedaman).
Proof.
  intros p e fmt. split.
  - intros H. destruct (supported_ok p e fmt H) as [Hr Hw].
    destruct (sample_reader p e fmt) as [r| |] eqn:Er; try discriminate.
    destruct (sample_writer p e fmt) as [w| |] eqn:Ew; try discriminate.
    destruct (bps_agree fmt H) as (n & B1 & B2 & Hn).
    destruct (sample_reader_width p e fmt r Er) as (n1 & B3 & _ & R).
    destruct (sample_writer_width p e fmt w Ew) as (n2 & B4 & _ & W).
    assert (n1 = n) by (rewrite B1 in B3; injection B3; lia).
    assert (n2 = n) by (rewrite B2 in B4; injection B4; lia).
    subst n1 n2. exists n, r, w. auto 10.
  - intros H. destruct (fmt_cases fmt) as [I|[R W]]; [contradiction|]. auto.
Qed.

(** The refusal happens when the object is constructed. *)
Theorem C10_constructed_objects_have_a_supported_format :
  (forall p content maps ov b s, i_open p content maps ov b = Ok s ->
     In (bh_format_code (i_bh s)) [1; 2; 3; 5; 6; 7; 8; 9; 10; 11; 12; 15; 16]) /\
  (forall p t b ls s, rev0_open p t b ls = Ok s ->
     In (bh_format_code (o_bh s)) [1; 2; 3; 5; 6; 7; 8; 9; 10; 11; 12; 15; 16]) /\
  (forall p t b ls s, rev1_open p t b ls = Ok s ->
     In (bh_format_code (o_bh s)) [1; 2; 3; 5; 6; 7; 8; 9; 10; 11; 12; 15; 16]) /\
  (forall p t b st ls s, rev2_open p t b st ls = Ok s ->
     In (bh_format_code (o_bh s)) [1; 2; 3; 5; 6; 7; 8; 9; 10; 11; 12; 15; 16]).
Proof.
  repeat split; intros.
  - apply i_open_inv in H as ((r & Hr) & _). eapply reader_fmt; exact Hr.
  - apply rev0_good in H as ((w & Hw) & _). eapply writer_fmt; exact Hw.
  - apply rev1_good in H as ((w & Hw) & _). eapply writer_fmt; exact Hw.
  - apply rev2_good in H as ((w & Hw) & _). eapply writer_fmt; exact Hw.
Qed.

Example C10_case :
  In 7 [1; 2; 3; 5; 6; 7; 8; 9; 10; 11; 12; 15; 16] /\
  ~ In 4 [1; 2; 3; 5; 6; 7; 8; 9; 10; 11; 12; 15; 16] /\
  is_ok (rev0_open plat_example [] (set_format_code bin_zero 4) default_trace_header) = false /\
  is_ok (rev0_open plat_example [] (set_format_code bin_zero 7) default_trace_header) = true.
Proof. split; [cbn; tauto|]. split; [cbn; lia|]. vm_compute. split; reflexivity. Qed.

(** C28.  A marker other than 0, 0x01020304 and 0x04030201 makes the reader
    and all three writers throw.  The marker is the four bytes at offset 3296
    of the file, read on the little-endian host. *)
Theorem C28_unsupported_byte_order_refused : forall p m,
  - 2 ^ 31 <= m < 2 ^ 31 -> m <> 0 -> m <> 16909060 -> m <> 67305985 ->
  (forall content maps override b, slice 3296 4 content = le_bytes 4 m ->
     exists x, i_open p content maps override b = Throw x) /\
  (forall b, bh_endianness b = m ->
     (forall t ls, exists x, rev0_open p t b ls = Throw x) /\
     (forall ts ls, exists x, rev1_open p ts b ls = Throw x) /\
     (forall ts st ls, exists x, rev2_open p ts b st ls = Throw x)).
Proof.
  intros p m Hr H0 H1 H2. split.
  - intros content maps ov b Hs. rewrite <- le_enc_le_bytes in Hs.
    eapply i_open_bad_endian; eassumption.
  - intros b Hb. assert (E : endian_of (bh_endianness b) = Throw ESedaman).
    { rewrite Hb. apply endian_bad; assumption. }
    repeat split; intros.
    + apply rev0_bad_endian, E.
    + apply rev1_bad_endian, E.
    + apply rev2_bad_endian, E.
Qed.

Example C28_case :
  slice 3296 4 (zeros 3296 ++ [2; 1; 4; 3] ++ zeros 1000) = le_bytes 4 50594050 /\
  i_open plat_example (zeros 3296 ++ [2; 1; 4; 3] ++ zeros 1000) default_trace_header
         false bin_zero = Throw ESedaman.
Proof. vm_compute. split; reflexivity. Qed.

Print Assumptions C04_raw_integer_round_trip.
Print Assumptions C82_round_trip_partial.
Print Assumptions C82_operand_order_refuted.
Print Assumptions C05_ebcdic_ascii_round_trip.
Print Assumptions C05_ebcdic_alphanumerics.
Print Assumptions C10_format_dispatch_agrees.
Print Assumptions C10_constructed_objects_have_a_supported_format.
Print Assumptions C28_unsupported_byte_order_refused.
