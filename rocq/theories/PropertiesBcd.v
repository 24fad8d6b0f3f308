(** C01-C03: packed decimal codecs (include/util.hpp). *)
From Verif Require Import BaseFacts Bcd BcdSpec BcdFacts2.

(** C01.  Any value with at most [num] digits survives encode and decode, and
    both calls leave their pointer at the same place.  [vs] is sizeof(T).
    With [skip_first] the half byte that receives the first digit has to be
    zero before the call (see C02_bcd_dirty_nibble_refuted). *)
Theorem C01_bcd_round_trip : forall vs v skip num c,
  0 < vs <= 8 -> 0 <= v < 2 ^ (8 * vs) ->
  (1 <= num <= 12)%nat -> v < 10 ^ Z.of_nat num ->
  bytes c -> (num + lead skip <= 2 * List.length c)%nat ->
  (skip = true -> nth 1 (nibs c) 0 = 0) ->
  exists d c', to_bcd vs v skip num c = Ok (d, c') /\
    from_bcd skip num (d ++ c') = Ok (v, c').
Proof.
  intros vs v skip num c Hvs Hv Hn Hv10 Hb Hl Hs.
  destruct (bcd_roundtrip vs v skip num c) as (d & c' & E & _ & F); auto; try lia.
  - intros -> b c0 ->. exact (Hs eq_refl).
  - exists d, c'. split; [exact E|]. rewrite F. rewrite Z.mod_small by lia. reflexivity.
Qed.

(** 12 digits of an 8-byte value; 3 digits in the second half of a byte. *)
Example C01_case :
  to_bcd 8 123456789012 false 12 (repeat 170 8) =
    Ok ([18; 52; 86; 120; 144; 18], [170; 170]) /\
  to_bcd 4 365 true 3 [32; 0; 7] = Ok ([35; 101], [7]) /\
  from_bcd true 3 [35; 101; 7] = Ok (365, [7]).
Proof. vm_compute. repeat split. Qed.

(** C02.  Exactly the [num] low-order digits are stored, most significant
    first; every other half byte of the buffer is kept, except that the second
    half of a last, half-used byte is cleared. *)
Theorem C02_bcd_truncates_and_frames_partial : forall vs v skip num c,
  0 < vs <= 8 -> 0 <= v < 2 ^ (8 * vs) ->
  (1 <= num <= 12)%nat -> bytes c -> (num + lead skip <= 2 * List.length c)%nat ->
  (skip = true -> nth 1 (nibs c) 0 = 0) ->
  exists d c', to_bcd vs v skip num c = Ok (d, c') /\
    List.length d = ((num + lead skip) / 2)%nat /\
    bytes (d ++ c') /\
    nibs (d ++ c') =
      firstn (lead skip) (nibs c) ++ digits num v ++ oddpad (num + lead skip)
      ++ skipn (num + lead skip + (num + lead skip) mod 2) (nibs c).
Proof.
  intros vs v skip num c Hvs Hv Hn Hb Hl Hs.
  destruct (to_bcd_ok vs v skip num c) as (d & c' & E & L & _ & N & B); auto; try lia.
  - intros -> b c0 ->. exact (Hs eq_refl).
  - exists d, c'. auto.
Qed.

Example C02_case :
  to_bcd 4 98765 false 3 [1; 2; 3] = Ok ([118], [80; 3]) /\
  nibs [118; 80; 3] = [7; 6; 5; 0; 0; 3].
Proof. vm_compute. repeat split. Qed.

(** The unrestricted statement is false: with [skip_first] the digit is OR-ed
    into the half byte, so leftovers of earlier contents change the number. *)
Theorem C02_bcd_dirty_nibble_refuted :
  exists v c d c', 0 <= v < 10 /\ bytes c /\
    to_bcd 4 v true 1 c = Ok (d, c') /\
    nth 1 (nibs (d ++ c')) 0 <> v /\
    from_bcd true 1 (d ++ c') <> Ok (v, c').
Proof.
  exists 2, [1], [3], []. vm_compute.
  repeat split; try discriminate. constructor; [split; [discriminate|reflexivity]|constructor].
Qed.

(** C03.  Decoding is positional for arbitrary half bytes, including A-F. *)
Theorem C03_bcd_decode_positional : forall skip num c,
  (1 <= num)%nat -> bytes c -> (num + lead skip <= 2 * List.length c)%nat ->
  from_bcd skip num c =
  Ok (pos_value (firstn num (skipn (lead skip) (nibs c))),
      skipn ((num + lead skip) / 2) c).
Proof. intros; apply from_bcd_ok; auto. Qed.

Example C03_case :
  from_bcd true 4 [18; 63; 165; 9] = Ok (2000 + 300 + 150 + 10, [165; 9]).
Proof. vm_compute. reflexivity. Qed.

Print Assumptions C01_bcd_round_trip.
Print Assumptions C02_bcd_truncates_and_frames_partial.
Print Assumptions C02_bcd_dirty_nibble_refuted.
Print Assumptions C03_bcd_decode_positional.
