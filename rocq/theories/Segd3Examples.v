(** Example files of SEG-D revision 3. *)
From Coq Require Import Reals Lra.
From Verif Require Import BaseFacts Bcd BcdSpec Platform CodecSpec Fp FpSpec TraceHdr SegyTypes SegyCodec ISegy
  SegdTypes SegdSpec SegdDecSpec SegdTrcSpec SegdReadSpec Segd3Spec Segd3TrcSpec ISegd SegdOpenFacts Segd3Facts Segd3Props FpReal SampleReal SegdExamples SegdTrcExamples.
Local Open Scope Z_scope.

(** ** A file of revision 3 *)

(** General header 1 of format 8058 with [a] additional blocks, two scan types
    of one channel set and one skew block, [d] extended and [e] external
    blocks. *)
Definition head3 (a d e : Z) : list Z :=
  [0x00; 0x01; 0x80; 0x58; 0; 0; 0; 0; 0; 0; 0x26; 16 * a; 0x01; 0; 0; 0; 0; 0; 0; 0; 0; 0; 32; 0; 0; 0x80; 0;
   0x02; 0x01; 0x01; d; e].
(** General header 2: 2 extended blocks, 3 trailer blocks, record length 70000,
    record set 7, 13 additional blocks, sampling interval 500, 1 external block. *)
Definition two3 : list Z :=
  [0; 0; 1; 0; 2; 0; 0; 2; 0; 0; 3; 0; 0; 0; 0; 3; 0; 1; 0x11; 0x70; 0; 7; 0; 13; 0; 1; 0xf4; 0; 0; 1; 0; 2].
Definition three3 : list Z := map Z.of_nat (seq 1 31) ++ [3].
(** A vibrator: line 5.5, point 6.25, phase angle -2, offsets 258, 772, 1286,
    1800; the client "AB"; a position with depth [z]. *)
Definition vib3 (line : list Z) : list Z :=
  [0; 0; 1] ++ line ++ [0; 0; 6; 0x40; 0; 1; 2; 3; 0xff; 0xfe; 4; 5; 6; 7; 8; 1; 2; 3; 4; 5; 6; 7; 8; 0x15].
Definition client3 : list Z := [65; 66] ++ repeat 32 29 ++ [0x12].
Definition pos3 (z : Z) : list Z := repeat 1 24 ++ [0; 0; 0; z; 0; 1; 2; 0x50].
(** A channel set of [n] channels with 2 samples, descale multiplier [d] and
    filter delay 300; 1.0 is 3f800000. *)
Definition set3_with (d : list Z) (n : Z) : list Z :=
  [0x01; 0; 1; 0x10; 0; 0; 0; 0; 0; 0; 0x10; 0; 0; 0; 0; 2] ++ d ++ [0; 0; n; 0; 1; 0xf4; 1; 1; 0x12; 1; 2; 0] ++
  repeat 1 28 ++ [1; 2; 0; 0; 0; 0; 1; 44] ++ repeat 65 27 ++ [0x30].
Definition set3 : Z -> list Z := set3_with [0x3f; 0x80; 0; 0].
Definition sets3 : list Z := set3 2 ++ repeat 9 32 ++ set3 1 ++ repeat 9 32.

Definition ex3 : list Z :=
  head3 5 0xff 1 ++ two3 ++ three3 ++ vib3 [0; 0; 5; 0x80; 0] ++ client3 ++ pos3 9 ++ sets3 ++
  repeat 0x11 64 ++ repeat 0x22 32.

Lemma bytes_check l : forallb (fun x => (0 <=? x) && (x <? 256)) l = true -> bytes l.
Proof.
  rewrite forallb_forall. intros H. apply Forall_forall. intros x Hx. specialize (H x Hx). unfold is_byte. lia.
Qed.

Example ex3_ok : bytes ex3 /\ len ex3 < 2 ^ 63 /\ rev3 ex3 /\ 2 <= add_of ex3 < 15 /\ byt ex3 31 <> 255 /\
  traces3_at ex3 = 544 /\ len ex3 = 544 /\ dec ex3 4 4 = 8058.
Proof.
  split; [apply bytes_check; vm_compute; reflexivity|]. split; [vm_compute; reflexivity|].
  split; [split; [vm_compute; discriminate|vm_compute; discriminate]|].
  split; [split; [vm_compute; discriminate|vm_compute; reflexivity]|]. split; [vm_compute; discriminate|].
  split; [vm_compute; reflexivity|]. split; vm_compute; reflexivity.
Qed.

(** The same without descale multiplier, and traces: header for scan type [t],
    channel [c] and [e] extension blocks; an extension block with [n] samples,
    receiver line [line] and 7.5, point 6, trace number 70000. *)
Definition sets3z : list Z := set3_with [0; 0; 0; 0] 2 ++ repeat 9 32 ++ set3_with [0; 0; 0; 0] 1 ++ repeat 9 32.
Definition hdr3 (t : Z) (c : list Z) (e : Z) : list Z := [0; 1; t; 0x01] ++ c ++ [0; 0; 0; e] ++ repeat 0 10.
Definition ext3 (line : list Z) (n : list Z) : list Z :=
  [0; 0; 5; 0; 0; 6; 1; 2; 3; 4] ++ line ++ [0; 0; 0; 0; 0; 8; 1; 0x11; 0x70] ++ n ++ [9; 0; 10; 0].
Definition line75 : list Z := [0; 0; 7; 0x80; 0].
Definition one25 : list Z := [0x3f; 0x80; 0; 0; 0xc0; 0x20; 0; 0].
Definition ex3t (sets traces : list Z) : list Z := head3 2 0 0 ++ two3 ++ three3 ++ sets ++ traces.
Definition traces3 : list Z :=
  hdr3 1 [0; 1] 1 ++ ext3 line75 [0; 0; 0; 2] ++ one25 ++ hdr3 1 [0; 2] 0 ++ one25 ++
  hdr3 2 [0xff; 0xff] 1 ++ ext3 line75 [0; 0; 0; 1] ++ firstn 4 one25.

Definition ex3z : list Z := ex3t sets3z traces3.
Lemma ex3z_bytes : bytes ex3z.
Proof. apply bytes_check; vm_compute; reflexivity. Qed.
Lemma ex3z_1 : reader3 segd_plat ex3z (opened ex3z).
Proof. apply reader3_open; [split; [vm_compute; discriminate|vm_compute; discriminate]|vm_compute; reflexivity]. Qed.
Lemma ex3z_2 : reader3 segd_plat ex3z (after (opened ex3z)).
Proof.
  apply (reader3_next _ _ (opened ex3z) (got (opened ex3z))); [exact ex3z_1|vm_compute; reflexivity|].
  intros H; vm_compute in H; discriminate.
Qed.
Lemma ex3z_3 : reader3 segd_plat ex3z (after (after (opened ex3z))).
Proof.
  apply (reader3_next _ _ (after (opened ex3z)) (got (after (opened ex3z)))); [exact ex3z_2|vm_compute; reflexivity|].
  intros H; vm_compute in H; discriminate.
Qed.
