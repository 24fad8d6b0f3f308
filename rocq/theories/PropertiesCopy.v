(** C62: a copy of a SEG-Y file. *)
From Coq Require Import Reals.
From Verif Require Import BaseFacts Platform Fp FpSpec TraceHdr SegyTypes SegyCodec CodecSpec LayoutSpec LayoutFacts ISegy OSegy BinFacts
     RoundSpec ReadSpec SegyDecSpec SegyDecFacts SegyDecFacts4 FileSpec SegyEncSpec SegyEncFacts5 CopySpec CopyFacts4
     PropertiesCodec PropertiesRound PropertiesRead PropertiesSegyDec.
Local Open Scope Z_scope.

(** C62.  Reading a SEG-Y file completely and writing what was read with the
    writer of its revision gives the same file, byte by byte, provided that the
    file holds only what the reader shows and the writer stores: *)
Theorem C62_copy_partial : forall p content nm l ls s fuel ts s1 o, sane_alloc p -> p_left_first p = true ->
  bytes content -> len content < 2 ^ 63 ->
  safe_layout l -> NoDup (names l) -> integers l -> short_count ((nm, l) :: ls) ->
  isegy_open p content ((nm, l) :: ls) = Ok s -> read_all p fuel s = Ok (ts, s1) ->
  order_in content = Some o -> plain content (i_bh s) (i_text s) ->
  tidy p o (bh_format_code (i_bh s)) l content (first_at (i_bh s) (len (i_text s))) ts ->
  copy p content ((nm, l) :: ls) fuel = Ok content.
Proof.
  intros p content nm l ls s fuel ts s1 o A Hp B L Sf N Ints Sc O Ra Or Pl Ti.
  assert (Op : opened p content ((nm, l) :: ls) s) by (left; exact O).
  rewrite <- (open_first _ _ _ _ Op) in Ti. pose proof O as O'. unfold isegy_open in O'.
  rewrite (open_order _ _ _ _ _ _ B O') in Or. injection Or as <-.
  destruct (C25_extended_text_headers p content ((nm, l) :: ls) s Op) as (bs & T1 & T2 & _ & T3 & _).
  destruct (copy_file p content nm l ls s fuel ts s1) as (s2 & s3 & W & Wt & D & Cl); try assumption.
  { exists bs. auto. }
  unfold copy. rewrite O. cbn [bind]. rewrite Ra. cbn [bind]. cbv zeta. rewrite W. cbn [bind]. rewrite Wt. cbn [bind].
  destruct (writer_for (i_bh s) (i_text s)); [rewrite D; reflexivity|rewrite D; reflexivity|].
  rewrite Cl. reflexivity.
Qed.
Print Assumptions C62_copy_partial.

(** A file with traces of both lengths, 24-bit samples, revision 1, an extended
    text header. *)
Definition copy_bin : bin_hdr := set_rev (set_format_code bin_zero 7) 1 0 1.
Definition copy_rec (a n : Z) (smp : list Z) : list Z :=
  [0; a] ++ zeros 112 ++ [0; n; 3; 232] ++ zeros 122 ++ smp.
Definition copy_example : list Z :=
  blank_text ++ bin_block Swapped copy_bin ++ text_example 65 ++
  copy_rec 7 2 [0; 0; 1; 127; 255; 255] ++ copy_rec 8 0 [] ++ copy_rec 9 1 [1; 2; 3].

Lemma num_integers : integers lay_num.
Proof. intros en H. repeat (destruct H as [<-|H]; [discriminate|]). contradiction. Qed.
Lemma num_short : short_count maps_num.
Proof.
  intros n l en [E|[]] H _. injection E as _ <-. repeat (destruct H as [<-|H]; [vm_compute; discriminate|]). contradiction.
Qed.
Lemma zero_outside l c pos :
  forallb (fun i => existsb (fun en => (e_off en <=? i) && (i <? e_off en + width (e_type en))) l ||
                    match nth_error c (Z.to_nat (pos + i)) with Some x => x =? 0 | None => false end)
          (map Z.of_nat (seq 0 240)) = true ->
  forall i, 0 <= i < 240 -> ~ covered l i -> nth_error c (Z.to_nat (pos + i)) = Some 0.
Proof.
  intros H i Hi Nc. rewrite forallb_forall in H. specialize (H i). apply orb_prop in H as [H|H].
  - exfalso. apply existsb_exists in H as (en & I & H). apply Nc. exists en. split; [exact I|lia].
  - destruct (nth_error c _) as [x|]; [|discriminate]. apply Z.eqb_eq in H. congruence.
  - apply in_map_iff. exists (Z.to_nat i). split; [lia|]. apply in_seq. lia.
Qed.

Example C62_case : exists s ts s1, isegy_open plat_example copy_example maps_num = Ok s /\
  read_all plat_example 4 s = Ok (ts, s1) /\ map show_num ts =
    [([Some (VInt 7); Some (VInt 2)], [i2d 1; i2d 8388607]); ([Some (VInt 8); Some (VInt 0)], []);
     ([Some (VInt 9); Some (VInt 1)], [i2d 66051])] /\
  order_in copy_example = Some Big /\ plain copy_example (i_bh s) (i_text s) /\
  tidy plat_example Big (bh_format_code (i_bh s)) lay_num copy_example (first_at (i_bh s) (len (i_text s))) ts /\
  safe_layout lay_num /\ NoDup (names lay_num) /\ integers lay_num /\ short_count maps_num /\
  copy plat_example copy_example maps_num 4 = Ok copy_example.
Proof.
  destruct (isegy_open plat_example copy_example maps_num) as [s| |] eqn:E; [|vm_compute in E; discriminate..].
  destruct (read_all plat_example 4 s) as [[ts s1]| |] eqn:R.
  2,3: exfalso; vm_compute in E; injection E as <-; vm_compute in R; discriminate.
  exists s, ts, s1. split; [reflexivity|]. split; [exact R|].
  assert (X : map show_num ts = [([Some (VInt 7); Some (VInt 2)], [i2d 1; i2d 8388607]); ([Some (VInt 8); Some (VInt 0)], []);
     ([Some (VInt 9); Some (VInt 1)], [i2d 66051])] /\ map (fun t => len (t_smp t)) ts = [2; 0; 1] /\
     bh_format_code (i_bh s) = 7 /\ len (i_text s) = 2 /\ i_bh s = copy_bin).
  { vm_compute in E. injection E as <-. vm_compute in R. injection R as <- <-. vm_compute. repeat split. }
  destruct X as (X1 & X2 & X3 & X4 & X5). rewrite X3, X4, X5 in *. clear R E.
  split; [exact X1|]. split; [vm_compute; reflexivity|]. split.
  { unfold plain. rewrite X4. split; [vm_compute; reflexivity|]. split; [vm_compute; reflexivity|].
    split; [intros _; vm_compute; reflexivity|]. split; [vm_compute; discriminate|].
    split; [reflexivity|]. split; [reflexivity|]. split; [vm_compute; reflexivity|]. split; [discriminate|].
    split; [discriminate|lia]. }
  split.
  { destruct ts as [|t1 [|t2 [|t3 [|t4 ts]]]]; try discriminate. injection X2 as L1 L2 L3.
    change (first_at copy_bin 2) with 6800. cbn [tidy]. rewrite L1, L2, L3.
    Ltac keep := match goal with |- forall i, 0 <= i < ?n -> _ => intros i Hi; assert (Q : i = 0 \/ i = 1) by lia;
       destruct Q as [-> | ->]; try lia; left; vm_compute; discriminate end.
    split; [apply zero_outside; vm_compute; reflexivity|]. split; [keep|].
    split; [apply zero_outside; vm_compute; reflexivity|]. split; [intros; lia|].
    split; [apply zero_outside; vm_compute; reflexivity|]. split; [keep|exact I]. }
  split; [apply lay_num_safe|]. split; [apply lay_num_safe|]. split; [exact num_integers|]. split; [exact num_short|].
  vm_compute. reflexivity.
Qed.

(** The copy of every big-endian file that carries the byte order marker
    01 02 03 04 says of itself that it is little-endian, although its numbers
    are still stored in big-endian order. *)
Theorem C62_marked_big_endian_refuted : forall p content ls w s ts s2 s3, bytes content -> len (given_texts w) <= 65536 ->
  isegy_open p content ls = Ok s -> slice 3296 4 content = [1; 2; 3; 4] ->
  w_open p w (i_bh s) ls = Ok s2 -> write_traces p s2 ts = Ok s3 ->
  order_in content = Some Big /\ order_in (fdata (o_file s3)) = Some Little.
Proof.
  intros p content ls w s ts s2 s3 B Lw O M W Wt.
  assert (Q : order_in content = Some Big) by (unfold order_in; rewrite M; reflexivity). split; [exact Q|].
  unfold isegy_open in O. apply ReadFacts3.open_parts in O as (_ & (c & F) & _).
  pose proof (OpenFacts.fill_endianness _ _ _ _ _ F) as Me. rewrite OpenFacts.bh_endianness_set in Me.
  unfold marker in Me. rewrite M in Me. change (wraps 32 (le_dec [1; 2; 3; 4])) with 67305985 in Me.
  exact (third_marker p w (i_bh s) ls ts s2 s3 Lw Me W Wt).
Qed.
Print Assumptions C62_marked_big_endian_refuted.

(** Each of the other conditions is needed: these files are read and copied
    without an error, and the copy differs. *)
Definition copy_differs (c : list Z) (ls : layouts) : Prop := exists x, copy plat_example c ls 10 = Ok x /\ x <> c.
Definition plain_bin (fmt : Z) : bin_hdr := set_samp_per_tr (set_rev (set_format_code bin_zero fmt) 2 1 0) 1.
Definition copy_of (b : bin_hdr) (rest : list Z) : list Z := blank_text ++ bin_block Swapped b ++ rest.
Definition spoil (i x : Z) (c : list Z) : list Z := firstn (Z.to_nat i) c ++ [x] ++ skipn (Z.to_nat (i + 1)) c.
Theorem C62_copy_refuted :
  (* nothing special: the copy is the file *)
  (let c := copy_of (plain_bin 8) (copy_rec 1 1 [5]) in copy plat_example c maps_num 10 = Ok c) /\
  (* a byte in the unassigned part of the binary header *)
  copy_differs (spoil 3400 1 (copy_of (plain_bin 8) (copy_rec 1 1 [5]))) maps_num /\
  (* a byte of the trace header outside of the fields *)
  copy_differs (spoil 3800 1 (copy_of (plain_bin 8) (copy_rec 1 1 [5]))) maps_num /\
  (* the last bytes of a standard trace header and the standard layout *)
  copy_differs (spoil 3835 1 (copy_of (plain_bin 8) (copy_rec 1 1 [5]))) default_trace_header /\
  (* an additional trace header *)
  copy_differs (copy_of (set_add (plain_bin 8) 1 0) (copy_rec 1 1 (zeros 240 ++ [5]))) maps_two /\
  (* a 64-bit sample that is not a double *)
  copy_differs (copy_of (plain_bin 9) (copy_rec 1 1 [0; 32; 0; 0; 0; 0; 0; 1])) maps_num /\
  (* an IBM number that is not normalised *)
  copy_differs (copy_of (plain_bin 1) (copy_rec 1 1 [66; 1; 0; 0])) maps_num.
Proof.
  split; [vm_compute; reflexivity|].
  repeat match goal with |- _ /\ _ => split end.
  all: match goal with |- copy_differs ?c ?ls =>
    let x := eval vm_compute in (copy plat_example c ls 10) in
    match x with Ok ?y => exists y; split; [vm_compute; reflexivity|vm_compute; discriminate] end end.
Qed.
Print Assumptions C62_copy_refuted.

(** A layout with a real number in it: what was read cannot be written. *)
Theorem C62_real_field_refuted :
  copy plat_example (copy_of (plain_bin 8) (copy_rec 1 1 [5])) [("SEG00000", [(0, ("SAMP_NUM", I16)); (4, ("X", F32))])]%string 10 =
  Throw EVariant.
Proof. vm_compute. reflexivity. Qed.
Print Assumptions C62_real_field_refuted.
