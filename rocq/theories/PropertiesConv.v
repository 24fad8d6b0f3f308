(** C95: converting a SEG-D file to SEG-Y. *)
From Coq Require Import Reals.
From Flocq Require Import Core.
From Verif Require Import BaseFacts Platform Fp CodecSpec FpSpec FpReal SampleReal TraceHdr SegyTypes LayoutSpec LayoutFacts ISegy OSegy
  RoundSpec SegyDecSpec SegyDecFacts FileSpec SegyEncSpec SegyEncFacts5 SegdTypes SegdSpec SegdDecSpec SegdTrcSpec SegdReadSpec ISegd
  SegdTrcExamples SegdExamples ConvSpec ConvFacts ConvFacts2 PropertiesSegdTrc PropertiesRound PropertiesSegyEnc.
Local Open Scope string_scope.
Local Open Scope list_scope.
Local Open Scope Z_scope.

(** C95.  A client reads a SEG-D file of revision below 3 trace by trace and
    writes every trace with a SEG-Y writer.  When the program ends, the SEG-Y
    file holds one trace per SEG-D trace, in the same order and without gaps;
    the header fields hold the integers that the SEG-D headers have under the
    names of the fields, and the samples are the descaled words of the SEG-D
    trace in the sample format of the SEG-Y file.

    Partial: seven sample formats, no layouts for the SEG-D header extensions,
    whole descale exponents. *)
Theorem C95_convert_partial : forall p b w bh ls s l fuel c,
  p_left_first p = true -> pow_typed p -> sane_alloc p -> convertible p b w bh ls s l ->
  convert p b w bh ls fuel = Ok c ->
  exists o, order_asked (bh_endianness bh) = Some o /\
    let fmt := bh_format_code (with_dflt w bh) in let n := header_count w bh in
    let size := conv_sizes (own_count w bh) (bh_samp_per_tr bh mod 2 ^ 16) (240 * n) fmt in
    (forall l1 x l2, l = l1 ++ x :: l2 -> carries p o fmt ls n c (3600 + 3200 * len (ext_texts w) + size l1) b (fst x)) /\
    len c = 3600 + 3200 * len (ext_texts w) + size l.
Proof.
  intros p b w bh ls s l fuel c Hp Pw HA (Hb & Hl & Hr & Ho & V & F & HS & Ln & Hbin) E.
  exact (converted p b w bh ls s l fuel c Hp Pw HA Hb Hl Hr Ho V F HS Ln Hbin E).
Qed.
Print Assumptions C95_convert_partial.

(** With the default layout field file number, channel and number of samples of
    the SEG-D trace are at their places in the SEG-Y header. *)
Theorem C95_default_layout_partial : forall p b w bh s l1 x l2 fuel c,
  p_left_first p = true -> pow_typed p -> sane_alloc p -> convertible p b w bh default_trace_header s (l1 ++ x :: l2) ->
  convert p b w bh default_trace_header fuel = Ok c ->
  exists o, order_asked (bh_endianness bh) = Some o /\
    let pos := 3600 + 3200 * len (ext_texts w) + conv_sizes (own_count w bh) (bh_samp_per_tr bh mod 2 ^ 16) (240 * header_count w bh)
                 (bh_format_code (with_dflt w bh)) l1 in
    let th := th_at (fst x) in
    unsg c o (pos + 9) (pos + 12) = (if big th 17 3 =? 0 then dec th 0 4 else big th 17 3) /\
    unsg c o (pos + 13) (pos + 16) = dec th 8 4 /\
    unsg c o (pos + 115) (pos + 116) = smp_num (fst x) mod 2 ^ 16.
Proof. exact default_conv. Qed.
Print Assumptions C95_default_layout_partial.

(** Samples that are single precision numbers arrive unchanged in IEEE files of
    either precision. *)
Theorem C95_exact_partial : forall p b w bh ls s l1 x l2 fuel c,
  p_left_first p = true -> pow_typed p -> sane_alloc p -> convertible p b w bh ls s (l1 ++ x :: l2) ->
  convert p b w bh ls fuel = Ok c ->
  exists o cs, order_asked (bh_endianness bh) = Some o /\ in_table (fst x) cs /\
    let fmt := bh_format_code (with_dflt w bh) in let n := header_count w bh in let fd := g1_format_code (d_g1 (fst x)) in
    let pos := 3600 + 3200 * len (ext_texts w) + conv_sizes (own_count w bh) (bh_samp_per_tr bh mod 2 ^ 16) (240 * n) fmt l1 in
    forall m j wd r v, holds (c_descale cs) (IZR m) -> -31 <= m <= 31 ->
      nth_error (words (skipn (Z.to_nat (smp_at (fst x))) b) (sample_bytes fd) (Z.to_nat (smp_num (fst x)))) j = Some wd ->
      word_real fd wd r -> is_flt v -> flt_finite v = true -> flt_val v = (r * powerRZ 2 m)%R ->
      let u := uval o (slice (pos + 240 * n + sample_width fmt * Z.of_nat j) (sample_width fmt) c) in
      (fmt = 5 -> flt_finite u = true /\ flt_val u = (r * powerRZ 2 m)%R) /\ (fmt = 6 -> holds u (r * powerRZ 2 m)%R).
Proof.
  intros p b w bh ls s l1 x l2 fuel c Hp Pw HA C E.
  destruct (C95_convert_partial p b w bh ls s (l1 ++ x :: l2) fuel c Hp Pw HA C E) as (o & Or & K & _). cbv zeta in *.
  destruct (K l1 x l2 eq_refl) as (_ & cs & T & S). exists o, cs. split; [exact Or|]. split; [exact T|].
  intros m j wd r v Hm Rm Ew Hr D F Ev. destruct (S m j wd r Hm Rm Ew Hr) as (d & Hd & St).
  - exists (f2d v). rewrite <- Ev. apply (f2d_finite v D F).
  - exact (exact_sample _ _ _ _ _ _ _ Hd St D F Ev).
Qed.
Print Assumptions C95_exact_partial.

(** Conversely, the program succeeds with a binary header that is not blank and
    an IEEE format, if no layout asks for a number that the SEG-D header has as
    a fixed point number and there is room for the samples of every trace. *)
Theorem C95_succeeds_partial : forall p b w bh ls s l fuel o,
  p_left_first p = true -> pow_typed p -> sane_alloc p -> 2 ^ 27 <= p_max_alloc p -> convertible p b w bh ls s l ->
  ls <> [] -> ~ blank w bh -> bh_format_code (with_dflt w bh) = 5 \/ bh_format_code (with_dflt w bh) = 6 ->
  w_open p w bh ls = Ok o -> Forall (fun x => storable ls (fst x) /\ room w bh (fst x)) l -> (List.length l <= fuel)%nat ->
  exists c, convert p b w bh ls fuel = Ok c.
Proof.
  intros p b w bh ls s l fuel o Hp Pw HA Ha (Hb & Hl & Hr & Ho & V & F & HS & Ln & Hbin) Nn Nb Hf Eo St Lf.
  exact (converts p b w bh ls s l fuel o Hp Pw HA Ha Hb Hl Hr Ho V F HS Nn Ln Hbin Nb Hf Eo St Lf).
Qed.
Print Assumptions C95_succeeds_partial.

(** C95, refuted: the first trace without room is undefined behaviour: more
    samples than the binary header declares are written past the end of the
    buffer, and the number of samples of a trace without header extension is
    fetched from an empty optional. *)
Theorem C95_no_room_refuted : forall p b w bh ls s l1 x l2 fuel o,
  p_left_first p = true -> pow_typed p -> sane_alloc p -> 2 ^ 27 <= p_max_alloc p -> convertible p b w bh ls s (l1 ++ x :: l2) ->
  ls <> [] -> ~ blank w bh -> bh_format_code (with_dflt w bh) = 5 \/ bh_format_code (with_dflt w bh) = 6 ->
  w_open p w bh ls = Ok o -> Forall (fun x => storable ls (fst x) /\ room w bh (fst x)) l1 ->
  storable ls (fst x) -> ~ room w bh (fst x) -> (List.length (l1 ++ x :: l2) <= fuel)%nat ->
  convert p b w bh ls fuel = UB.
Proof.
  intros p b w bh ls s l1 x l2 fuel o Hp Pw HA Ha (Hb & Hl & Hr & Ho & V & F & HS & Ln & Hbin) Nn Nb Hf Eo St Sx Rx Lf.
  exact (no_room p b w bh ls s l1 x l2 fuel o Hp Pw HA Ha Hb Hl Hr Ho V F HS Nn Ln Hbin Nb Hf Eo St Sx Rx Lf).
Qed.
Print Assumptions C95_no_room_refuted.

(** C95, refuted: a layout of the first header block that has a field for a
    fixed point number of the SEG-D header (start of the first timing word,
    sample skew, time break window, extended receiver numbers) can never be
    filled. *)
Theorem C95_fixed_point_refuted : forall p b w bh nm lay rest s l fuel x en,
  p_left_first p = true -> pow_typed p -> convertible p b w bh ((nm, lay) :: rest) s l ->
  In x l -> In en lay -> In (e_name en) (fixed_points (fst x)) -> forall c, convert p b w bh ((nm, lay) :: rest) fuel <> Ok c.
Proof.
  intros p b w bh nm lay rest s l fuel x en Hp Pw (Hb & Hl & Hr & Ho & V & F & HS & Ln & Hbin) Ix Ie If.
  exact (not_storable p b w bh _ nm lay rest s x l fuel en Hp Pw Hb Hl Hr Ho V F Ix eq_refl Ln Ie If).
Qed.
Print Assumptions C95_fixed_point_refuted.

(** C95, refuted: no SEG-D trace has a sampling interval, so a blank binary
    header, which the first trace is to complete, is undefined behaviour. *)
Theorem C95_blank_refuted : forall p b w bh ls s x l fuel o,
  p_left_first p = true -> pow_typed p -> p_pad_eq p = true -> convertible p b w bh ls s (x :: l) ->
  to_complete w bh -> w_open p w bh ls = Ok o -> smp_num (fst x) < 2 ^ 15 -> (1 <= fuel)%nat -> convert p b w bh ls fuel = UB.
Proof.
  intros p b w bh ls s x l fuel o Hp Pw Hq (Hb & Hl & Hr & Ho & V & F & _) C Eo N Lf.
  pose proof (all_seen p b s _ Hp Pw Hb Hl Hr Ho V F) as S. inversion S as [|? ? S1 _]; subst.
  unfold convert. rewrite Ho. cbn [bind]. rewrite Eo. cbn [bind]. destruct fuel as [|k]; [lia|].
  inversion V as [|? t s1 ? Ht Er _]; subst. cbn [fst snd] in *. cbn [conv_loop]. rewrite Ht, Er. cbn [bind].
  rewrite (C90_missing_name_refuted p w bh ls t o Hq C Eo); [reflexivity|].
  pose proof (seen_interval _ _ _ _ S1) as Q. destruct S1 as (_ & _ & _ & _ & Sn & _).
  destruct (byt (th_at s) 9 =? 0); [left; exact Sn|right]. eauto.
Qed.
Print Assumptions C95_blank_refuted.

(** Two records of IEEE samples, descaled by two: three traces with 2, 1 and 2
    samples, field file number 1, channels 1. *)
Definition conv_bin : bin_hdr := set_rev (set_samp_int (set_format_code bin_zero 5) 4) 1 0 0.
Definition conv_states : list (isegd * trace) :=
  map (fun s => (s, got s)) [opened ex_8058; after (opened ex_8058); after (after (opened ex_8058))].
Lemma conv_ex w bh ls : safe_layouts ls -> len (given_texts w) <= 65536 -> bin_ok bh = true ->
  convertible segd_plat ex_8058 w bh ls (opened ex_8058) conv_states.
Proof.
  intros A B C. split; [exact ex_8058_bytes|]. split; [vm_compute; reflexivity|]. split; [right; vm_compute; reflexivity|].
  split; [vm_compute; reflexivity|]. split; [|split; [|auto]].
  - unfold conv_states. cbn [map]. repeat (eapply visits_next; [vm_compute; reflexivity|vm_compute; reflexivity|]).
    apply visits_end. vm_compute. reflexivity.
  - unfold conv_states. cbn [map]. repeat (apply Forall_cons); [..|apply Forall_nil]; (split; [vm_compute; tauto|]); cbn [fst]; intros H;
      [exfalso; vm_compute in H; discriminate|right; vm_compute; reflexivity|].
    left. vm_compute. lia.
Qed.
Lemma segd_pow : pow_typed segd_plat.
Proof. intros x. vm_compute. split; congruence. Qed.
Example C95_case : pow_typed segd_plat /\ sane_alloc segd_plat /\
  convertible segd_plat ex_8058 (W1 []) conv_bin default_trace_header (opened ex_8058) conv_states /\
  (let* c := convert segd_plat ex_8058 (W1 []) conv_bin default_trace_header 3 in
   Ok (len c, slice 3608 8 c, slice 3714 2 c, slice 3840 8 c, slice (3848 + 8) 8 c, slice (3848 + 114) 2 c, slice (3848 + 240) 4 c, slice (4092 + 240) 8 c)) =
  Ok (4340, [0; 0; 0; 1; 0; 0; 0; 1], [0; 2], [0x40; 0; 0; 0; 0xc0; 0xa0; 0; 0], [0; 0; 0; 1; 0; 0; 0; 1], [0; 1], [0x40; 0; 0; 0],
      [0x40; 0; 0; 0; 0xc0; 0xa0; 0; 0]).
Proof.
  split; [exact segd_pow|]. split; [split; vm_compute; congruence|].
  split; [apply conv_ex; [exact default_safe|vm_compute; congruence|vm_compute; reflexivity]|]. vm_compute. reflexivity.
Qed.

(** The same file meets the hypotheses of success. *)
Definition storable_b (ls : layouts) (s : isegd) : bool :=
  forallb (fun x => forallb (fun en => negb (existsb (String.eqb (e_name en)) (fixed_points s)) &&
    match e_type en with Ibm => false | _ => true end) (snd x)) ls.
Lemma storable_by ls s : storable_b ls s = true -> storable ls s.
Proof.
  intros H nm l en I J. unfold storable_b in H. rewrite forallb_forall in H. specialize (H _ I). rewrite forallb_forall in H.
  specialize (H en J). apply andb_prop in H as (H1 & H2). split; [|destruct (e_type en); discriminate].
  intros K. apply negb_true_iff in H1. assert (Q : existsb (String.eqb (e_name en)) (fixed_points s) = true).
  { apply existsb_exists. exists (e_name en). split; [exact K|apply String.eqb_refl]. }
  congruence.
Qed.
Example C95_succeeds_case : ~ blank (W1 []) conv_bin /\ bh_format_code (with_dflt (W1 []) conv_bin) = 5 /\
  (exists o, w_open segd_plat (W1 []) conv_bin default_trace_header = Ok o) /\
  Forall (fun x => storable default_trace_header (fst x) /\ room (W1 []) conv_bin (fst x)) conv_states.
Proof.
  split; [intros H; vm_compute in H; discriminate|]. split; [reflexivity|]. split.
  { assert (Q : is_ok (w_open segd_plat (W1 []) conv_bin default_trace_header) = true) by (vm_compute; reflexivity).
    destruct (w_open segd_plat (W1 []) conv_bin default_trace_header) as [o| |]; [eauto|discriminate Q..]. }
  unfold conv_states. cbn [map]. repeat apply Forall_cons; [..|apply Forall_nil];
    (split; [apply storable_by; vm_compute; reflexivity|vm_compute; congruence]).
Qed.

(** A header that declares one sample per trace: the first trace has two. *)
Definition conv_one : bin_hdr := set_rev (set_samp_per_tr (set_format_code bin_zero 5) 1) 1 1 0.
Example C95_no_room_case : storable default_trace_header (opened ex_8058) /\ ~ room (W1 []) conv_one (opened ex_8058) /\ ~ blank (W1 []) conv_one /\
  convert segd_plat ex_8058 (W1 []) conv_one default_trace_header 3 = UB.
Proof.
  split; [apply storable_by; vm_compute; reflexivity|]. split; [vm_compute; intros H; apply H; reflexivity|].
  split; [intros H; vm_compute in H; discriminate|]. vm_compute. reflexivity.
Qed.

(** A layout with a field for the first timing word. *)
Definition conv_skew : layouts := [("SEG00000", [(8, ("FFID", I32)); (100, ("FIRST_TIMING_WORD", I32))])].
Example C95_fixed_point_case : safe_layouts conv_skew /\ In "FIRST_TIMING_WORD" (fixed_points (opened ex_8058)) /\
  convert segd_plat ex_8058 (W1 []) conv_bin conv_skew 3 = Throw EVariant.
Proof.
  split; [|split; [left; reflexivity|vm_compute; reflexivity]].
  intros nm l [Q|[]]. injection Q as <- <-. split; [intros en [<-|[<-|[]]]; split; cbn; lia|].
  intros i j a b Ea Eb N. destruct i as [|[|i]], j as [|[|j]]; cbn in Ea, Eb; try congruence; try (destruct i; discriminate); try (destruct j; discriminate);
    injection Ea as <-; injection Eb as <-; unfold apart; cbn; lia.
Qed.

(** The blank header of the default arguments. *)
Example C95_blank_case : to_complete (W1 []) bin_zero /\ smp_num (opened ex_8058) < 2 ^ 15 /\
  convert segd_plat ex_8058 (W1 []) bin_zero default_trace_header 3 = UB.
Proof. split; [split; reflexivity|]. split; vm_compute; reflexivity. Qed.
