(** C30 and C79: the text header argument of the writers. *)
From Verif Require Import BaseFacts Platform Fp TraceHdr SegyTypes SegyCodec Ebcdic ISegy OSegy CodecSpec LayoutSpec BinFacts
     WriterFacts RoundSpec FileSpec PropertiesCodec PropertiesLayout PropertiesRound.

(** A text header or trailer stanza of the wrong size among the arguments. *)
Definition wrong_size (w : writer) : Prop :=
  match w with
  | W0 txt => txt <> [] /\ len txt <> 3200
  | W1 txts => Exists (fun t => len t <> 3200) txts
  | W2 txts st => Exists (fun t => len t <> 3200) txts \/ Exists (fun t => len t <> 3200) st
  end.

(** Whenever another choice of text headers is accepted with the same binary
    header and layouts, one of the wrong size throws. *)
Theorem C30_wrong_size_throws : forall p w w' bh ls s,
  w_open p w' bh ls = Ok s -> wrong_size w -> w_open p w bh ls = Throw ESedaman.
Proof.
  intros p w w' bh ls s Ho Hw.
  assert (C : check_tr_hdr_map bh ls = Ok tt).
  { destruct w' as [t|t|t u]; cbn [w_open] in Ho; unfold rev0_open, rev1_open, rev2_open in Ho;
      apply bind_ok in Ho as ([] & E & _); exact E. }
  assert (F : forall l, Exists (fun t => len t <> 3200) l -> forallb is_3200 l = false).
  { intros l H. induction H as [t l H|t l H IH]; cbn [forallb]; unfold is_3200.
    - destruct (Z.eqb_spec (len t) TEXT_HEADER_SIZE) as [E|_]; [contradiction|reflexivity].
    - change (fun s => len s =? TEXT_HEADER_SIZE) with is_3200. rewrite IH. apply andb_false_r. }
  destruct w as [t|t|t u]; cbn [w_open wrong_size] in *.
  - unfold rev0_open. rewrite C. cbn [bind]. destruct Hw as [N L]. destruct t as [|c t]; [contradiction|].
    unfold is_3200. destruct (Z.eqb_spec (len (c :: t)) TEXT_HEADER_SIZE) as [E|_]; [contradiction|reflexivity].
  - unfold rev1_open. rewrite C. cbn [bind]. unfold open_12.
    destruct t as [|c t]; [inversion Hw|]. rewrite (F _ Hw). reflexivity.
  - unfold rev2_open. rewrite C. cbn [bind]. destruct t as [|c t].
    + destruct Hw as [Hw|Hw]; [inversion Hw|]. cbn [bind]. rewrite (F _ Hw). reflexivity.
    + destruct (forallb is_3200 (c :: t)) eqn:E; cbn [bind]; [|reflexivity].
      destruct Hw as [Hw|Hw]; [apply F in Hw; congruence|]. rewrite (F _ Hw). reflexivity.
Qed.
Print Assumptions C30_wrong_size_throws.

Example C30_case :
  is_ok (w_open plat_example (W0 (text_example 65)) two_samples maps_example) = true /\
  wrong_size (W0 (65 :: text_example 65)) /\ wrong_size (W1 [text_example 65; tl (text_example 66)]) /\
  wrong_size (W2 [] [text_example 65; []]).
Proof.
  split; [vm_compute; reflexivity|]. cbn [wrong_size]. split; [split; [discriminate|vm_compute; discriminate]|split].
  - right. left. vm_compute. discriminate.
  - right. right. left. vm_compute. discriminate.
Qed.

(** C79.  The revision 1 and 2 writers without a text header argument: the
    template with the revision adapted, also after traces were written.

    Partial: not for the revision 0 writer. *)
Definition default_tag (w : writer) : list Z :=
  match w with W1 _ => bytes_of_string "SEG Y REV1  " | _ => bytes_of_string "SEG-Y_REV2.0" end.
Theorem C79_default_text_partial : forall p w bh ls s ts s',
  w = W1 [] \/ (exists st, w = W2 [] st) ->
  w_open p w bh ls = Ok s -> write_traces p s ts = Ok s' ->
  exists a b rest, default_text_header = a ++ bytes_of_string "SEG-Y_REV2.0" ++ b /\ len a = 3044 /\
    len (default_tag w) = 12 /\ len b = 144 /\
    fdata (o_file s') = (a ++ default_tag w ++ b) ++ rest.
Proof.
  intros p w bh ls s ts s' Hw Ho Ht.
  exists (firstn (Z.to_nat 3044) default_text_header), (skipn (Z.to_nat 3056) default_text_header).
  assert (R : exists t0 b ext, ready s t0 b ext /\
     t0 = firstn (Z.to_nat 3044) default_text_header ++ default_tag w ++ skipn (Z.to_nat 3056) default_text_header).
  { destruct Hw as [->|[st ->]]; cbn [w_open] in Ho.
    - apply rev1_open_inv in Ho as (_ & t0 & tr & U & _ & R & _); [|vm_compute; discriminate].
      destruct U as [[_ U]|[U [N _]]]; [|congruence]. injection U as -> ->. eexists _, _, _. split; [exact R|]. vm_compute. reflexivity.
    - apply rev2_open_inv in Ho as (_ & _ & _ & t0 & tr & U & _ & R & _); [|vm_compute; discriminate].
      destruct U as [[_ U]|[U [N _]]]; [|congruence]. injection U as -> ->. eexists _, _, _. split; [exact R|]. vm_compute. reflexivity. }
  destruct R as (t0 & b & ext & R & ->).
  destruct (write_all _ _ _ _ _ _ _ R Ht) as (s1 & recs & _ & _ & _ & _ & _ & D).
  assert (T : exists rest, fdata (o_file s') = (firstn (Z.to_nat 3044) default_text_header ++ default_tag w ++ skipn (Z.to_nat 3056) default_text_header) ++ rest).
  { destruct D as [(_ & _ & D)|(t & ts' & _ & _ & _ & D)]; rewrite D; eexists; reflexivity. }
  destruct T as [rest T]. exists rest. split; [vm_compute; reflexivity|]. split; [vm_compute; reflexivity|].
  split; [destruct w; reflexivity|]. split; [vm_compute; reflexivity|exact T].
Qed.
Print Assumptions C79_default_text_partial.

Example C79_case :
  (let* s := w_open plat_example (W1 []) bin_zero maps_num in
   let* s' := write_traces plat_example s [var_trace [7; 8]] in
   Ok (slice 3040 20 (fdata (o_file s')))) = Ok (bytes_of_string "C39 SEG Y REV1      ") /\
  is_ok (w_open plat_example (W2 [] []) two_samples maps_example) = true.
Proof. split; vm_compute; reflexivity. Qed.

(** C79, refuted: the revision 0 writer should replace the revision by blanks; it inserts 32
    form feeds instead and cuts off the end of the template. *)
Theorem C79_rev0_default_refuted :
  (forall p bh ls s, w_open p (W0 []) bh ls = Ok s ->
    exists a b rest, default_text_header = a ++ bytes_of_string "SEG-Y_REV2.0" ++ b /\ len a = 3044 /\
      fdata (o_file s) = firstn (Z.to_nat 3200) (ascii_to_ebcdic (a ++ repeat 12 32 ++ b)) ++ rest /\
      firstn (Z.to_nat 3200) (fdata (o_file s)) <> ascii_to_ebcdic (a ++ repeat 32 12 ++ b)) /\
  is_ok (w_open plat_example (W0 []) two_samples maps_example) = true.
Proof.
  split; [|vm_compute; reflexivity]. intros p bh ls s Ho. cbn [w_open] in Ho.
  apply rev0_open_inv in Ho as (_ & t & U & _ & R & _). destruct U as [[_ ->]|[<- L]]; [|discriminate].
  destruct R as (D & L & _).
  exists (firstn (Z.to_nat 3044) default_text_header), (skipn (Z.to_nat 3056) default_text_header). eexists.
  split; [vm_compute; reflexivity|]. split; [vm_compute; reflexivity|]. split; [rewrite D; reflexivity|].
  rewrite D. rewrite firstn_app.
  assert (LL : (Z.to_nat 3200 - List.length (first_text rev0_default_text) = 0)%nat) by (unfold len in L; lia).
  rewrite LL, app_nil_r. intros K. apply (f_equal (fun l => nth (Z.to_nat 3044) l 0)) in K.
  assert (K1 : nth (Z.to_nat 3044) (firstn (Z.to_nat 3200) (first_text rev0_default_text)) 0 = 12) by (vm_compute; reflexivity).
  assert (K2 : nth (Z.to_nat 3044) (ascii_to_ebcdic (firstn (Z.to_nat 3044) default_text_header ++ repeat 32 12 ++ skipn (Z.to_nat 3056) default_text_header)) 0 = 64)
    by (vm_compute; reflexivity).
  rewrite K1, K2 in K. discriminate K.
Qed.
Print Assumptions C79_rev0_default_refuted.
