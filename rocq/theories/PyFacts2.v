(** Facts about the binary header of a file as a Python object. *)
From Coq Require Import String.
From Verif Require Import BaseFacts Platform CodecSpec Fp TraceHdr SegyTypes SegyCodec ISegy ReadFacts ReadFacts3 SegyDecSpec SegyDecFacts
  CopyFacts CopyFacts2 PyBind PySpec PyFacts.
Local Open Scope string_scope.
Local Open Scope list_scope.
Local Open Scope Z_scope.

Lemma sgnd_range c o a y : bytes c -> 3600 <= len c -> 1 <= a -> a <= y -> y <= 3600 ->
  - 2 ^ (8 * (y - a + 1) - 1) <= sgnd c o a y < 2 ^ (8 * (y - a + 1) - 1).
Proof.
  intros B L A Y Z. pose proof (span_len c L a y A ltac:(lia) Z) as Sp.
  destruct (Z.to_nat (y - a + 1)) as [|n] eqn:E; [lia|].
  pose proof (sval_range n o (span a y c) (span_bytes c B a y) Sp) as R. replace (Z.of_nat (S n)) with (y - a + 1) in R by lia.
  unfold sgnd. lia.
Qed.
Lemma unsg_range c o a y : bytes c -> 3600 <= len c -> 1 <= a -> a <= y -> y <= 3600 ->
  0 <= unsg c o a y < 2 ^ (8 * (y - a + 1)).
Proof.
  intros B L A Y Z. pose proof (span_len c L a y A ltac:(lia) Z) as Sp.
  pose proof (uval_range o (span a y c) (span_bytes c B a y)) as R. unfold len in R. rewrite Sp, Z2Nat.id in R by lia.
  unfold unsg. rewrite Z.pow_mul_r by lia. exact R.
Qed.

Ltac in_span c o B L :=
  match goal with
  | |- _ <= sgnd c o ?a ?y < _ => exact (sgnd_range c o a y B L ltac:(lia) ltac:(lia) ltac:(lia))
  | |- _ <= unsg c o ?a ?y < _ => exact (unsg_range c o a y B L ltac:(lia) ltac:(lia) ltac:(lia))
  end.

Lemma bin_instance c o b : bytes c -> 3600 <= len c -> bin_says c o b -> bin2_says c o b \/ bin2_zero b ->
  order_number o (bh_endianness b) -> instance (k_BinaryHeader, v_bin b).
Proof.
  intros B L H H2 He. unfold instance. cbn [fst snd k_members k_BinaryHeader map v_bin].
  assert (E : - 2 ^ 31 <= bh_endianness b < 2 ^ 31) by (destruct o; cbn in He; lia).
  unfold bin_says in H. decompose [and] H; clear H.
  assert (Z2 : (- 2 ^ 31 <= bh_max_num_add_tr_headers b < 2 ^ 31) /\ (- 2 ^ 15 <= bh_time_basis_code b < 2 ^ 15) /\
               (0 <= bh_num_of_tr_in_file b < 2 ^ 64) /\ (0 <= bh_byte_off_of_first_tr b < 2 ^ 64) /\
               (- 2 ^ 31 <= bh_num_of_trailer_stanza b < 2 ^ 31)).
  { destruct H2 as [(-> & -> & -> & -> & ->)|(-> & -> & -> & -> & ->)]; [|lia].
    refine (conj _ (conj _ (conj _ (conj _ _)))); in_span c o B L. }
  destruct Z2 as (Z1 & Z2 & Z3 & Z4 & Z5).
  repeat match goal with |- Forall2 _ (_ :: _) _ => apply Forall2_cons end; try (apply Forall2_nil);
  cbn [has_type]; try exact I; try (change (32 - 1) with 31; change (16 - 1) with 15; assumption);
  match goal with H : ?x = _ |- _ <= ?x < _ => rewrite H; in_span c o B L end.
Qed.

Lemma open_instance p content maps s : bytes content -> isegy_open p content maps = Ok s ->
  (exists o, order_in content = Some o /\ bin_says content o (i_bh s) /\
    (if 1 <? bh_SEGY_rev_major_ver (i_bh s) then bin2_says content o (i_bh s) else bin2_zero (i_bh s)) /\
    order_number o (bh_endianness (i_bh s))) -> instance (py_binary_header s).
Proof.
  intros B H (o & _ & H1 & H2 & H3). apply open_parts in H as (L & _). unfold py_binary_header.
  apply (bin_instance content o); [exact B|exact L|exact H1| |exact H3]. destruct (1 <? _); auto.
Qed.
