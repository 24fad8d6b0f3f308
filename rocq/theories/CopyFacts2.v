(** Lemmas for C62: the binary header. *)
From Coq Require Import Reals Lra.
From Verif Require Import BaseFacts Platform Fp FpSpec TraceHdr SegyTypes SegyCodec CodecSpec CodecFacts
     LayoutSpec LayoutFacts HdrFacts ISegy OSegy OpenFacts BinFacts WriterFacts RoundSpec
     ReadFacts ReadFacts2 ReadFacts3 SegyDecSpec SegyDecFacts SegyDecFacts2 FileSpec FileFacts SegyEncSpec SegyEncFacts SegyEncFacts2
     CopySpec CopyFacts.
Local Open Scope Z_scope.

Lemma slice_cut {A} k n m (c : list A) : 0 <= k -> 0 <= n -> 0 <= m ->
  slice k (n + m) c = slice k n c ++ slice (k + n) m c.
Proof.
  intros K N M. unfold slice. replace (Z.to_nat (n + m)) with (Z.to_nat n + Z.to_nat m)%nat by lia.
  replace (Z.to_nat (k + n)) with (Z.to_nat k + Z.to_nat n)%nat by lia. rewrite <- (skipn_skipn' (Z.to_nat n)).
  generalize (skipn (Z.to_nat k) c). intros l. generalize (Z.to_nat n) (Z.to_nat m). clear.
  intros n m. revert l. induction n as [|n IH]; intros l; [reflexivity|]. destruct l as [|x l]; cbn [Nat.add firstn skipn app].
  - destruct m; reflexivity.
  - rewrite IH. reflexivity.
Qed.
Lemma tile_step a y z c x R : 1 <= a -> a <= y + 1 -> y <= z -> span a y c = x -> span (y + 1) z c = R -> span a z c = x ++ R.
Proof.
  intros A Y Z <- <-. unfold span. replace (z - a + 1) with ((y - a + 1) + (z - (y + 1) + 1)) by lia.
  rewrite slice_cut by lia. do 2 f_equal; lia.
Qed.

Lemma firstn_repeat' {A} (x : A) k n : firstn k (repeat x n) = repeat x (Nat.min k n).
Proof. revert n. induction k as [|k IH]; intros [|n]; cbn [firstn repeat Nat.min]; [reflexivity..|]. rewrite IH. reflexivity. Qed.
Lemma skipn_repeat' {A} (x : A) k n : skipn k (repeat x n) = repeat x (n - k).
Proof. revert n. induction k as [|k IH]; intros [|n]; cbn [skipn repeat Nat.sub]; [reflexivity..|]. apply IH. Qed.
Lemma sub_unused a b x y c : 1 <= a -> a <= x -> x <= y -> y <= b -> unused a b c -> unused x y c.
Proof.
  intros A X Y B U. unfold unused, span in *.
  replace (slice (x - 1) (y - x + 1) c) with (slice (x - a) (y - x + 1) (slice (a - 1) (b - a + 1) c))
    by (rewrite slice_slice by lia; f_equal; lia).
  rewrite U. unfold slice, zeros. rewrite skipn_repeat', firstn_repeat'. f_equal. lia.
Qed.

Lemma sval_zeros o n : sval o (zeros n) = 0.
Proof.
  assert (U : uval o (zeros n) = 0).
  { unfold uval, zeros. assert (E : (match o with Big => repeat 0 (Z.to_nat n) | Little => rev (repeat 0 (Z.to_nat n)) end) = repeat 0 (Z.to_nat n)).
    { destruct o; [reflexivity|]. clear. induction (Z.to_nat n) as [|k IH]; [reflexivity|]. cbn [repeat rev]. rewrite IH.
      clear. induction k as [|k IH]; [reflexivity|]. cbn [repeat app]. rewrite IH. reflexivity. }
    rewrite E. clear. induction (Z.to_nat n) as [|k IH]; [reflexivity|]. exact IH. }
  unfold sval, as_signed. cbv zeta. rewrite U, Z.mod_0_l by (pose proof (pow256_pos (List.length (zeros n))); lia).
  pose proof (pow256_pos (List.length (zeros n))). destruct (Z.ltb_spec (2 * 0) (256 ^ Z.of_nat (List.length (zeros n)))); lia.
Qed.
Lemma uval_zeros o n : uval o (zeros n) = 0.
Proof.
  assert (B : bytes (zeros n)) by (unfold bytes, zeros; apply Forall_forall; intros x X; apply repeat_spec in X; subst; unfold is_byte; lia).
  rewrite <- (unsigned_sval o _ B), sval_zeros. unfold as_unsigned. apply Z.mod_0_l. pose proof (pow256_pos (List.length (zeros n))); lia.
Qed.

(** In files of revision 0 and 1 the members of revision 2 are zero. *)
Lemma zero_says c o b : unused 3507 3532 c -> bin2_zero b -> bin2_says c o b.
Proof.
  intros U (Z1 & Z2 & Z3 & Z4 & Z5). unfold bin2_says, sgnd, unsg. rewrite Z1, Z2, Z3, Z4, Z5.
  rewrite (sub_unused 3507 3532 3507 3510 c), (sub_unused 3507 3532 3511 3512 c), (sub_unused 3507 3532 3513 3520 c),
    (sub_unused 3507 3532 3521 3528 c), (sub_unused 3507 3532 3529 3532 c) by (lia || exact U).
  rewrite !sval_zeros, !uval_zeros. auto.
Qed.

Section Tile.
Variables (c : list Z) (e : endian).
Hypothesis B : bytes c.
Hypothesis L : 3600 <= len c.
Lemma span_bytes a y : bytes (span a y c).
Proof. apply bytes_slice. exact B. Qed.
Lemma span_len a y : 1 <= a -> a <= y + 1 -> y <= 3600 -> List.length (span a y c) = Z.to_nat (y - a + 1).
Proof. intros A Y Z. pose proof (slice_length (a - 1) (y - a + 1) c ltac:(lia) ltac:(lia) ltac:(lia)) as X. unfold span, len in *. lia. Qed.
Lemma sg_tile a y n v : 1 <= a -> y = a + Z.of_nat n - 1 -> y <= 3600 -> v = sgnd c (ord e) a y -> span a y c = wr e n v.
Proof.
  intros A Y Z ->. unfold sgnd. pose proof (span_len a y ltac:(lia) ltac:(lia) ltac:(lia)) as Ls.
  replace n with (List.length (span a y c)) by lia. symmetry. apply wr_back; [apply span_bytes|]. apply unsigned_sval, span_bytes.
Qed.
Lemma us_tile a y n v : 1 <= a -> y = a + Z.of_nat n - 1 -> y <= 3600 -> v = unsg c (ord e) a y -> span a y c = wr e n v.
Proof.
  intros A Y Z ->. unfold unsg. pose proof (span_len a y ltac:(lia) ltac:(lia) ltac:(lia)) as Ls.
  replace n with (List.length (span a y c)) by lia. symmetry. apply wr_back; [apply span_bytes|]. apply unsigned_uval, span_bytes.
Qed.

Lemma bin_same b : bin_says c (ord e) b -> bin2_says c (ord e) b -> slice 3296 4 c = wr e 4 (bh_endianness b) ->
  unused 3301 3500 c -> unused 3533 3600 c -> slice 3200 400 c = bin_block e b.
Proof.
  intros S1 S2 M U1 U2. change (slice 3200 400 c) with (span 3201 3600 c). change (slice 3296 4 c) with (span 3297 3300 c) in M.
  unfold bin_says, bin2_says in S1, S2. decompose [and] S1. decompose [and] S2. clear S1 S2.
  unfold bin_block, chunks1, chunks2. cbn [concat]. rewrite <- !app_assoc. cbn [app].
  Ltac tile := match goal with
    | |- span ?a ?z ?c = wr ?e ?n ?v ++ ?R =>
      match goal with
      | H : v = sgnd c _ a ?y |- _ => apply (tile_step a y z c); [lia|lia|lia|apply sg_tile; [lia|lia|lia|exact H]|]
      | H : v = unsg c _ a ?y |- _ => apply (tile_step a y z c); [lia|lia|lia|apply us_tile; [lia|lia|lia|exact H]|]
      | H : span a ?y c = wr e n v |- _ => apply (tile_step a y z c); [lia|lia|lia|exact H|]
      end; match goal with |- span (?y + 1) _ _ = _ => let k := eval vm_compute in (y + 1) in change (y + 1) with k end
    end.
  do 35 tile.
  apply (tile_step 3301 3500); [lia|lia|lia|exact U1|]. change (3500 + 1) with 3501. do 9 tile. exact U2.
Qed.
End Tile.
