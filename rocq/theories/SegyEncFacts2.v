(** Lemmas for C59-C61: binary header and traces in the file. *)
From Coq Require Import Reals Lra.
From Flocq Require Import Core.
From Verif Require Import BaseFacts Platform Fp FpSpec FpReal FixFacts TraceHdr SegyTypes SegyCodec CodecSpec CodecFacts
     SampleFacts SampleReal LayoutSpec LayoutFacts HdrFacts ISegy OSegy OpenFacts BinFacts WriterFacts RoundSpec
     ReadFacts ReadFacts2 SegyDecSpec SegyDecFacts SegyDecFacts2 FileSpec FileFacts SegyEncSpec SegyEncFacts.
Local Open Scope Z_scope.

Lemma slice_after {A} k n (a b : list A) : len a <= k -> slice k n (a ++ b) = slice (k - len a) n b.
Proof.
  intros H. unfold slice. rewrite skipn_app, skipn_all2 by (unfold len in H; lia). cbn [app].
  do 2 f_equal. unfold len in *. lia.
Qed.
Lemma slice_before {A} k n (a b : list A) : 0 <= k -> k + n <= len a -> slice k n (a ++ b) = slice k n a.
Proof.
  intros K H. destruct (Z.le_gt_cases n 0) as [N|N].
  { unfold slice. replace (Z.to_nat n) with 0%nat by lia. reflexivity. }
  unfold slice, len in *. rewrite skipn_app, firstn_app, skipn_length.
  replace (Z.to_nat n - (List.length a - Z.to_nat k))%nat with 0%nat by lia. cbn [firstn]. apply app_nil_r.
Qed.
Lemma slice_exact {A} n (a b : list A) : len a = n -> slice 0 n (a ++ b) = a.
Proof.
  intros H. rewrite slice_before by lia. unfold slice. change (Z.to_nat 0) with 0%nat. cbn [skipn].
  apply firstn_all2. unfold len in H. lia.
Qed.

(** A run of fields. *)
Definition enc (e : endian) (fs : list (nat * Z)) : list Z := concat (map (fun f => wr e (fst f) (snd f)) fs).
Definition room (fs : list (nat * Z)) : Z := fold_right (fun f a => Z.of_nat (fst f) + a) 0 fs.
Lemma len_enc e fs : len (enc e fs) = room fs.
Proof.
  unfold enc, room. induction fs as [|[n v] fs IH]; [reflexivity|]. cbn [map concat fold_right fst snd].
  rewrite len_app, len_wr, IH. reflexivity.
Qed.
Lemma enc_at e rest : forall fs i n v, nth_error fs i = Some (n, v) ->
  slice (room (firstn i fs)) (Z.of_nat n) (enc e fs ++ rest) = wr e n v.
Proof.
  intros fs i n v H. pose proof (nth_error_split fs i H) as (l1 & l2 & E & L). subst fs.
  rewrite firstn_app, L, Nat.sub_diag. cbn [firstn]. rewrite app_nil_r, firstn_all2 by lia.
  unfold enc. rewrite map_app, concat_app. cbn [map concat fst snd]. fold (enc e l1) (enc e l2).
  rewrite <- (len_enc e l1), <- app_assoc, slice_after by lia. rewrite Z.sub_diag, <- app_assoc.
  apply slice_exact, len_wr.
Qed.

Definition fields1 (b : bin_hdr) : list (nat * Z) :=
  combine ([4; 4; 4] ++ repeat 2 24 ++ [4; 4; 4; 8; 8; 4; 4])%nat (firstn 34 (bin_fields b)).
Definition fields2 (b : bin_hdr) : list (nat * Z) :=
  combine [1; 1; 2; 2; 4; 2; 8; 8; 4]%nat (skipn 35 (bin_fields b)).
Lemma chunks1_enc e b : concat (chunks1 e b) = enc e (fields1 b).
Proof. reflexivity. Qed.
Lemma chunks2_enc e b : concat (chunks2 e b) = enc e (fields2 b).
Proof. reflexivity. Qed.

Section At.
Variables (text rest : list Z) (e : endian) (b : bin_hdr).
Hypothesis Lt : len text = 3200.
Let c := text ++ bin_block e b ++ rest.

Lemma at1 i n v k : nth_error (fields1 b) i = Some (n, v) -> k = 3200 + room (firstn i (fields1 b)) -> 0 <= room (firstn i (fields1 b)) ->
  slice k (Z.of_nat n) c = wr e n v.
Proof.
  intros H -> R. unfold c, bin_block. rewrite slice_after by lia. rewrite Lt, chunks1_enc, <- !app_assoc.
  replace (3200 + _ - 3200) with (room (firstn i (fields1 b))) by lia. apply enc_at, H.
Qed.
Lemma at2 i n v k : nth_error (fields2 b) i = Some (n, v) -> k = 3500 + room (firstn i (fields2 b)) -> 0 <= room (firstn i (fields2 b)) ->
  slice k (Z.of_nat n) c = wr e n v.
Proof.
  intros H -> R. unfold c, bin_block. rewrite slice_after by lia. rewrite Lt, <- !app_assoc.
  rewrite slice_after by (rewrite len_chunks1; lia). rewrite len_chunks1.
  rewrite slice_after by (rewrite len_wr; lia). rewrite len_wr.
  rewrite slice_after by (rewrite len_zeros; lia). rewrite len_zeros by lia. rewrite chunks2_enc.
  replace (3500 + _ - 3200 - 96 - Z.of_nat 4 - 200) with (room (firstn i (fields2 b))) by lia. apply enc_at, H.
Qed.
Lemma at_marker : slice 3296 4 c = wr e 4 (bh_endianness b).
Proof.
  unfold c, bin_block. rewrite slice_after by lia. rewrite Lt, <- !app_assoc.
  rewrite slice_after by (rewrite len_chunks1; lia). rewrite len_chunks1. change (3296 - 3200 - 96) with 0.
  apply slice_exact. rewrite len_wr. reflexivity.
Qed.

Lemma says1 i n v a z : nth_error (fields1 b) i = Some (n, v) -> a = 3201 + room (firstn i (fields1 b)) -> z = a + Z.of_nat n - 1 ->
  0 <= room (firstn i (fields1 b)) ->
  ((0 < n)%nat -> in_i (8 * Z.of_nat n) v = true -> v = sgnd c (ord e) a z) /\
  (in_u (8 * Z.of_nat n) v = true -> v = unsg c (ord e) a z).
Proof.
  intros H -> -> R. unfold sgnd, unsg, span.
  replace (3201 + room (firstn i (fields1 b)) + Z.of_nat n - 1 - (3201 + room (firstn i (fields1 b))) + 1) with (Z.of_nat n) by lia.
  rewrite (at1 i n v) by (assumption || lia). split; intros.
  - rewrite sval_wr, as_signed_in by assumption. reflexivity.
  - rewrite uval_wr, as_unsigned_in by assumption. reflexivity.
Qed.
Lemma says2 i n v a z : nth_error (fields2 b) i = Some (n, v) -> a = 3501 + room (firstn i (fields2 b)) -> z = a + Z.of_nat n - 1 ->
  0 <= room (firstn i (fields2 b)) ->
  ((0 < n)%nat -> in_i (8 * Z.of_nat n) v = true -> v = sgnd c (ord e) a z) /\
  (in_u (8 * Z.of_nat n) v = true -> v = unsg c (ord e) a z).
Proof.
  intros H -> -> R. unfold sgnd, unsg, span.
  replace (3501 + room (firstn i (fields2 b)) + Z.of_nat n - 1 - (3501 + room (firstn i (fields2 b))) + 1) with (Z.of_nat n) by lia.
  rewrite (at2 i n v) by (assumption || lia). split; intros.
  - rewrite sval_wr, as_signed_in by assumption. reflexivity.
  - rewrite uval_wr, as_unsigned_in by assumption. reflexivity.
Qed.

Ltac f1 i := lazymatch goal with
  | |- ?v = sgnd _ _ ?a ?z => lazymatch goal with H : in_i _ v = true |- _ =>
      let n := eval vm_compute in (Z.to_nat (z - a + 1)) in
      refine (proj1 (says1 i n v a z _ _ _ _) _ H); [vm_compute; reflexivity|vm_compute; reflexivity|reflexivity|vm_compute; discriminate|apply Nat.ltb_lt; reflexivity] end
  | |- ?v = unsg _ _ ?a ?z => lazymatch goal with H : in_u _ v = true |- _ =>
      let n := eval vm_compute in (Z.to_nat (z - a + 1)) in
      refine (proj2 (says1 i n v a z _ _ _ _) H); [vm_compute; reflexivity|vm_compute; reflexivity|reflexivity|vm_compute; discriminate] end
  end.
Ltac f2 i := lazymatch goal with
  | |- ?v = sgnd _ _ ?a ?z => lazymatch goal with H : in_i _ v = true |- _ =>
      let n := eval vm_compute in (Z.to_nat (z - a + 1)) in
      refine (proj1 (says2 i n v a z _ _ _ _) _ H); [vm_compute; reflexivity|vm_compute; reflexivity|reflexivity|vm_compute; discriminate|apply Nat.ltb_lt; reflexivity] end
  | |- ?v = unsg _ _ ?a ?z => lazymatch goal with H : in_u _ v = true |- _ =>
      let n := eval vm_compute in (Z.to_nat (z - a + 1)) in
      refine (proj2 (says2 i n v a z _ _ _ _) H); [vm_compute; reflexivity|vm_compute; reflexivity|reflexivity|vm_compute; discriminate] end
  end.
Lemma bin_written : bin_ok b = true -> bin_says c (ord e) b /\ bin2_says c (ord e) b.
Proof.
  intros Hok. unfold bin_ok, bin_types, bin_fields in Hok. cbn [combine forallb fst snd in_ity] in Hok.
  rewrite !andb_true_iff in Hok. decompose [and] Hok. clear Hok. unfold bin_says, bin2_says. split.
  - split; [f1 0%nat|]. split; [f1 1%nat|]. split; [f1 2%nat|]. split; [f1 3%nat|].
     split; [f1 4%nat|]. split; [f1 5%nat|]. split; [f1 6%nat|]. split; [f1 7%nat|].
     split; [f1 8%nat|]. split; [f1 9%nat|]. split; [f1 10%nat|]. split; [f1 11%nat|].
     split; [f1 12%nat|]. split; [f1 13%nat|]. split; [f1 14%nat|]. split; [f1 15%nat|].
     split; [f1 16%nat|]. split; [f1 17%nat|]. split; [f1 18%nat|]. split; [f1 19%nat|].
     split; [f1 20%nat|]. split; [f1 21%nat|]. split; [f1 22%nat|]. split; [f1 23%nat|].
     split; [f1 24%nat|]. split; [f1 25%nat|]. split; [f1 26%nat|]. split; [f1 27%nat|].
     split; [f1 28%nat|]. split; [f1 29%nat|]. split; [f1 30%nat|]. split; [f1 31%nat|].
     split; [f1 32%nat|]. split; [f1 33%nat|].
    split; [f2 0%nat|]. split; [f2 1%nat|]. split; [f2 2%nat|]. f2 3%nat.
  - split; [f2 4%nat|]. split; [f2 5%nat|]. split; [f2 6%nat|]. split; [f2 7%nat|]. f2 8%nat.
Qed.
End At.
