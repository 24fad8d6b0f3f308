(** Lemmas for C59-C61: traces in the file. *)
From Coq Require Import Reals Lra.
From Flocq Require Import Core.
From Verif Require Import BaseFacts Platform Fp FpSpec FpReal TraceHdr SegyTypes SegyCodec CodecSpec CodecFacts
     SampleFacts SampleReal LayoutSpec LayoutFacts HdrFacts ISegy OSegy OpenFacts BinFacts WriterFacts RoundSpec
     ReadFacts ReadFacts2 SegyDecSpec SegyDecFacts SegyDecFacts2 FileSpec FileFacts SegyEncSpec SegyEncFacts SegyEncFacts2
     SegyEncFacts3.
Local Open Scope Z_scope.

(** Item [i] of a concatenation of items of one length. *)
Lemma concat_at {A} w : 0 <= w -> forall (xs : list (list A)) i x rest, Forall (fun y => len y = w) xs ->
  nth_error xs i = Some x -> slice (w * Z.of_nat i) w (concat xs ++ rest) = x.
Proof.
  intros W xs i x rest F H. pose proof (nth_error_split xs i H) as (l1 & l2 & E & L). subst xs.
  apply Forall_app in F as [F1 F2]. inversion F2; subst.
  assert (L1 : len (concat l1) = len x * Z.of_nat (List.length l1)).
  { clear - F1. induction F1 as [|y ys Hy _ IH]; [cbn; lia|]. cbn [concat List.length]. rewrite len_app, Hy, IH. lia. }
  rewrite concat_app. cbn [concat]. rewrite <- app_assoc, slice_after by lia. rewrite L1, Z.sub_diag, <- app_assoc.
  apply slice_exact. reflexivity.
Qed.

Lemma nth_slice {A} (o n : Z) (l : list A) i : 0 <= o -> 0 <= i < n -> nth_error (slice o n l) (Z.to_nat i) = nth_error l (Z.to_nat (o + i)).
Proof.
  intros O I. unfold slice. rewrite nth_error_firstn', nth_error_skipn'. destruct (Nat.ltb_spec (Z.to_nat i) (Z.to_nat n)); [f_equal; lia|lia].
Qed.

Lemma block_stored p e c pos ol h b : 0 <= pos ->
  (forall l, ol = Some l -> forall en, In en l -> inside en) ->
  (forall k z, hget h k = Some (VInt z) -> - 2 ^ 63 <= z < 2 ^ 63) ->
  slice pos 240 c = b -> is_block p e ol h b -> block_at p (ord e) c pos ol h.
Proof.
  intros P Hin T S (Lb & K). unfold block_at. destruct ol as [l|]; [|congruence]. destruct K as [K1 K2]. split.
  - intros en He. destruct (Hin l eq_refl en He) as [I1 I2]. pose proof (K1 en He) as W.
    assert (0 <= width (e_type en)) by (destruct (e_type en); cbn; lia).
    rewrite <- S, slice_slice in W by lia.
    apply wr_field_stored in W as (z & Hz & St); [|intros z Q; eapply T; exact Q].
    exists z. split; [exact Hz|exact St].
  - intros i Hi Nc. rewrite <- (K2 i Hi Nc), <- S, nth_slice by lia. reflexivity.
Qed.

Lemma samples_width p e fmt ds smps : Forall2 (sample_as p e fmt) ds smps -> Forall is_dbl ds ->
  Forall (fun y => len y = sample_width fmt) smps /\
  (forall i d, nth_error ds i = Some d -> exists l, nth_error smps i = Some l /\ stored_sample p (ord e) fmt d l).
Proof.
  intros F D. assert (F' : Forall2 (fun d l => stored_sample p (ord e) fmt d l) ds smps).
  { clear - F D. induction F as [|d l ds smps (w & W & E) _ IH]; [constructor|]. inversion D; subst. constructor; [|auto].
    eapply sample_stored; eassumption. }
  split.
  - clear - F'. induction F' as [|d l ds smps (_ & W & _) _ IH]; constructor; auto.
    unfold code_width in W. unfold sample_width.
    destruct fmt as [|q|q]; try discriminate.
    do 5 (destruct q as [q|q|]; try discriminate; try congruence).
  - clear - F'. induction F' as [|d l ds smps S _ IH]; intros [|i] x H; cbn [nth_error] in *; try discriminate.
    + injection H as <-. eauto.
    + apply IH, H.
Qed.

Lemma len_concat_w {A} w (xs : list (list A)) : Forall (fun y => len y = w) xs -> len (concat xs) = len xs * w.
Proof.
  induction 1 as [|y ys Hy _ IH]; [reflexivity|]. cbn [concat]. rewrite len_app, len_cons, Hy, IH. lia.
Qed.

Lemma record_written p e fmt ls n area t r pre post : safe_layouts ls -> typed t -> 0 <= n ->
  is_record p e fmt ls n area t r -> written_at p (ord e) (pre ++ r ++ post) fmt ls n area (len pre) t.
Proof.
  intros HS [D T] N R. pose proof (is_record_len _ _ _ _ _ _ _ _ R) as Lr.
  destruct R as (bs & smps & pad & -> & Lb & Kb & F & A).
  destruct (samples_width _ _ _ _ _ F D) as [Fw Fs].
  assert (Fb : Forall (fun y => len y = 240) bs).
  { apply Forall_forall. intros b Hb. apply In_nth_error in Hb as (i & Hi). apply Kb in Hi as [Hl _]. exact Hl. }
  pose proof (len_nonneg pre) as Pp. pose proof (len_nonneg post) as Pq.
  split; [|split; [|split]].
  - intros i Hi.
    assert (exists b, nth_error bs (Z.to_nat i) = Some b) as (b & Hb).
    { destruct (nth_error bs (Z.to_nat i)) eqn:E; [eauto|]. apply nth_error_None in E. unfold len in Lb. lia. }
    apply (block_stored p e _ _ _ _ b); [lia| |exact T| |apply Kb, Hb].
    + intros l El en He. destruct (nth_error ls (Z.to_nat i)) as [[nm l']|] eqn:E; [|discriminate].
      cbn [option_map snd] in El. injection El as ->. apply nth_error_In in E. apply (HS _ _ E), He.
    + rewrite slice_after by lia. replace (len pre + 240 * i - len pre) with (240 * Z.of_nat (Z.to_nat i)) by lia.
      rewrite <- !app_assoc. apply concat_at; [lia|exact Fb|exact Hb].
  - intros i d Hd. apply Fs in Hd as (l & Hl & St).
    rewrite slice_after by (unfold sample_width; destruct fmt as [|q|q]; [|do 5 (destruct q as [q|q|]; try lia)|]; lia).
    rewrite <- !app_assoc.
    assert (Lc : len (concat bs) = 240 * n) by (rewrite (len_concat_w 240) by exact Fb; lia).
    assert (W : 0 < sample_width fmt) by (unfold sample_width; destruct fmt as [|q|q]; [|do 5 (destruct q as [q|q|]; try lia)|]; lia).
    rewrite slice_after by (rewrite Lc; nia). rewrite Lc.
    replace (len pre + 240 * n + sample_width fmt * Z.of_nat i - len pre - 240 * n) with (sample_width fmt * Z.of_nat i) by lia.
    rewrite (concat_at (sample_width fmt) ltac:(lia) smps i l) by assumption. exact St.
  - rewrite len_app, (len_concat_w (sample_width fmt)) in A by exact Fw. pose proof (len_nonneg pad).
    assert (len (t_smp t) = len smps) as -> by (unfold len; f_equal; clear - F; induction F; cbn [List.length]; congruence). lia.
  - rewrite !len_app in *. lia.
Qed.

Lemma records_written p e fmt ls n area : safe_layouts ls -> 0 <= n -> forall ts recs pre, Forall typed ts ->
  Forall2 (fun t r => is_record p e fmt ls n (area t) t r) ts recs ->
  all_written p (ord e) (pre ++ concat recs) fmt ls n area (len pre) ts.
Proof.
  intros HS N. induction ts as [|t ts IH]; intros recs pre T F; inversion F; subst; cbn [all_written concat].
  - rewrite app_nil_r. reflexivity.
  - inversion T; subst. split; [apply record_written; assumption|].
    rewrite app_assoc. replace (len pre + 240 * n + area t) with (len (pre ++ y)).
    + apply IH; assumption.
    + rewrite len_app. match goal with H : is_record _ _ _ _ _ _ _ _ |- _ => rewrite (is_record_len _ _ _ _ _ _ _ _ H) end. lia.
Qed.
