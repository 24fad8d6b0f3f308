(** Facts about the base layer. *)
From Coq Require Export Lia ZifyBool ZifyNat.
From Verif Require Export Base.

(** [lia] with division and modulo. *)
Ltac dlia := zify; Z.div_mod_to_equations; lia.

(** ** Outcomes *)

Lemma bind_ok {A B} (x : outcome A) (f : A -> outcome B) b :
  bind x f = Ok b <-> exists a, x = Ok a /\ f a = Ok b.
Proof.
  split.
  - destruct x; cbn; intro H; try discriminate. exists a; auto.
  - intros (a & -> & H). exact H.
Qed.

Lemma mapM_app {A B} (f : A -> outcome B) l1 l2 :
  mapM f (l1 ++ l2) =
  (let* a := mapM f l1 in let* b := mapM f l2 in Ok (a ++ b)).
Proof.
  induction l1 as [|x l1 IH]; cbn [mapM app bind].
  - destruct (mapM f l2); reflexivity.
  - destruct (f x); cbn [bind]; try reflexivity.
    rewrite IH. destruct (mapM f l1); cbn [bind]; try reflexivity.
    destruct (mapM f l2); reflexivity.
Qed.

Lemma mapM_length {A B} (f : A -> outcome B) l r :
  mapM f l = Ok r -> List.length r = List.length l.
Proof.
  revert r; induction l as [|x l IH]; cbn [mapM]; intros r H.
  - injection H as <-; reflexivity.
  - apply bind_ok in H as (b & _ & H). apply bind_ok in H as (bs & Hbs & H).
    injection H as <-. cbn. f_equal. apply IH, Hbs.
Qed.

Lemma mapM_ok {A B} (f : A -> outcome B) l r :
  mapM f l = Ok r <-> Forall2 (fun a b => f a = Ok b) l r.
Proof.
  revert r; induction l as [|x l IH]; cbn [mapM]; intros r; split; intro H.
  - injection H as <-; constructor.
  - inversion H; reflexivity.
  - apply bind_ok in H as (b & Hb & H). apply bind_ok in H as (bs & Hbs & H).
    injection H as <-. constructor; [exact Hb|]. apply IH, Hbs.
  - inversion H as [|? b ? bs Hb Hbs]; subst. rewrite Hb. cbn [bind].
    apply IH in Hbs. rewrite Hbs. reflexivity.
Qed.

Lemma mapM_pure {A B} (f : A -> outcome B) (g : A -> B) l :
  (forall a, In a l -> f a = Ok (g a)) -> mapM f l = Ok (map g l).
Proof.
  induction l as [|x l IH]; cbn; intros H; [reflexivity|].
  rewrite H by auto. cbn. rewrite IH by auto. reflexivity.
Qed.

(** ** Lengths *)

Lemma len_nonneg {A} (l : list A) : 0 <= len l.
Proof. unfold len; lia. Qed.
Lemma len_app {A} (a b : list A) : len (a ++ b) = len a + len b.
Proof. unfold len; rewrite app_length; lia. Qed.
Lemma len_cons {A} (x : A) l : len (x :: l) = 1 + len l.
Proof. unfold len; cbn [List.length]; lia. Qed.
Lemma len_nil {A} : len (@nil A) = 0.
Proof. reflexivity. Qed.
Lemma len_repeat {A} (x : A) n : len (repeat x n) = Z.of_nat n.
Proof. unfold len; rewrite repeat_length; reflexivity. Qed.
Lemma len_zeros n : 0 <= n -> len (zeros n) = n.
Proof. intros; unfold zeros; rewrite len_repeat; lia. Qed.
Lemma len_to_nat {A} (l : list A) : Z.to_nat (len l) = List.length l.
Proof. unfold len; lia. Qed.
Lemma len_map {A B} (f : A -> B) l : len (map f l) = len l.
Proof. unfold len; rewrite map_length; reflexivity. Qed.
Lemma len_0 {A} (l : list A) : len l = 0 -> l = [].
Proof. destruct l; cbn; [reflexivity|unfold len; cbn; lia]. Qed.

(** ** Wraps *)

Lemma pow2_pos n : 0 <= n -> 0 < 2 ^ n.
Proof. intros; apply Z.pow_pos_nonneg; lia. Qed.

Lemma wrapu_bound w v : 0 <= w -> 0 <= wrapu w v < 2 ^ w.
Proof. intros; unfold wrapu; apply Z.mod_pos_bound, pow2_pos; lia. Qed.

Lemma wrapu_id w v : in_u w v = true -> wrapu w v = v.
Proof. unfold in_u, wrapu; intros H; apply Z.mod_small; lia. Qed.

Lemma wrapu_small w v : 0 <= v < 2 ^ w -> wrapu w v = v.
Proof. intros; apply Z.mod_small; lia. Qed.

Lemma wrapu_idem w v : wrapu w (wrapu w v) = wrapu w v.
Proof. unfold wrapu; apply Zmod_mod. Qed.

Lemma wraps_range w v : 0 < w -> in_i w (wraps w v) = true.
Proof.
  intros Hw. unfold in_i, wraps.
  assert (Hp : 2 ^ w = 2 * 2 ^ (w - 1)).
  { rewrite <- Z.pow_succ_r by lia. f_equal; lia. }
  pose proof (pow2_pos (w - 1) ltac:(lia)).
  pose proof (Z.mod_pos_bound v (2 ^ w) ltac:(lia)).
  destruct (v mod 2 ^ w <? 2 ^ (w - 1)) eqn:E; lia.
Qed.

Lemma wraps_id w v : 0 < w -> in_i w v = true -> wraps w v = v.
Proof.
  intros Hw H. unfold in_i in H. unfold wraps.
  assert (Hp : 2 ^ w = 2 * 2 ^ (w - 1)).
  { rewrite <- Z.pow_succ_r by lia. f_equal; lia. }
  pose proof (pow2_pos (w - 1) ltac:(lia)).
  destruct (Z_lt_le_dec v 0).
  - assert (E : v mod 2 ^ w = v + 2 ^ w).
    { symmetry. apply Z.mod_unique_pos with (q := -1); lia. }
    rewrite E. destruct (v + 2 ^ w <? 2 ^ (w - 1)) eqn:?; lia.
  - rewrite Z.mod_small by lia.
    destruct (v <? 2 ^ (w - 1)) eqn:?; lia.
Qed.

Lemma wraps_wrapu w v : wraps w (wrapu w v) = wraps w v.
Proof. unfold wraps, wrapu. rewrite Zmod_mod. reflexivity. Qed.

Lemma wrapu_wraps w v : 0 < w -> wrapu w (wraps w v) = wrapu w v.
Proof.
  intros Hw. unfold wraps, wrapu.
  pose proof (pow2_pos w ltac:(lia)).
  destruct (v mod 2 ^ w <? 2 ^ (w - 1)).
  - apply Zmod_mod.
  - rewrite <- (Z.mod_add _ 1) by lia. replace (v mod 2 ^ w - 2 ^ w + 1 * 2 ^ w)
      with (v mod 2 ^ w) by lia. apply Zmod_mod.
Qed.

Lemma sarith_ok w v : in_i w v = true -> sarith w v = Ok v.
Proof. unfold sarith; intros ->; reflexivity. Qed.

(** ** Byte codecs *)

Lemma le_enc_length n v : List.length (le_enc n v) = n.
Proof. revert v; induction n as [|n IH]; cbn; intros; [reflexivity|rewrite IH; reflexivity]. Qed.

Lemma len_le_enc n v : len (le_enc n v) = Z.of_nat n.
Proof. unfold len; rewrite le_enc_length; reflexivity. Qed.

Lemma le_enc_bytes n v : bytes (le_enc n v).
Proof.
  revert v; induction n as [|n IH]; cbn; intros; constructor; [|apply IH].
  unfold is_byte; lia.
Qed.

Lemma pow256_S n : 256 ^ Z.of_nat (S n) = 256 * 256 ^ Z.of_nat n.
Proof. rewrite Nat2Z.inj_succ, Z.pow_succ_r by lia. reflexivity. Qed.

Lemma pow256_2 n : 256 ^ Z.of_nat n = 2 ^ (8 * Z.of_nat n).
Proof. rewrite Z.pow_mul_r by lia. reflexivity. Qed.

Lemma pow256_pos n : 0 < 256 ^ Z.of_nat n.
Proof. apply Z.pow_pos_nonneg; lia. Qed.

Lemma le_dec_enc n v : le_dec (le_enc n v) = v mod 256 ^ Z.of_nat n.
Proof.
  revert v; induction n as [|n IH]; intros v; cbn [le_enc le_dec].
  - rewrite Z.mod_1_r. reflexivity.
  - rewrite IH, pow256_S.
    pose proof (pow256_pos n).
    rewrite Z.rem_mul_r by lia. reflexivity.
Qed.

Lemma le_dec_bound l : bytes l -> 0 <= le_dec l < 256 ^ len l.
Proof.
  unfold len. induction l as [|b l IH]; intros H.
  - cbn. lia.
  - inversion H as [|? ? Hb Hl]; subst. specialize (IH Hl).
    cbn [List.length le_dec]. rewrite pow256_S. unfold is_byte in Hb. lia.
Qed.

Lemma le_enc_dec l : bytes l -> le_enc (List.length l) (le_dec l) = l.
Proof.
  induction l as [|b l IH]; intros H; [reflexivity|].
  inversion H as [|? ? Hb Hl]; subst. cbn [List.length le_dec le_enc].
  unfold is_byte in Hb.
  replace ((b + 256 * le_dec l) mod 256) with b.
  2:{ rewrite Z.mul_comm, Z.mod_add by lia. rewrite Z.mod_small; lia. }
  replace ((b + 256 * le_dec l) / 256) with (le_dec l).
  2:{ rewrite Z.mul_comm, Z.div_add by lia. rewrite Z.div_small by lia. lia. }
  rewrite (IH Hl). reflexivity.
Qed.

Lemma bytes_rev l : bytes l -> bytes (rev l).
Proof. unfold bytes; intros; apply Forall_rev; assumption. Qed.

Lemma bytes_app a b : bytes (a ++ b) <-> bytes a /\ bytes b.
Proof. unfold bytes; apply Forall_app. Qed.

Lemma bytesb_spec l : bytesb l = true <-> bytes l.
Proof.
  unfold bytesb, bytes. rewrite forallb_forall, Forall_forall.
  split; intros H x Hx; specialize (H x Hx); unfold is_byteb, is_byte in *; lia.
Qed.

Lemma le_enc_swapb n v : le_enc n (swapb n v) = rev (le_enc n v).
Proof.
  unfold swapb. rewrite <- (le_enc_dec (rev (le_enc n v))) at 2.
  2:{ apply bytes_rev, le_enc_bytes. }
  rewrite rev_length, le_enc_length. reflexivity.
Qed.

Lemma le_enc_mod n v : le_enc n (v mod 256 ^ Z.of_nat n) = le_enc n v.
Proof.
  rewrite <- le_dec_enc.
  rewrite <- (le_enc_dec (le_enc n v)) at 2 by apply le_enc_bytes.
  rewrite le_enc_length. reflexivity.
Qed.

Lemma swapb_bound n v : 0 <= swapb n v < 256 ^ Z.of_nat n.
Proof.
  unfold swapb. replace (Z.of_nat n) with (len (rev (le_enc n v))).
  - apply le_dec_bound, bytes_rev, le_enc_bytes.
  - unfold len. rewrite rev_length, le_enc_length. reflexivity.
Qed.

Lemma swapb_invol n v : 0 <= v < 256 ^ Z.of_nat n -> swapb n (swapb n v) = v.
Proof.
  intros H. unfold swapb at 1. rewrite le_enc_swapb, rev_involutive, le_dec_enc.
  apply Z.mod_small; exact H.
Qed.

(** ** Cursors *)

Lemma ptake_app n d c : List.length d = n -> ptake n (d ++ c) = Ok (d, c).
Proof.
  intros <-. unfold ptake. rewrite app_length.
  destruct (Nat.leb_spec (List.length d) (List.length d + List.length c)); [|lia].
  rewrite firstn_app, Nat.sub_diag, firstn_all, skipn_app, Nat.sub_diag, skipn_all.
  cbn. rewrite app_nil_r. reflexivity.
Qed.

Lemma pread_app n d c : List.length d = n -> pread n (d ++ c) = Ok (le_dec d, c).
Proof. intros H. unfold pread, pmap, pbind. rewrite (ptake_app n d c H). reflexivity. Qed.

Lemma pskip_app n d c : List.length d = n -> pskip n (d ++ c) = Ok (tt, c).
Proof.
  intros <-. unfold pskip. rewrite app_length.
  destruct (Nat.leb_spec (List.length d) (List.length d + List.length c)); [|lia].
  rewrite skipn_app, Nat.sub_diag, skipn_all. reflexivity.
Qed.

Lemma pbind_ok {A B} (p : P A) (f : A -> P B) c a c' :
  p c = Ok (a, c') -> pbind p f c = f a c'.
Proof. unfold pbind; intros ->; reflexivity. Qed.

Lemma pmap_ok {A B} (f : A -> B) (p : P A) c a c' :
  p c = Ok (a, c') -> pmap f p c = Ok (f a, c').
Proof. unfold pmap, pbind, pret; intros ->; reflexivity. Qed.

(** A fixed-size reader succeeds on any cursor that is long enough. *)
Lemma ptake_ok n c : (n <= List.length c)%nat -> ptake n c = Ok (firstn n c, skipn n c).
Proof. unfold ptake. intros H. apply Nat.leb_le in H. rewrite H. reflexivity. Qed.

Lemma pread_ok n c : (n <= List.length c)%nat ->
  pread n c = Ok (le_dec (firstn n c), skipn n c).
Proof. intros H. unfold pread, pmap, pbind, pret. rewrite ptake_ok by exact H. reflexivity. Qed.

(** ** Output cursors *)

Lemma wput_app d d' c : List.length d' = List.length d -> wput d (d' ++ c) = Ok (d, c).
Proof.
  intros H. unfold wput. rewrite app_length, H.
  destruct (Nat.leb_spec (List.length d) (List.length d + List.length c)); [|lia].
  rewrite skipn_app, <- H, skipn_all, Nat.sub_diag. reflexivity.
Qed.

Lemma wput_ok d c : (List.length d <= List.length c)%nat ->
  wput d c = Ok (d, skipn (List.length d) c).
Proof. unfold wput. intros H. apply Nat.leb_le in H. rewrite H. reflexivity. Qed.

Lemma wskip_ok n c : (n <= List.length c)%nat -> wskip n c = Ok (firstn n c, skipn n c).
Proof. unfold wskip. intros H. apply Nat.leb_le in H. rewrite H. reflexivity. Qed.

(** ** Slices and arrays *)

Lemma slice_mid {A} (a b c : list A) :
  slice (len a) (len b) (a ++ b ++ c) = b.
Proof.
  unfold slice. rewrite !len_to_nat, skipn_app, skipn_all, Nat.sub_diag. cbn [skipn app].
  rewrite firstn_app, firstn_all, Nat.sub_diag. cbn. apply app_nil_r.
Qed.

Lemma slice_length {A} off n (l : list A) :
  0 <= off -> 0 <= n -> off + n <= len l -> len (slice off n l) = n.
Proof.
  intros Ho Hn H. unfold slice, len in *. rewrite firstn_length, skipn_length. lia.
Qed.

Lemma skipn_skipn' {A} (a b : nat) (l : list A) :
  skipn a (skipn b l) = skipn (b + a) l.
Proof.
  revert l; induction b as [|b IH]; intros l; [reflexivity|].
  destruct l; [destruct a; reflexivity|]. cbn [skipn Nat.add]. apply IH.
Qed.

Lemma nth_error_firstn' {A} (n i : nat) (l : list A) :
  nth_error (firstn n l) i = if Nat.ltb i n then nth_error l i else None.
Proof.
  revert n l; induction i as [|i IH]; intros [|n] [|x l];
    cbn [firstn nth_error]; try reflexivity.
  - destruct (Nat.ltb (S i) (S n)); reflexivity.
  - rewrite IH. reflexivity.
Qed.

Lemma nth_error_skipn' {A} (n i : nat) (l : list A) :
  nth_error (skipn n l) i = nth_error l (n + i).
Proof.
  revert l; induction n as [|n IH]; intros [|x l]; cbn; try reflexivity.
  - destruct i; reflexivity.
  - apply IH.
Qed.

Lemma upd_ok buf off d :
  0 <= off -> off + len d <= len buf ->
  upd buf off d = Ok (firstn (Z.to_nat off) buf ++ d
                      ++ skipn (Z.to_nat (off + len d)) buf).
Proof.
  intros Ho Hd. unfold upd.
  destruct ((0 <=? off) && (off + len d <=? len buf)) eqn:E; [reflexivity|lia].
Qed.

Lemma upd_length buf off d buf' :
  upd buf off d = Ok buf' -> len buf' = len buf.
Proof.
  unfold upd. destruct ((0 <=? off) && (off + len d <=? len buf)) eqn:E; [|discriminate].
  intros H; injection H as <-. rewrite !len_app. unfold len in *.
  rewrite firstn_length, skipn_length. lia.
Qed.

(** Reading back an updated range, and any disjoint range. *)
Lemma upd_slice_same buf off d buf' :
  upd buf off d = Ok buf' -> slice off (len d) buf' = d.
Proof.
  unfold upd. destruct ((0 <=? off) && (off + len d <=? len buf)) eqn:E; [|discriminate].
  intros H; injection H as <-.
  replace off with (len (firstn (Z.to_nat off) buf)) at 1.
  - apply slice_mid.
  - unfold len in *. rewrite firstn_length. lia.
Qed.

Lemma nth_error_slice {A} off n (l : list A) i :
  nth_error (slice off n l) i =
  if Nat.ltb i (Z.to_nat n) then nth_error l (Z.to_nat off + i) else None.
Proof.
  unfold slice. destruct (Nat.ltb_spec i (Z.to_nat n)) as [H|H].
  - rewrite nth_error_firstn'.
    destruct (Nat.ltb_spec i (Z.to_nat n)); [|lia].
    rewrite nth_error_skipn'. f_equal.
  - apply nth_error_None. rewrite firstn_length. lia.
Qed.
