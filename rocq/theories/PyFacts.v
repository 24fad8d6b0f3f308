(** Lemmas about the model of the Python module. *)
From Coq Require Import String.
From Verif Require Import BaseFacts Bcd BcdSpec BcdFacts2 Platform CodecSpec Fp FpSpec TraceHdr SegyTypes SegyCodec ISegy Sorted1D
  SegdTypes SegdSpec SegdDecSpec Segd3Spec SegyDecSpec ISegd Segd3Facts Segd3Props PyBind PySpec.
Local Open Scope string_scope.
Local Open Scope list_scope.
Local Open Scope Z_scope.

(** ** UTF-8 *)

Lemma dec_char c l m : utf8_char c l -> utf8_dec (l ++ m) = option_map (cons c) (utf8_dec m).
Proof.
  intros H. destruct H as [c R|c a b -> Sb R|c a b d -> Sb Sd R N|c a b d e -> Sb Sd Se R]; unfold six in *; cbn [app utf8_dec].
  - destruct (Z.ltb_spec c 0x80); [reflexivity|lia].
  - destruct (Z.ltb_spec (0xc0 + a) 0x80); [lia|]. unfold cont.
    replace ((128 <=? 128 + b) && (128 + b <? 192)) with true by lia. cbn [negb].
    replace ((194 <=? 192 + a) && (192 + a <? 224)) with true by lia.
    replace ((192 + a - 192) * 64 + (128 + b - 128)) with (a * 64 + b) by lia. reflexivity.
  - destruct (Z.ltb_spec (0xe0 + a) 0x80); [lia|]. unfold cont.
    replace ((128 <=? 128 + b) && (128 + b <? 192)) with true by lia. cbn [negb].
    replace ((194 <=? 224 + a) && (224 + a <? 224)) with false by lia.
    replace ((128 <=? 128 + d) && (128 + d <? 192)) with true by lia. cbn [negb].
    replace ((224 <=? 224 + a) && (224 + a <? 240)) with true by lia. cbn zeta.
    replace ((224 + a - 224) * 4096 + (128 + b - 128) * 64 + (128 + d - 128)) with (a * 4096 + b * 64 + d) by lia.
    unfold surrogate. replace ((a * 4096 + b * 64 + d <? 2048) || _) with false by lia. reflexivity.
  - destruct (Z.ltb_spec (0xf0 + a) 0x80); [lia|]. unfold cont.
    replace ((128 <=? 128 + b) && (128 + b <? 192)) with true by lia. cbn [negb].
    replace ((194 <=? 240 + a) && (240 + a <? 224)) with false by lia.
    replace ((128 <=? 128 + d) && (128 + d <? 192)) with true by lia. cbn [negb].
    replace ((224 <=? 240 + a) && (240 + a <? 240)) with false by lia.
    replace ((128 <=? 128 + e) && (128 + e <? 192)) with true by lia. cbn [negb].
    replace ((240 <=? 240 + a) && (240 + a <? 245)) with true by lia. cbn [negb orb]. cbn zeta.
    replace ((240 + a - 240) * 262144 + (128 + b - 128) * 4096 + (128 + d - 128) * 64 + (128 + e - 128))
      with (a * 262144 + b * 4096 + d * 64 + e) by lia.
    replace ((a * 262144 + b * 4096 + d * 64 + e <? 65536) || (1114112 <=? a * 262144 + b * 4096 + d * 64 + e)) with false by lia.
    reflexivity.
Qed.
Lemma dec_complete u l : utf8 u l -> utf8_dec l = Some u.
Proof. induction 1 as [|c u l m H _ IH]; [reflexivity|]. rewrite (dec_char _ _ _ H), IH. reflexivity. Qed.

Lemma dec_sound n : forall l u, (List.length l <= n)%nat -> bytes l -> utf8_dec l = Some u -> utf8 u l.
Proof.
  induction n as [|n IH]; intros l u Hl Hb E.
  { destruct l; [|cbn in Hl; lia]. injection E as <-. constructor. }
  destruct l as [|a l1]; [injection E as <-; constructor|]. cbn [utf8_dec] in E. cbn [List.length] in Hl.
  inversion Hb as [|? ? Ra Hb1]; subst. unfold is_byte in Ra.
  destruct (Z.ltb_spec a 0x80) as [Q|Q].
  { destruct (utf8_dec l1) as [v|] eqn:D; [|discriminate]. injection E as <-.
    change (a :: l1) with ([a] ++ l1). constructor; [constructor; lia|]. apply IH; [lia|exact Hb1|exact D]. }
  destruct l1 as [|b l2]; [discriminate|]. cbn [List.length] in Hl. inversion Hb1 as [|? ? Rb Hb2]; subst.
  destruct (cont b) eqn:Cb; [|discriminate]. cbn [negb] in E. unfold cont in Cb.
  destruct ((0xc2 <=? a) && (a <? 0xe0)) eqn:A2.
  { destruct (utf8_dec l2) as [v|] eqn:D; [|discriminate]. injection E as <-.
    change (a :: b :: l2) with ([a; b] ++ l2).
    replace a with (0xc0 + (a - 0xc0)) at 2 by lia. replace b with (0x80 + (b - 0x80)) at 2 by lia.
    constructor; [apply U2 with (a := a - 0xc0) (b := b - 0x80); unfold six; lia|].
    apply IH; [lia|exact Hb2|exact D]. }
  destruct l2 as [|c l3]; [discriminate|]. cbn [List.length] in Hl. inversion Hb2 as [|? ? Rc Hb3]; subst.
  destruct (cont c) eqn:Cc; [|discriminate]. cbn [negb] in E. unfold cont in Cc.
  destruct ((0xe0 <=? a) && (a <? 0xf0)) eqn:A3.
  { cbn zeta in E. unfold surrogate in E.
    destruct (_ || _) eqn:K in E; [discriminate|].
    destruct (utf8_dec l3) as [v|] eqn:D; [|discriminate]. injection E as <-.
    change (a :: b :: c :: l3) with ([a; b; c] ++ l3).
    replace a with (0xe0 + (a - 0xe0)) at 2 by lia. replace b with (0x80 + (b - 0x80)) at 2 by lia.
    replace c with (0x80 + (c - 0x80)) at 2 by lia.
    constructor; [apply U3 with (a := a - 0xe0) (b := b - 0x80) (d := c - 0x80); unfold six; lia|].
    apply IH; [lia|exact Hb3|exact D]. }
  destruct l3 as [|d l4]; [discriminate|]. cbn [List.length] in Hl. inversion Hb3 as [|? ? Rd Hb4]; subst.
  destruct (cont d) eqn:Cd; [|discriminate]. cbn [negb orb] in E. unfold cont in Cd.
  destruct ((0xf0 <=? a) && (a <? 0xf5)) eqn:A4; [|discriminate]. cbn [negb] in E. cbn zeta in E.
  destruct (_ || _) eqn:K in E; [discriminate|].
  destruct (utf8_dec l4) as [v|] eqn:D; [|discriminate]. injection E as <-.
  change (a :: b :: c :: d :: l4) with ([a; b; c; d] ++ l4).
  replace a with (0xf0 + (a - 0xf0)) at 2 by lia. replace b with (0x80 + (b - 0x80)) at 2 by lia.
  replace c with (0x80 + (c - 0x80)) at 2 by lia. replace d with (0x80 + (d - 0x80)) at 2 by lia.
  constructor; [apply U4 with (a := a - 0xf0) (b := b - 0x80) (d := c - 0x80) (e := d - 0x80); unfold six; lia|].
  apply IH; [lia|exact Hb4|exact D].
Qed.

Lemma dec_shown l : bytes l ->
  text_shown l (match utf8_dec l with Some u => Ret (PStr u) | None => Raise UnicodeDecodeError end).
Proof.
  intros Hb. destruct (utf8_dec l) as [u|] eqn:E.
  - left. exists u. split; [exact (dec_sound _ l u (le_n _) Hb E)|reflexivity].
  - right. split; [|reflexivity]. intros u H. apply dec_complete in H. congruence.
Qed.

Lemma enc1_char c e : 0 <= c < 0x110000 -> utf8_enc1 c = Some e -> utf8_char c e.
Proof.
  intros R. unfold utf8_enc1. destruct (Z.ltb_spec c 0x80); [intros E; injection E as <-; constructor; lia|].
  destruct (Z.ltb_spec c 0x800).
  { intros E. injection E as <-. apply U2; [rewrite (Z.div_mod c 64) at 1 by lia; lia|apply Z.mod_pos_bound; lia|lia]. }
  unfold surrogate. destruct (_ && _) eqn:S; [discriminate|].
  pose proof (Z.div_mod c 64 ltac:(lia)) as D1. pose proof (Z.div_mod (c / 64) 64 ltac:(lia)) as D2.
  rewrite Z.div_div in D2 by lia. change (64 * 64) with 4096 in D2.
  pose proof (Z.mod_pos_bound c 64 ltac:(lia)). pose proof (Z.mod_pos_bound (c / 64) 64 ltac:(lia)).
  destruct (Z.ltb_spec c 0x10000).
  { intros E. injection E as <-. apply U3; unfold six; lia. }
  pose proof (Z.div_mod (c / 4096) 64 ltac:(lia)) as D3. rewrite Z.div_div in D3 by lia. change (4096 * 64) with 262144 in D3.
  pose proof (Z.mod_pos_bound (c / 4096) 64 ltac:(lia)).
  intros E. injection E as <-. apply U4; unfold six; lia.
Qed.
Lemma enc_utf8 u : Forall (fun c => 0 <= c < 0x110000) u -> forall e, utf8_enc u = Some e -> utf8 u e.
Proof.
  induction 1 as [|c u R _ IH]; intros e E; cbn [utf8_enc] in E; [injection E as <-; constructor|].
  destruct (utf8_enc1 c) as [a|] eqn:E1; [|discriminate]. destruct (utf8_enc u) as [b|]; [|discriminate].
  injection E as <-. constructor; [exact (enc1_char _ _ R E1)|auto].
Qed.

(** ** Attributes *)

(** Where an attribute is stored, and the length of a text. *)
Definition slot (k : pyclass) (a : string) : option (nat * option nat) :=
  match find_attr k a with
  | Some (Rw _ m) => option_map (fun x => (fst x, None)) (find_member m (k_members k))
  | Some (Chars _ m n) => option_map (fun x => (fst x, Some n)) (find_member m (k_members k))
  | None => None
  end.
Definition show_slot (o : option nat) (v : option bval) : pyres pyval :=
  match o, v with
  | None, Some (BInt z) => Ret (PInt z)
  | None, Some (BDbl d) => Ret (PFloat d)
  | Some n, Some (BText l) =>
    if (List.length l <? n)%nat then PyUB
    else match utf8_dec (firstn n l) with Some u => Ret (PStr u) | None => Raise UnicodeDecodeError end
  | _, _ => PyUB
  end.
Lemma get_slot k vals a i o : slot k a = Some (i, o) -> py_get k vals a = show_slot o (nth_error vals i).
Proof.
  unfold slot, py_get. destruct (find_attr k a) as [[nm m|nm m n]|]; [| |discriminate];
    destruct (find_member m (k_members k)) as [[j t]|]; try discriminate; intros E; injection E as <- <-; cbn [fst];
    destruct (nth_error vals j) as [[z|d|l]|]; reflexivity.
Qed.

Definition text_len (m : member) : option nat := match m with Txt _ n => Some n | _ => None end.
Definition text_end (m : member) : nat := match m with Txt o n => (o + n)%nat | _ => O end.

Lemma show_member b m v : bytes b -> (text_end m <= List.length b)%nat -> shows b m v ->
  attr_shows b m (show_slot (text_len m) (Some v)).
Proof.
  intros Hb Hl H. destruct m; cbn [shows attr_shows text_len text_end] in *.
  - subst v. reflexivity.
  - subst v. reflexivity.
  - destruct H as (d & -> & H). exists d. split; [reflexivity|exact H].
  - subst v. reflexivity.
  - subst v. cbn [show_slot]. rewrite firstn_length, skipn_length.
    replace (Nat.min n (List.length b - o)) with n by lia. rewrite Nat.ltb_irrefl.
    rewrite firstn_firstn, Nat.min_id. apply dec_shown, bytes_firstn, bytes_skipn, Hb.
Qed.

Definition right_members (ty : Z) : list member :=
  match block_members ty, source_mid ty with
  | Some ms, _ => ms ++ [Num 31 1]
  | None, Some mid => source_front ++ mid ++ source_ids
  | None, None => []
  end.

Lemma Forall2_app_r {A B} (R : A -> B -> Prop) l m v w : Forall2 R l v -> Forall2 R m w -> Forall2 R (l ++ m) (v ++ w).
Proof. intros H1 H2. induction H1; cbn; [exact H2|constructor; auto]. Qed.
Lemma Forall2_nth {A B} (R : A -> B -> Prop) l v : Forall2 R l v -> forall i a, nth_error l i = Some a ->
  exists b, nth_error v i = Some b /\ R a b.
Proof.
  induction 1 as [|x y l v H _ IH]; intros [|i] a E; cbn in *; try discriminate.
  - injection E as <-. exists y. auto.
  - exact (IH i a E).
Qed.

Lemma right_shown ty x vs t : bytes x -> List.length x = 32%nat -> type_of x = ty -> block_shown ty x vs ->
  (block_members ty <> None -> t = ty) -> shown_sign ty x ->
  forall i m, nth_error (right_members ty) i = Some m ->
    exists v, nth_error (vs ++ [BInt t]) i = Some v /\ shows x m v.
Proof.
  intros Hb L Ty Sh Ht Sg i m. unfold block_shown, right_members in *. unfold shown_sign in Sg.
  destruct (block_members ty) as [ms|].
  - intros E. refine (Forall2_nth (shows x) _ _ _ i m E). apply Forall2_app_r; [exact Sh|].
    constructor; [|constructor]. cbn [shows]. rewrite (Ht ltac:(discriminate)), <- Ty. unfold type_of.
    rewrite SegdDecFacts.big1 by lia. reflexivity.
  - destruct (source_mid ty) as [mid|]; [|contradiction]. destruct Sh as (v1 & v2 & -> & _ & H).
    destruct (Sg ltac:(discriminate)) as [S1 S2]. intros E.
    destruct (Forall2_nth _ _ _ (H S1 S2) i m E) as (v & E1 & E2). exists v. split; [|exact E2].
    rewrite <- app_assoc, nth_error_app1; [exact E1|]. apply nth_error_Some. congruence.
Qed.

(** The table of the specification against the tables of the model. *)
Definition member_eqb (a b : member) : bool :=
  match a, b with
  | Num o n, Num o' n' | Int o n, Int o' n' | Txt o n, Txt o' n' => (o =? o')%nat && (n =? n')%nat
  | Fix o, Fix o' | Dig o, Dig o' => (o =? o')%nat
  | _, _ => false
  end.
Lemma member_eqb_true a b : member_eqb a b = true -> a = b.
Proof.
  destruct a, b; cbn; try discriminate; intros H;
    repeat match goal with
           | H : (_ && _)%bool = true |- _ => apply andb_prop in H as [? ?]
           | H : (_ =? _)%nat = true |- _ => apply Nat.eqb_eq in H; subst
           end; reflexivity.
Qed.
Definition inb (l : list string) (a : string) : bool := existsb (String.eqb a) l.
Lemma inb_in l a : inb l a = true -> In a l.
Proof.
  unfold inb. intros H. apply existsb_exists in H as (x & Hi & E). apply String.eqb_eq in E. subst. exact Hi.
Qed.

Definition attr_ok (k : pyclass) (ty : Z) (x : string * member) : bool :=
  inb (wrong_attrs ty) (fst x) ||
  match slot k (fst x) with
  | Some (i, o) =>
    match nth_error (right_members ty) i with
    | Some m => member_eqb m (snd x) && (text_end m <=? 32)%nat &&
                match o, text_len m with None, None => true | Some a, Some b => (a =? b)%nat | _, _ => false end
    | None => false
    end
  | None => false
  end.
Definition entry_ok (e : string * Z * list string) : bool :=
  let '(m, ty, names) := e in
  inb wrong_methods m ||
  match assoc py_methods m with
  | Some a =>
    match assoc cpp_accessors a, k_block ty with
    | Some ty', Some k =>
      (ty' =? ty) && existsb (Z.eqb ty) table_types && forallb (attr_ok k ty) (named ty names)
    | _, _ => false
    end
  | None => false
  end.
Lemma table_ok : forallb entry_ok block_table = true.
Proof. vm_compute. reflexivity. Qed.

(** The blocks of an open file. *)
Lemma blocks_known p content ls s : p_left_first p = true -> bytes content -> len content < 2 ^ 63 -> rev3 content ->
  2 <= add_of content < 15 -> isegd_open p content ls = Ok s -> blk3_inv (blocks3 content) (d_blocks s).
Proof.
  intros Hp Hb Hl Hr Ha E. destruct (open_shown3 p content ls s Hp Hb Hl Hr E) as ((_ & _ & _ & _ & _ & H & _) & _).
  assert (N : nblk content = add3_of content - 2).
  { unfold nblk, add3_of. destruct (Z.eqb_spec (add_of content) 15); [lia|]. unfold wrapu. apply Z.mod_small. lia. }
  rewrite N in H. exact H.
Qed.

Lemma object_inv s bl cls k : blk3_inv bl (d_blocks s) -> In cls table_types -> k_block cls = Some k ->
  (exists x vs t, last_of bl cls x /\ block_object s cls = Ok (Some (k, vs ++ [BInt t])) /\ bytes x /\ List.length x = 32%nat /\
     (block_members cls <> None -> t = cls) /\ block_shown cls x vs) \/
  ((forall x, In x bl -> type_of x <> cls) /\ block_object s cls = Ok None).
Proof.
  intros (Sd & I & K) Hc Ek. unfold block_object. destruct (bfind (d_blocks s) cls) as [b|] eqn:E.
  - left. destruct (I _ (bfind_in _ _ _ E)) as (x & vs & t & E1 & E2 & E3 & E4 & (E5 & E6) & E7). cbn [fst snd] in *. subst b.
    exists x, vs, t. rewrite Z.eqb_refl, Ek. auto 10.
  - right. split; [|reflexivity]. intros x Hx Ht. apply (bfind_none _ _ E). rewrite <- Ht. apply K; [exact Hx|]. rewrite Ht. exact Hc.
Qed.

Lemma last_of_unique bl k x y : last_of bl k x -> last_of bl k y -> x = y.
Proof.
  intros (i & Ei & Ti & Li) (j & Ej & Tj & Lj). destruct (Nat.lt_total i j) as [H|[->|H]].
  - exfalso. exact (Li j y H Ej Tj).
  - congruence.
  - exfalso. exact (Lj i x H Ei Ti).
Qed.

Lemma block_attributes p content ls s m ty names : p_left_first p = true -> bytes content -> len content < 2 ^ 63 ->
  rev3 content -> 2 <= add_of content < 15 -> isegd_open p content ls = Ok s ->
  In (m, ty, names) block_table -> ~ In m wrong_methods ->
  ((forall x, In x (blocks3 content) -> type_of x <> ty) -> py_block s m = Ret None) /\
  (forall x, last_of (blocks3 content) ty x -> exists o, py_block s m = Ret (Some o) /\
     (shown_sign ty x -> forall a f, In (a, f) (named ty names) -> ~ In a (wrong_attrs ty) -> attr_shows x f (getattr o a))).
Proof.
  intros Hp Hb Hl Hr Ha E Hin Hm. pose proof (blocks_known p content ls s Hp Hb Hl Hr Ha E) as I.
  pose proof table_ok as T. rewrite forallb_forall in T. specialize (T _ Hin). cbn [entry_ok] in T.
  destruct (inb wrong_methods m) eqn:W; [exfalso; exact (Hm (inb_in _ _ W))|]. cbn [orb] in T.
  unfold py_block. destruct (assoc py_methods m) as [a|]; [|discriminate].
  destruct (assoc cpp_accessors a) as [ty'|]; [|discriminate]. destruct (k_block ty) as [k|] eqn:Ek; [|discriminate].
  apply andb_prop in T as [T T3]. apply andb_prop in T as [T1 T2]. apply Z.eqb_eq in T1. subst ty'.
  assert (Ht : In ty table_types).
  { apply existsb_exists in T2 as (z & Hz & Ez). apply Z.eqb_eq in Ez. subst. exact Hz. }
  destruct (object_inv s _ ty k I Ht Ek) as [(y & vs & t & Ly & Eo & By & Ny & Kt & Sh)|[No Eo]]; rewrite Eo; cbn [from_cpp].
  - split.
    + intros No. exfalso. destruct Ly as (i & Ei & Ti & _). exact (No y (nth_error_In _ _ Ei) Ti).
    + intros x Lx. rewrite (last_of_unique _ _ _ _ Lx Ly). eexists. split; [reflexivity|].
      intros Sg b f Hf Nw. rewrite forallb_forall in T3. specialize (T3 _ Hf). unfold attr_ok in T3. cbn [fst snd] in T3.
      destruct (inb (wrong_attrs ty) b) eqn:Wb; [exfalso; exact (Nw (inb_in _ _ Wb))|]. cbn [orb] in T3.
      destruct (slot k b) as [[i o]|] eqn:Es; [|discriminate].
      destruct (nth_error (right_members ty) i) as [mm|] eqn:Em; [|discriminate].
      apply andb_prop in T3 as [T3 T5]. apply andb_prop in T3 as [T3 T4]. apply member_eqb_true in T3. subst mm.
      apply Nat.leb_le in T4.
      assert (Eo' : o = text_len f).
      { destruct o, (text_len f); try discriminate T5; [apply Nat.eqb_eq in T5; subst|]; reflexivity. }
      destruct Ly as (j & Ej & Tj & _).
      destruct (right_shown ty y vs t By Ny Tj Sh Kt Sg i f Em) as (v & Ev & Hv).
      unfold getattr. cbn [fst snd]. rewrite (get_slot _ _ _ _ _ Es), Ev, Eo'.
      apply show_member; [exact By|lia|exact Hv].
  - split; [reflexivity|]. intros x (i & Ei & Ti & _). exfalso. exact (No x (nth_error_In _ _ Ei) Ti).
Qed.

(** ** Assignments *)

Lemma nth_put l : forall i v, (i < List.length l)%nat -> nth_error (put l i v) i = Some v.
Proof. induction l as [|x l IH]; intros [|i] v H; cbn in *; try lia; [reflexivity|]. apply IH. lia. Qed.
Lemma nth_put_other l : forall i j v, i <> j -> nth_error (put l i v) j = nth_error l j.
Proof. induction l as [|x l IH]; intros [|i] [|j] v H; cbn; try reflexivity; try congruence. apply IH. congruence. Qed.

Lemma find_member_nth m l : forall i t, find_member m l = Some (i, t) -> nth_error (map snd l) i = Some t.
Proof.
  induction l as [|[m' t'] l IH]; intros i t; cbn [find_member map snd]; [discriminate|].
  destruct (String.eqb m m'); [intros E; injection E as <- <-; reflexivity|].
  destruct (find_member m l) as [[j u]|]; [|discriminate]. intros E. injection E as <- <-. exact (IH _ _ eq_refl).
Qed.

(** The type of the place of an attribute. *)
Definition attr_type (k : pyclass) (a : string) : option ctype :=
  match find_attr k a with
  | Some (Rw _ m) | Some (Chars _ m _) => option_map snd (find_member m (k_members k))
  | None => None
  end.

Definition class_ok (k : pyclass) : bool :=
  forallb (fun x =>
    match slot k (attr_name x), attr_type k (attr_name x) with
    | Some (_, None), Some (CU _) | Some (_, None), Some (CI _) | Some (_, None), Some CD => true
    | Some (_, Some n), Some (CText n') => (n =? n')%nat
    | _, _ => false
    end) (k_attrs k).
Definition apart (k : pyclass) : bool :=
  forallb (fun x => forallb (fun y =>
    String.eqb (attr_name x) (attr_name y) ||
    match slot k (attr_name x), slot k (attr_name y) with
    | Some (i, _), Some (j, _) => negb (i =? j)%nat
    | _, _ => false
    end) (k_attrs k)) (k_attrs k).
Lemma classes_ok : forallb (fun c => class_ok (snd c)) classes = true.
Proof. vm_compute. reflexivity. Qed.
Lemma classes_apart : forallb (fun c => inb overlapping (fst c) || apart (snd c)) classes = true.
Proof. vm_compute. reflexivity. Qed.

Lemma find_attr_in k a x : find_attr k a = Some x -> In x (k_attrs k) /\ attr_name x = a.
Proof. unfold find_attr. intros H. apply find_some in H as [H1 H2]. apply String.eqb_eq in H2. auto. Qed.

Lemma get_none k vals a : find_attr k a = None -> py_get k vals a = Raise AttributeError.
Proof. unfold py_get. intros ->. reflexivity. Qed.

(** An attribute, its place, its type and the value there. *)
Lemma attr_place c k vals a x : In (c, k) classes -> instance (k, vals) -> find_attr k a = Some x ->
  exists i o t v, slot k a = Some (i, o) /\ nth_error (map snd (k_members k)) i = Some t /\ nth_error vals i = Some v /\
    has_type t v /\ attr_type k a = Some t /\
    match o, t with None, CText _ => False | None, _ => True | Some n, CText n' => n = n' | _, _ => False end.
Proof.
  intros Hin I F. pose proof classes_ok as C. rewrite forallb_forall in C. specialize (C _ Hin). cbn [snd] in C.
  unfold class_ok in C. rewrite forallb_forall in C. destruct (find_attr_in _ _ _ F) as [Fi Fn]. specialize (C _ Fi).
  rewrite Fn in C. unfold slot, attr_type in *. rewrite F in C |- *. unfold instance in I. cbn [fst snd] in I.
  assert (G : forall m, match find_member m (k_members k) with
    | Some (i, t) => exists v, nth_error (map snd (k_members k)) i = Some t /\ nth_error vals i = Some v /\ has_type t v
    | None => True end).
  { intros m. destruct (find_member m (k_members k)) as [[i t]|] eqn:E; [|exact Logic.I]. apply find_member_nth in E.
    destruct (Forall2_nth _ _ _ I _ _ E) as (v & E1 & E2). exists v. auto. }
  destruct x as [nm m|nm m n]; specialize (G m); destruct (find_member m (k_members k)) as [[i t]|]; try discriminate C;
    destruct G as (v & G1 & G2 & G3); cbn [option_map fst snd] in *; eexists i, _, t, v; (split; [reflexivity|]);
    do 4 (split; [assumption||reflexivity|]); destruct t; try discriminate C; try exact Logic.I. apply Nat.eqb_eq in C. exact C.
Qed.

Lemma put_instance k vals i t x : instance (k, vals) -> nth_error (map snd (k_members k)) i = Some t -> has_type t x ->
  instance (k, put vals i x).
Proof.
  unfold instance. cbn [fst snd]. intros I. revert i. induction I as [|t0 v0 ts vs H Hr IH]; intros [|i] E Hx; cbn in *; try discriminate.
  - injection E as ->. constructor; [exact Hx|exact Hr].
  - constructor; [exact H|]. auto.
Qed.

Lemma Forall2_len {A B} (R : A -> B -> Prop) l v : Forall2 R l v -> List.length l = List.length v.
Proof. induction 1; cbn; congruence. Qed.
Lemma put_put_instance k vals i t x : instance (k, vals) -> nth_error (map snd (k_members k)) i = Some t -> has_type t x ->
  nth_error (put vals i x) i = Some x.
Proof.
  intros I E _. apply nth_put. unfold instance in I. cbn [fst snd] in I. rewrite <- (Forall2_len _ _ _ I).
  apply nth_error_Some. congruence.
Qed.

Lemma put_other c k vals a i o x b : In (c, k) classes -> ~ In c overlapping -> slot k a = Some (i, o) -> b <> a ->
  py_get k (put vals i x) b = py_get k vals b.
Proof.
  intros Hin Hc Sa N. destruct (find_attr k b) as [y|] eqn:F; [|rewrite !get_none by exact F; reflexivity].
  pose proof classes_apart as C. rewrite forallb_forall in C. specialize (C _ Hin). cbn [fst snd] in C.
  destruct (inb overlapping c) eqn:W; [exfalso; exact (Hc (inb_in _ _ W))|]. cbn [orb] in C. unfold apart in C.
  rewrite forallb_forall in C.
  assert (Fa : exists xa, find_attr k a = Some xa).
  { unfold slot in Sa. destruct (find_attr k a); [eexists; reflexivity|discriminate]. }
  destruct Fa as (xa & Fa). destruct (find_attr_in _ _ _ Fa) as [Ia Na]. destruct (find_attr_in _ _ _ F) as [Ib Nb].
  specialize (C _ Ia). rewrite forallb_forall in C. specialize (C _ Ib). rewrite Na, Nb in C.
  destruct (String.eqb_spec a b) as [E|_]; [congruence|]. cbn [orb] in C. rewrite Sa in C.
  destruct (slot k b) as [[j o']|] eqn:Sb; [|discriminate].
  rewrite !(get_slot _ _ _ _ _ Sb). rewrite nth_put_other; [reflexivity|].
  intros ->. rewrite Nat.eqb_refl in C. discriminate.
Qed.

Lemma set_rw k vals a v i t : slot k a = Some (i, None) -> attr_type k a = Some t ->
  py_set k vals a v = match as_member t v with Some x => Ret (put vals i x) | None => Raise TypeError end.
Proof.
  unfold slot, attr_type, py_set. destruct (find_attr k a) as [[nm m|nm m n]|]; [| |discriminate];
    destruct (find_member m (k_members k)) as [[j u]|]; cbn [option_map fst snd]; intros E1 E2; try discriminate.
  injection E1 as <-. injection E2 as <-. reflexivity.
Qed.
Lemma set_chars k vals a v i n : slot k a = Some (i, Some n) ->
  py_set k vals a v = match as_string v with
    | None => Raise TypeError
    | Some s => match nth_error vals i with
                | Some (BText l) => if (List.length l <? n)%nat then PyUB else Ret (put vals i (BText (strncpy l s n)))
                | _ => PyUB end end.
Proof.
  unfold slot, py_set. destruct (find_attr k a) as [[nm m|nm m n']|]; [| |discriminate];
    destruct (find_member m (k_members k)) as [[j u]|]; cbn [option_map fst snd]; intros E1; try discriminate.
  injection E1 as <- <-. destruct (as_string v); reflexivity.
Qed.

Lemma as_member_type t v x : as_member t v = Some x -> has_type t x.
Proof.
  destruct t, v; cbn [as_member]; try discriminate; try (intros E; injection E as <-; exact Logic.I).
  - unfold in_u. destruct (_ && _) eqn:R; [|discriminate]. intros E. injection E as <-. cbn [has_type]. lia.
  - unfold in_i. destruct (_ && _) eqn:R; [|discriminate]. intros E. injection E as <-. cbn [has_type]. lia.
  - destruct (d_lt _ _); [|discriminate]. intros E. injection E as <-. exact Logic.I.
Qed.

Definition is_float (r : pyres pyval) : bool := match r with Ret (PFloat _) => true | _ => false end.

(** One assignment of a number. *)
Lemma set_number c k vals a v o' : In (c, k) classes -> instance (k, vals) -> is_number v ->
  setattr (k, vals) a v = Ret o' ->
  fst o' = k /\ instance o' /\ shown_after (getattr (k, vals) a) v (getattr o' a) /\
  is_float (getattr o' a) = is_float (getattr (k, vals) a) /\
  (~ In c overlapping -> forall b, b <> a -> getattr o' b = getattr (k, vals) b).
Proof.
  intros Hin I Hn. unfold setattr. cbn [fst snd]. destruct (py_set k vals a v) as [vals'| |] eqn:E; try discriminate.
  intros E'. injection E' as <-. cbn [fst]. split; [reflexivity|].
  destruct (find_attr k a) as [x|] eqn:F; [|unfold py_set in E; rewrite F in E; discriminate].
  destruct (attr_place c k vals a x Hin I F) as (i & o & t & w & Sl & Tm & Nv & Ht & At & Ok).
  destruct o as [n|].
  { rewrite (set_chars _ _ _ _ _ _ Sl) in E. destruct v; try contradiction; discriminate E. }
  rewrite (set_rw _ _ _ _ _ _ Sl At) in E. destruct (as_member t v) as [y|] eqn:Ay; [|discriminate].
  injection E as <-. split; [exact (put_instance _ _ _ _ _ I Tm (as_member_type _ _ _ Ay))|]. apply and_assoc. split.
  - unfold getattr. cbn [fst snd]. rewrite !(get_slot _ _ _ _ _ Sl), Nv.
    rewrite (put_put_instance _ _ _ _ _ I Tm (as_member_type _ _ _ Ay)).
    destruct t, v, w; cbn [as_member has_type] in *; try discriminate; try contradiction; cbn [show_slot shown_after is_float].
    + destruct (in_u bits z); [injection Ay as <-; split; reflexivity|discriminate].
    + destruct (in_i bits z); [injection Ay as <-; split; reflexivity|discriminate].
    + destruct (d_lt _ _); [|discriminate]. injection Ay as <-. split; [|reflexivity]. exists (i2d z). split; [reflexivity|].
      intros R. apply FpReal.i2d_holds, R.
    + injection Ay as <-. split; reflexivity.
  - intros Hc b Nb. exact (put_other c k vals a i None y b Hin Hc Sl Nb).
Qed.

Lemma shown_after_kind old old' v new : is_float old = is_float old' -> shown_after old v new -> shown_after old' v new.
Proof.
  unfold shown_after, is_float. destruct v; auto. destruct old as [[| | |]| |], old' as [[| | |]| |]; intros E; try discriminate E; auto.
Qed.

Lemma assignments c k : In (c, k) classes -> ~ In c overlapping -> forall l vals o', instance (k, vals) ->
  Forall (fun x => is_number (snd x)) l -> assign_all (k, vals) l = Ret o' ->
  fst o' = k /\ instance o' /\
  forall a, match last_value l a with
            | Some v => shown_after (getattr (k, vals) a) v (getattr o' a)
            | None => getattr o' a = getattr (k, vals) a
            end.
Proof.
  intros Hin Hc. induction l as [|[b v] l IH]; intros vals o' I F E; cbn [assign_all last_value] in *.
  - injection E as <-. auto.
  - destruct (setattr (k, vals) b v) as [o1| |] eqn:E1; try discriminate. inversion F as [|? ? Hv Hl]; subst. cbn [snd] in Hv.
    destruct (set_number c k vals b v o1 Hin I Hv E1) as (K1 & I1 & S1 & F1 & O1). specialize (O1 Hc).
    destruct o1 as [k1 vals1]. cbn [fst] in K1. subst k1.
    destruct (IH vals1 o' I1 Hl E) as (K2 & I2 & H2). split; [exact K2|]. split; [exact I2|]. intros a. specialize (H2 a).
    destruct (String.eqb_spec b a) as [->|N].
    + destruct (last_value l a) as [w|]; [exact (shown_after_kind _ _ _ _ F1 H2)|]. rewrite H2. exact S1.
    + rewrite (O1 a ltac:(congruence)) in H2. destruct (last_value l a); exact H2.
Qed.

(** ** Text *)

Lemma char_enc1 c e : utf8_char c e -> utf8_enc1 c = Some e.
Proof.
  intros H. destruct H as [c R|c a b -> Sb R|c a b d -> Sb Sd R N|c a b d e -> Sb Sd Se R]; unfold six, utf8_enc1 in *.
  - destruct (Z.ltb_spec c 0x80); [reflexivity|lia].
  - destruct (Z.ltb_spec (a * 64 + b) 0x80); [lia|]. destruct (Z.ltb_spec (a * 64 + b) 0x800); [|lia].
    rewrite Z.div_add_l, Z.div_small by lia. rewrite Z.add_comm at 1. rewrite (Z.add_comm (a * 64)), Z.mod_add, Z.mod_small by lia.
    rewrite Z.add_0_r. do 2 f_equal. lia.
  - set (c := a * 4096 + b * 64 + d) in *. destruct (Z.ltb_spec c 0x80); [lia|]. destruct (Z.ltb_spec c 0x800); [lia|].
    unfold surrogate. replace ((55296 <=? c) && (c <? 57344)) with false by lia. destruct (Z.ltb_spec c 0x10000); [|lia].
    assert (D1 : c / 64 = a * 64 + b) by (symmetry; apply Z.div_unique with d; unfold c; lia).
    assert (D2 : c / 4096 = a) by (symmetry; apply Z.div_unique with (b * 64 + d); unfold c; lia).
    assert (M1 : c mod 64 = d) by (symmetry; apply Z.mod_unique with (a * 64 + b); unfold c; lia).
    assert (M2 : (a * 64 + b) mod 64 = b) by (symmetry; apply Z.mod_unique with a; lia).
    rewrite D1, D2, M1, M2. reflexivity.
  - set (c := a * 262144 + b * 4096 + d * 64 + e) in *. destruct (Z.ltb_spec c 0x80); [lia|]. destruct (Z.ltb_spec c 0x800); [lia|].
    unfold surrogate. replace ((55296 <=? c) && (c <? 57344)) with false by lia. destruct (Z.ltb_spec c 0x10000); [lia|].
    assert (D1 : c / 64 = a * 4096 + b * 64 + d) by (symmetry; apply Z.div_unique with e; unfold c; lia).
    assert (D2 : c / 4096 = a * 64 + b) by (symmetry; apply Z.div_unique with (d * 64 + e); unfold c; lia).
    assert (D3 : c / 262144 = a) by (symmetry; apply Z.div_unique with (b * 4096 + d * 64 + e); unfold c; lia).
    assert (M1 : c mod 64 = e) by (symmetry; apply Z.mod_unique with (a * 4096 + b * 64 + d); unfold c; lia).
    assert (M2 : (a * 4096 + b * 64 + d) mod 64 = d) by (symmetry; apply Z.mod_unique with (a * 64 + b); lia).
    assert (M3 : (a * 64 + b) mod 64 = b) by (symmetry; apply Z.mod_unique with a; lia).
    rewrite D1, D2, D3, M1, M2, M3. reflexivity.
Qed.
Lemma utf8_encoded u e : utf8 u e -> utf8_enc u = Some e.
Proof. induction 1 as [|c u l m H _ IH]; [reflexivity|]. cbn [utf8_enc]. rewrite (char_enc1 _ _ H), IH. reflexivity. Qed.

Lemma char_zero c e : utf8_char c e -> In 0 e -> c = 0.
Proof. intros H. destruct H; unfold six in *; cbn [In]; intros Hi; repeat destruct Hi as [Hi|Hi]; try contradiction; lia. Qed.
Lemma utf8_zero u e : utf8 u e -> In 0 e -> In 0 u.
Proof.
  induction 1 as [|c u l m H _ IH]; [auto|]. intros Hi. apply in_app_iff in Hi as [Hi|Hi]; [left; exact (char_zero _ _ H Hi)|right; auto].
Qed.
Lemma c_str_id s : ~ In 0 s -> c_str s = s.
Proof.
  induction s as [|c s IH]; intros H; cbn [c_str]; [reflexivity|]. destruct (Z.eqb_spec c 0) as [->|_]; [exfalso; apply H; left; reflexivity|].
  rewrite IH; [reflexivity|]. intros Hi. apply H. right. exact Hi.
Qed.
Lemma utf8_app u e : utf8 u e -> forall v f, utf8 v f -> utf8 (u ++ v) (e ++ f).
Proof. induction 1 as [|c u l m H _ IH]; intros v f Hv; [exact Hv|]. cbn [app]. rewrite <- app_assoc. constructor; auto. Qed.
Lemma utf8_nuls n : utf8 (repeat 0 n) (repeat 0 n).
Proof. induction n; cbn [repeat]; [constructor|]. change (0 :: repeat 0 n) with ([0] ++ repeat 0 n) at 2. constructor; [constructor; lia|assumption]. Qed.

Lemma strncpy_fits l e n : List.length l = n -> ~ In 0 e -> (List.length e <= n)%nat ->
  strncpy l e n = e ++ repeat 0 (n - List.length e).
Proof.
  intros Hl H0 He. unfold strncpy. rewrite (c_str_id _ H0), (firstn_all2 e He), (skipn_all2 l) by lia. rewrite app_nil_r. reflexivity.
Qed.

Lemma set_text c k vals a n u e : In (c, k) classes -> instance (k, vals) -> attr_type k a = Some (CText n) ->
  utf8 u e -> ~ In 0 u -> (List.length e <= n)%nat ->
  exists o', setattr (k, vals) a (PStr u) = Ret o' /\ fst o' = k /\
    getattr o' a = Ret (PStr (u ++ repeat 0 (n - List.length e))) /\
    (~ In c overlapping -> forall b, b <> a -> getattr o' b = getattr (k, vals) b).
Proof.
  intros Hin I At Hu H0 Hn.
  destruct (find_attr k a) as [x|] eqn:F; [|unfold attr_type in At; rewrite F in At; discriminate].
  destruct (attr_place c k vals a x Hin I F) as (i & o & t & w & Sl & Tm & Nv & Ht & At' & Ok).
  assert (t = CText n) by congruence. subst t. destruct o as [n'|]; [|contradiction]. subst n'.
  destruct w as [z|d|l]; cbn [has_type] in Ht; try contradiction. destruct Ht as [Ll Bl].
  unfold setattr. cbn [fst snd]. rewrite (set_chars _ _ _ _ _ _ Sl). cbn [as_string]. rewrite (utf8_encoded _ _ Hu), Nv, Ll, Nat.ltb_irrefl.
  assert (N0 : ~ In 0 e) by (intros Hi; exact (H0 (utf8_zero _ _ Hu Hi))).
  rewrite (strncpy_fits l e n Ll N0 Hn). eexists. split; [reflexivity|]. split; [reflexivity|]. split.
  - unfold getattr. cbn [fst snd]. rewrite (get_slot _ _ _ _ _ Sl), nth_put.
    + cbn [show_slot]. rewrite app_length, repeat_length. replace (List.length e + (n - List.length e))%nat with n by lia.
      rewrite Nat.ltb_irrefl. rewrite firstn_all2 by (rewrite app_length, repeat_length; lia).
      rewrite (dec_complete (u ++ repeat 0 (n - List.length e))); [reflexivity|]. apply utf8_app; [exact Hu|apply utf8_nuls].
    + unfold instance in I. cbn [fst snd] in I. rewrite <- (Forall2_len _ _ _ I). apply nth_error_Some. congruence.
  - intros Hc b Nb. exact (put_other c k vals a i (Some n) _ b Hin Hc Sl Nb).
Qed.

(** Text attributes of the table: the class and the length. *)
Definition text_ok (e : string * Z * list string) : bool :=
  let '(m, ty, names) := e in
  match k_block ty with
  | Some k =>
    forallb (fun x => match snd x with
                      | Txt _ n => match attr_type k (fst x) with Some (CText n1) => (n1 =? n)%nat | _ => false end
                      | _ => true end) (named ty names)
  | None => false
  end.
Lemma texts_ok : forallb text_ok block_table = true.
Proof. vm_compute. reflexivity. Qed.

(** The class of a block is one of the list. *)
Lemma block_class ty k : k_block ty = Some k -> exists c, In (c, k) classes.
Proof.
  unfold k_block. intros H.
  repeat match type of H with
         | match ?x with _ => _ end = _ => is_var x; destruct x
         end; try discriminate H; injection H as <-; eexists;
  repeat (first [left; reflexivity | right]).
Qed.

Lemma block_text m ty names a o n k vals u e : In (m, ty, names) block_table -> In (a, Txt o n) (named ty names) ->
  k_block ty = Some k -> instance (k, vals) -> utf8 u e -> ~ In 0 u -> (List.length e <= n)%nat ->
  exists o', setattr (k, vals) a (PStr u) = Ret o' /\ fst o' = k /\
    getattr o' a = Ret (PStr (u ++ repeat 0 (n - List.length e))).
Proof.
  intros Hin Ha Ek I Hu H0 Hn. pose proof texts_ok as T. rewrite forallb_forall in T. specialize (T _ Hin). cbn [text_ok] in T.
  rewrite Ek in T. rewrite forallb_forall in T. specialize (T _ Ha). cbn [fst snd] in T.
  destruct (attr_type k a) as [[| | |n']|] eqn:At; try discriminate T. apply Nat.eqb_eq in T. subst n'.
  destruct (block_class ty k Ek) as (c & Hc).
  destruct (set_text c k vals a n u e Hc I At Hu H0 Hn) as (o' & E1 & E2 & E3 & _). exists o'. auto.
Qed.

(** ** The binary header *)

Lemma bin_get b i o a v : slot k_BinaryHeader a = Some (i, o) -> nth_error (v_bin b) i = Some v ->
  getattr (k_BinaryHeader, v_bin b) a = show_slot o (Some v).
Proof. intros E1 E2. unfold getattr. cbn [fst snd]. rewrite (get_slot _ _ _ _ _ E1), E2. reflexivity. Qed.

Ltac bin_attr := erewrite bin_get by (vm_compute; reflexivity); cbn [show_slot bin_field snd]; f_equal; f_equal; assumption.

Lemma bin_shown content o b : bin_says content o b ->
  forall a f, In (a, f) bin_table -> getattr (k_BinaryHeader, v_bin b) a = Ret (bin_field content o f).
Proof.
  unfold bin_says. intros H. decompose [and] H. clear H.
  assert (F : Forall (fun x => getattr (k_BinaryHeader, v_bin b) (fst x) = Ret (bin_field content o (snd x))) bin_table).
  { unfold bin_table. repeat (constructor; [cbn [fst snd]; bin_attr|]). constructor. }
  intros a f Hin. rewrite Forall_forall in F. exact (F _ Hin).
Qed.
Lemma bin2_shown content o b : bin2_says content o b ->
  forall a f, In (a, f) bin2_table -> getattr (k_BinaryHeader, v_bin b) a = Ret (bin_field content o f).
Proof.
  unfold bin2_says. intros H. decompose [and] H. clear H.
  assert (F : Forall (fun x => getattr (k_BinaryHeader, v_bin b) (fst x) = Ret (bin_field content o (snd x))) bin2_table).
  { unfold bin2_table. repeat (constructor; [cbn [fst snd]; bin_attr|]). constructor. }
  intros a f Hin. rewrite Forall_forall in F. exact (F _ Hin).
Qed.
Lemma bin2_blank b : bin2_zero b -> forall a f, In (a, f) bin2_table -> getattr (k_BinaryHeader, v_bin b) a = Ret (PInt 0).
Proof.
  unfold bin2_zero. intros H. decompose [and] H. clear H.
  assert (F : Forall (fun x => getattr (k_BinaryHeader, v_bin b) (fst x) = Ret (PInt 0)) bin2_table).
  { unfold bin2_table. repeat (constructor; [cbn [fst snd]; bin_attr|]). constructor. }
  intros a f Hin. rewrite Forall_forall in F. exact (F _ Hin).
Qed.

Definition bin_ok (x : string * bfld) : bool :=
  match slot k_BinaryHeader (fst x), attr_type k_BinaryHeader (fst x), snd x with
  | Some (i, None), Some (CI w), BS a b => (w =? 8 * (b - a + 1))
  | Some (i, None), Some (CU w), BN a b => (w =? 8 * (b - a + 1))
  | Some (i, None), Some CD, BF a b => true
  | _, _, _ => false
  end.
Lemma bins_ok : forallb bin_ok bin_all = true.
Proof. vm_compute. reflexivity. Qed.

Lemma bin_accepts vals a f v : In (a, f) bin_all -> instance (k_BinaryHeader, vals) ->
  (fits f v -> exists o', setattr (k_BinaryHeader, vals) a v = Ret o') /\
  (~ fits f v -> (forall x y z, f = BF x y -> v <> PInt z) -> setattr (k_BinaryHeader, vals) a v = Raise TypeError).
Proof.
  intros Hin I. pose proof bins_ok as T. rewrite forallb_forall in T. specialize (T _ Hin). unfold bin_ok in T. cbn [fst snd] in T.
  destruct (slot k_BinaryHeader a) as [[i [n|]]|] eqn:Sl; try discriminate T.
  destruct (attr_type k_BinaryHeader a) as [t|] eqn:At; [|discriminate T]. unfold setattr. cbn [fst snd].
  rewrite (set_rw _ _ _ _ _ _ Sl At).
  destruct t as [w|w| |n], f as [x y|x y|x y]; try discriminate T; try (apply Z.eqb_eq in T; subst w); destruct v as [z|d|u|u];
    cbn [fits as_member]; split; try (intros []; fail); try (intros; reflexivity).
  - intros H. replace (in_u _ z) with true by (unfold in_u; lia). eexists. reflexivity.
  - intros H _. replace (in_u _ z) with false by (unfold in_u; lia). reflexivity.
  - intros H. replace (in_i _ z) with true by (unfold in_i; lia). eexists. reflexivity.
  - intros H _. replace (in_i _ z) with false by (unfold in_i; lia). reflexivity.
  - intros _ H. exfalso. exact (H x y z eq_refl eq_refl).
  - intros _. eexists. reflexivity.
  - intros H. exfalso. apply H. exact Logic.I.
Qed.

(** ** Members and attributes of the same name *)
Definition pair_in (x : string * string) (l : list (string * string)) : bool :=
  existsb (fun y => String.eqb (fst x) (fst y) && String.eqb (snd x) (snd y)) l.
Lemma pair_in_true x l : pair_in x l = true -> In x l.
Proof.
  unfold pair_in. rewrite existsb_exists. intros (y & Hy & E). apply andb_true_iff in E as [E1 E2].
  apply String.eqb_eq in E1, E2. destruct x, y; cbn in *; subst; exact Hy.
Qed.
Definition hidden (c a : string) : bool := pair_in (c, a) (no_attribute ++ map fst other_member).
Definition mem_ok (c : string) (k : pyclass) (i : nat) (m : string * ctype) : bool :=
  match slot k (fst m) with
  | Some (j, o) => (i =? j)%nat && match o, snd m with
                                   | None, CText _ => false | None, _ => true
                                   | Some n, CText n' => (n =? n')%nat | _, _ => false end
  | None => false
  end.
Definition same_ok (c : string) (k : pyclass) : bool :=
  forallb (fun x => hidden c (fst (snd x)) || mem_ok c k (fst x) (snd x))
          (combine (seq 0 (List.length (k_members k))) (k_members k)).
Lemma sames_ok : forallb (fun x => same_ok (fst x) (snd x)) classes = true.
Proof. vm_compute. reflexivity. Qed.

Lemma in_enum {A} (l : list A) : forall b i a, nth_error l i = Some a -> In ((b + i)%nat, a) (combine (seq b (List.length l)) l).
Proof.
  induction l as [|x l IH]; intros b [|i] a H; cbn in *; try discriminate.
  - injection H as <-. left. f_equal. lia.
  - right. rewrite Nat.add_succ_r. apply (IH (S b) i a H).
Qed.

Lemma same_names c k vals i a t v : In (c, k) classes -> instance (k, vals) -> nth_error (k_members k) i = Some (a, t) ->
  nth_error vals i = Some v -> ~ In (c, a) no_attribute -> (forall m, ~ In (c, a, m) other_member) ->
  member_shown v (getattr (k, vals) a).
Proof.
  intros Hc I Hm Hv N1 N2. pose proof sames_ok as T. rewrite forallb_forall in T. specialize (T _ Hc). cbn [fst snd] in T.
  unfold same_ok in T. rewrite forallb_forall in T. specialize (T _ (in_enum _ 0%nat i (a, t) Hm)). cbn [fst snd] in T.
  apply orb_true_iff in T as [T|T].
  - exfalso. apply pair_in_true in T. apply in_app_iff in T as [T|T]; [exact (N1 T)|].
    apply in_map_iff in T as ([[c' a'] m] & E & T). cbn in E. injection E as -> ->. exact (N2 m T).
  - unfold mem_ok in T. cbn [fst snd] in T. destruct (slot k a) as [[j o]|] eqn:S1; [|discriminate].
    apply andb_true_iff in T as [T1 T2]. apply Nat.eqb_eq in T1. cbn in T1. subst j.
    unfold getattr. cbn [fst snd]. rewrite (get_slot _ _ _ _ _ S1), Hv.
    assert (Ht : has_type t v).
    { destruct (Forall2_nth _ _ _ I i t) as (v' & E1 & E2).
      - cbn [fst]. rewrite nth_error_map, Hm. reflexivity.
      - cbn [snd] in E1. rewrite Hv in E1. injection E1 as <-. exact E2. }
    destruct o as [n|], t as [w|w| |n'], v as [z|d|l]; cbn in Ht; try contradiction; try discriminate;
      cbn [show_slot member_shown]; try reflexivity.
    apply Nat.eqb_eq in T2. subst n'. destruct Ht as [Hl Hb]. replace (List.length l <? n)%nat with false
      by (symmetry; apply Nat.ltb_ge; lia).
    rewrite firstn_all2 by lia. apply dec_shown, Hb.
Qed.

Definition hidden_ok (x : string * string) : bool :=
  existsb (fun e => String.eqb (fst e) (fst x) &&
    existsb (fun m => String.eqb (fst m) (snd x)) (k_members (snd e)) &&
    match find_attr (snd e) (snd x) with None => true | Some _ => false end) classes &&
  forallb (fun e => negb (String.eqb (fst e) (fst x)) ||
    match find_attr (snd e) (snd x) with None => true | Some _ => false end) classes.
Lemma hiddens_ok : forallb hidden_ok no_attribute = true.
Proof. vm_compute. reflexivity. Qed.
Lemma no_attributes c a : In (c, a) no_attribute ->
  (exists k t, In (c, k) classes /\ In (a, t) (k_members k)) /\
  forall k vals, In (c, k) classes -> getattr (k, vals) a = Raise AttributeError.
Proof.
  intros H. pose proof hiddens_ok as T. rewrite forallb_forall in T. specialize (T _ H). apply andb_true_iff in T as [T1 T2].
  cbn [fst snd] in *. split.
  - apply existsb_exists in T1 as ([c' k] & E1 & T1). cbn [fst snd] in T1. apply andb_true_iff in T1 as [T1 _].
    apply andb_true_iff in T1 as [T1 T3]. apply String.eqb_eq in T1. subst c'.
    apply existsb_exists in T3 as ([a' t] & E3 & T3). apply String.eqb_eq in T3. cbn in T3. subst a'.
    exists k, t. auto.
  - intros k vals Hk. rewrite forallb_forall in T2. specialize (T2 _ Hk). cbn [fst snd] in T2.
    rewrite String.eqb_refl in T2. cbn in T2. unfold getattr. cbn [fst snd]. apply get_none.
    destruct (find_attr k a); [discriminate|reflexivity].
Qed.

Lemma strings_shown l : Forall bytes l -> texts_shown l (py_strings l).
Proof.
  induction l as [|b l IH]; intros F; cbn [py_strings].
  - left. exists []. split; [constructor|reflexivity].
  - inversion F as [|? ? Hb Hl]; subst. destruct (dec_shown b Hb) as [(u & U & E)|(N & E)].
    + destruct (utf8_dec b) as [u'|] eqn:D; [|discriminate]. injection E as ->. destruct (IH Hl) as [(us & H & ->)|((c & Hc & N) & ->)].
      * left. exists (u :: us). split; [constructor; assumption|reflexivity].
      * right. split; [exists c; split; [right; exact Hc|exact N]|reflexivity].
    + destruct (utf8_dec b); [discriminate|]. right. split; [exists b; split; [left; reflexivity|exact N]|reflexivity].
Qed.
