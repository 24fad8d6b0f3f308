(** Proofs of the properties of SEG-D files of revision 3. *)
From Coq Require Import Reals.
From Verif Require Import BaseFacts Bcd BcdSpec Platform CodecSpec Fp FpSpec TraceHdr SegyTypes SegyCodec ISegy SegdTypes
  SegdSpec SegdDecSpec Segd3Spec ISegd SegdDecFacts SegdOpenFacts Segd3Facts.
Local Open Scope Z_scope.

Lemma bfind_in m k b : bfind m k = Some b -> In (k, b) m.
Proof.
  induction m as [|[k' b'] m IH]; cbn [bfind]; [discriminate|]. destruct (Z.eqb_spec k k') as [->|N].
  - intros E. injection E as <-. left. reflexivity.
  - intros E. right. auto.
Qed.
Lemma bfind_none m k : bfind m k = None -> ~ In k (map fst m).
Proof.
  induction m as [|[k' b'] m IH]; cbn [bfind map fst]; [intros _ []|]. destruct (Z.eqb_spec k k') as [->|N]; [discriminate|].
  intros E [H|H]; [congruence|exact (IH E H)].
Qed.

Lemma get_block_inv s bl cls : blk3_inv bl (d_blocks s) -> In cls table_types ->
  (exists x vs, last_of bl cls x /\ get_block s cls = Ok (Some vs) /\ block_shown cls x vs) \/
  ((forall x, In x bl -> type_of x <> cls) /\ get_block s cls = Ok None).
Proof.
  intros (S & I & K) Hc. unfold get_block. destruct (bfind (d_blocks s) cls) as [b|] eqn:E.
  - left. destruct (I _ (bfind_in _ _ _ E)) as (x & vs & t & E1 & E2 & E3 & _ & _ & E4). cbn [fst snd] in *. subst b.
    exists x, vs. rewrite Z.eqb_refl. auto.
  - right. split; [|reflexivity]. intros x Hx Ht. apply (bfind_none _ _ E). rewrite <- Ht. apply K; [exact Hx|]. rewrite Ht. exact Hc.
Qed.

Lemma open_shown3 p content ls s : p_left_first p = true -> bytes content -> len content < 2 ^ 63 -> rev3 content ->
  isegd_open p content ls = Ok s -> shown3 content s.
Proof. intros Hp Hb Hl Hr E. exact (proj1 (proj1 (proj2 (open3 p content ls Hp Hb Hl Hr)) s E)). Qed.

Lemma headers3 p content ls s : p_left_first p = true -> bytes content -> len content < 2 ^ 63 -> rev3 content ->
  isegd_open p content ls = Ok s ->
  gh1_of (slice 0 32 content) (d_g1 s) /\
  (exists g, get_g2 s = Some g /\ gh2_front (slice 32 32 content) g) /\
  (exists g, get_g3 s = Some g /\ gh3_of (slice 64 32 content) g).
Proof.
  intros Hp Hb Hl Hr E. destruct (open_shown3 p content ls s Hp Hb Hl Hr E) as (H & _).
  destruct (counts3 _ _ _ _ _ Hb Hr H) as (_ & _ & _ & _ & _ & R3 & _). destruct H as (G1 & G2 & G3 & _).
  split; [exact G1|]. split.
  - exists (d_g2 s). split; [|exact G2]. unfold get_g2. unfold is_rev3 in R3.
    destruct (g1_add_blocks (d_g1 s) =? 0); [discriminate|reflexivity].
  - exists (d_g3 s). split; [unfold get_g3; rewrite R3; reflexivity|exact G3].
Qed.

Lemma blocks_shown3 p content ls s : p_left_first p = true -> bytes content -> len content < 2 ^ 63 -> rev3 content ->
  2 <= add_of content < 15 -> isegd_open p content ls = Ok s -> forall cls, In cls table_types ->
  (exists x vs, last_of (blocks3 content) cls x /\ get_block s cls = Ok (Some vs) /\ block_shown cls x vs) \/
  ((forall x, In x (blocks3 content) -> type_of x <> cls) /\ get_block s cls = Ok None).
Proof.
  intros Hp Hb Hl Hr Ha E cls Hc. destruct (open_shown3 p content ls s Hp Hb Hl Hr E) as ((_ & _ & _ & _ & _ & H & _) & _).
  assert (N : nblk content = add3_of content - 2).
  { unfold nblk, add3_of. destruct (Z.eqb_spec (add_of content) 15); [lia|]. unfold wrapu. apply Z.mod_small. lia. }
  rewrite N in H. exact (get_block_inv s _ cls H Hc).
Qed.

Lemma Forall2_imp {A B} (P Q : A -> B -> Prop) l m : (forall a b, P a b -> Q a b) -> Forall2 P l m -> Forall2 Q l m.
Proof. intros H F. induction F; constructor; auto. Qed.

Lemma places_shown3 p content ls s : p_left_first p = true -> bytes content -> len content < 2 ^ 63 -> rev3 content ->
  2 <= add_of content < 15 -> byt content 31 <> 255 -> isegd_open p content ls = Ok s ->
  d_extd s = blocks32 content (extds3_at content) (Z.to_nat (extds3_of content)) /\
  d_extl s = blocks32 content (extds3_at content + 32 * extds3_of content) (Z.to_nat (extls3_of content)) /\
  fdata (d_file s) = content /\ fpos (d_file s) = traces3_at content /\
  d_chans s = fold_right Z.add 0 (map c_channels (concat (d_sets s))) /\ d_read s = 0.
Proof.
  intros Hp Hb Hl Hr Ha Hx E. destruct (open_shown3 p content ls s Hp Hb Hl Hr E) as (_ & _ & H).
  destruct (places3 content Hb Ha Hx) as (P1 & P2 & P3 & P4 & P5). rewrite P2, P4, P5 in H.
  destruct H as (H1 & H2 & H3 & H4 & _ & H5 & H6). auto 10.
Qed.

Lemma sets_shown3 p content ls s : p_left_first p = true -> bytes content -> len content < 2 ^ 63 -> rev3 content ->
  2 <= add_of content < 15 -> isegd_open p content ls = Ok s ->
  Forall2 (Forall2 chset_read3) (map (scan3_blocks content) (seq 0 (Z.to_nat (scans_of content)))) (d_sets s).
Proof.
  intros Hp Hb Hl Hr Ha E. destruct (open_shown3 p content ls s Hp Hb Hl Hr E) as (_ & H & _).
  assert (N : nblk content = add3_of content - 2).
  { unfold nblk, add3_of. destruct (Z.eqb_spec (add_of content) 15); [lia|]. unfold wrapu. apply Z.mod_small. lia. }
  unfold rsets_at in H. rewrite N in H. unfold scan3_blocks, sets3_at.
  replace (32 * (1 + add3_of content)) with (96 + 32 * (add3_of content - 2)) by lia. exact H.
Qed.

Lemma open_safe3 p content ls : p_left_first p = true -> bytes content -> len content < 2 ^ 63 -> rev3 content ->
  2 <= add_of content < 15 -> byt content 31 <> 255 -> (forall x, In x (blocks3 content) -> type_of x <> 0x41) ->
  isegd_open p content ls <> UB /\
  (traces3_at content <= len content -> In (dec content 4 4) known_formats -> 24 * 2 ^ 24 <= p_max_alloc p ->
   exists s, isegd_open p content ls = Ok s).
Proof.
  intros Hp Hb Hl Hr Ha Hx Hn. destruct (open3 p content ls Hp Hb Hl Hr) as (U & _ & C).
  destruct (places3 content Hb Ha Hx) as (P1 & P2 & P3 & P4 & P5). rewrite P1 in U, C. rewrite P5 in C.
  split; [apply U; exact Hn|]. apply C. exact Hn.
Qed.

Lemma open_safe3_any p content ls : p_left_first p = true -> bytes content -> len content < 2 ^ 63 -> rev3 content ->
  (forall i, byt content (127 + 32 * i) <> 0x41) -> isegd_open p content ls <> UB.
Proof.
  intros Hp Hb Hl Hr Hn. destruct (open3 p content ls Hp Hb Hl Hr) as (U & _). apply U.
  intros x Hx. unfold blocks32 in Hx. apply in_map_iff in Hx as (i & <- & _).
  unfold type_of. rewrite byt_slice by lia. specialize (Hn i).
  replace (Z.to_nat (96 + 32 * Z.of_nat i) + 31)%nat with (127 + 32 * i)%nat by lia. exact Hn.
Qed.
