(** The header area of a SEG-D record: what the writer stores and what the
    reader makes of it, at any position of a file. *)
From Coq Require Import Reals Lra Permutation.
From Verif Require Import BaseFacts Bcd BcdSpec BcdFacts BcdFacts2 Platform CodecSpec Fp FpSpec
  FpReal SampleReal TraceHdr SegyTypes SegyCodec CodecFacts ISegy OSegy SegdTypes SegdSpec ISegd OSegd
  NibFacts FixFacts SegdHdrFacts SegdTrcFacts WriterFacts RoundSpec ReaderFacts.
Local Open Scope Z_scope.

(** ** Blocks *)

Lemma pack_nibs b : bytes b -> pack (nibs b) = b.
Proof.
  induction 1 as [|x l Hx Hl IH]; [reflexivity|]. cbn [nibs pack]. rewrite IH. f_equal.
  rewrite <- Z.div_mod by lia. reflexivity.
Qed.

Lemma blk_run w ns n : WN [] w ns -> (List.length ns <= 2 * n)%nat ->
  wrun w (repeat 0 n) = Ok (blk n ns) /\ bytes (blk n ns) /\ List.length (blk n ns) = n /\
  nibs (blk n ns) = ns ++ repeat 0 (2 * n - List.length ns).
Proof.
  intros H L. destruct (WN_run w ns n H L) as (b & E & B & Ln & N).
  assert (b = blk n ns) as <-.
  { unfold blk. rewrite <- N. symmetry. apply pack_nibs, B. }
  auto.
Qed.

Definition fend (d : list Z) : file := mkFile d (len d).

Lemma fwrite_fend b d : fwrite b (fend d) = fend (d ++ b).
Proof.
  unfold fwrite, fend. cbn [fdata fpos]. rewrite len_to_nat, Nat.sub_diag. cbn [repeat].
  rewrite app_nil_r, firstn_all, skipn_all2 by lia. rewrite app_nil_r, len_app. reflexivity.
Qed.

Lemma put_block_fend n w ns d : WN [] w ns -> (List.length ns <= 2 * Z.to_nat n)%nat ->
  put_block n w (fend d) = Ok (fend (d ++ blk (Z.to_nat n) ns)).
Proof.
  intros H L. unfold put_block. destruct (blk_run w ns _ H L) as (E & _).
  unfold zeros. rewrite E. cbn [bind]. rewrite fwrite_fend. reflexivity.
Qed.

(** Reading a block. *)
Definition fat (d : list Z) (n : Z) : file := mkFile d n.

Lemma fread_fat a b c : fread (len b) (fat (a ++ b ++ c) (len a)) = Ok (b, fat (a ++ b ++ c) (len a + len b)).
Proof. apply (fread_app a b c (fat (a ++ b ++ c) (len a))); reflexivity. Qed.

Lemma fread_n n a b c d q : Z.of_nat (List.length b) = n -> d = a ++ b ++ c -> q = len a ->
  fread n (fat d q) = Ok (b, fat d (q + n)).
Proof. intros <- -> ->. apply fread_fat. Qed.

Lemma RN_blk {A} (r : P A) w ns v n : WN [] w ns -> RN [] r ns v -> (List.length ns <= 2 * n)%nat ->
  exists c, r (blk n ns) = Ok (v, c).
Proof.
  intros HW HR L. destruct (blk_run w ns n HW L) as (_ & B & _ & N).
  apply (RN_run r ns v _ _ HR B N).
Qed.

(** ** Lengths of the layouts *)

Ltac ll := repeat rewrite ?app_length, ?digits_length, ?nibs_length, ?be_bytes_length, ?esc_length, ?repeat_length;
  cbn [List.length]; try lia.

Lemma gh1_layout_len g ext k e : List.length (gh1_layout g ext k e) = 64%nat.
Proof. unfold gh1_layout. destruct ext; ll. Qed.
Lemma gh2_layout_len g : List.length (gh2_layout g) = 44%nat.
Proof. unfold gh2_layout. ll. Qed.
Lemma ghN_layout_len h kl kp : List.length (ghN_layout h kl kp) = 40%nat.
Proof. unfold ghN_layout. ll. Qed.
Lemma chset_layout_len c k e : List.length (chset_layout c k e) = 64%nat.
Proof. unfold chset_layout. ll. Qed.
Lemma th_layout_len t : List.length (th_layout t) = 40%nat.
Proof. unfold th_layout. ll. Qed.
Lemma te_layout_len t : List.length (te_layout t) = 42%nat.
Proof. unfold te_layout. ll. Qed.

(** ** The writer *)

Lemma len_concat32 (bs : list (list Z)) : Forall (fun b => List.length b = 32%nat) bs ->
  len (concat bs) = 32 * len bs.
Proof.
  induction 1 as [|b bs Hb H IH]; [reflexivity|]. cbn [concat]. rewrite len_app, len_cons, IH.
  unfold len. lia.
Qed.

(** Maps of additional blocks. *)
Fixpoint sorted (m : blkmap) : Prop :=
  match m with
  | [] => True
  | (k, _) :: m' => Forall (fun kb => k < fst kb) m' /\ sorted m'
  end.

Lemma bset_in m k b x : In x (bset m k b) -> x = (k, b) \/ In x m.
Proof.
  induction m as [|[k' b'] m IH]; cbn [bset]; [cbn; intuition|].
  destruct (Z.eqb_spec k k') as [->|N]; [cbn; intuition|].
  destruct (k <? k'); [cbn; intuition|]. cbn [In]. intuition.
Qed.

Lemma bset_sorted m k b : sorted m -> sorted (bset m k b).
Proof.
  induction m as [|[k' b'] m IH]; cbn [bset sorted]; [auto|]. intros [F S].
  destruct (Z.eqb_spec k k') as [->|N]; [cbn [sorted]; auto|].
  destruct (Z.ltb_spec k k') as [L|L]; cbn [sorted].
  - split; [|auto]. constructor; [exact L|]. eapply Forall_impl; [|exact F]. cbn. intros; lia.
  - split; [|auto]. apply Forall_forall. intros x Hx. apply bset_in in Hx as [->|Hx].
    + cbn. lia.
    + rewrite Forall_forall in F. apply F, Hx.
Qed.

Lemma bset_new m k b : ~ In k (map fst m) -> Permutation (bset m k b) ((k, b) :: m).
Proof.
  induction m as [|[k' b'] m IH]; cbn [bset map In fst]; [reflexivity|]. intros N.
  destruct (Z.eqb_spec k k') as [->|Nk]; [exfalso; apply N; auto|].
  destruct (k <? k'); [reflexivity|].
  rewrite IH by tauto. apply perm_swap.
Qed.

Lemma sorted_perm_eq m1 : forall m2, sorted m1 -> sorted m2 -> Permutation m1 m2 -> m1 = m2.
Proof.
  induction m1 as [|[k b] m1 IH]; intros m2 S1 S2 P.
  - apply Permutation_nil in P. auto.
  - destruct m2 as [|[k' b'] m2]; [apply Permutation_sym, Permutation_nil in P; discriminate|].
    destruct S1 as [F1 S1]. destruct S2 as [F2 S2]. rewrite Forall_forall in F1, F2.
    assert (E : (k, b) = (k', b')).
    { assert (I1 : In (k, b) ((k', b') :: m2)) by (eapply Permutation_in; [exact P|left; reflexivity]).
      assert (I2 : In (k', b') ((k, b) :: m1)) by (eapply Permutation_in; [symmetry; exact P|left; reflexivity]).
      destruct I1 as [E|I1]; [auto|]. destruct I2 as [E|I2]; [auto|].
      apply F2 in I1. apply F1 in I2. cbn in I1, I2. lia. }
    injection E as <- <-. f_equal. apply IH; auto. eapply Permutation_cons_inv; exact P.
Qed.

Definition gN_map (hs : list ghN) : blkmap := map (fun h => (gN_block_num h, AN h)) hs.

(** A list of general header N blocks in ascending order of their numbers. *)
Definition ascending (hs : list ghN) : Prop := sorted (gN_map hs).

Lemma add_blocks_perm hs : forall m, sorted m ->
  Forall (fun h => block_fields (gN_block_num h) = None) hs ->
  NoDup (map gN_block_num hs) -> (forall h, In h hs -> ~ In (gN_block_num h) (map fst m)) ->
  exists m', SegdTypes.add_blocks m (map AN hs) = Ok m' /\ sorted m' /\ Permutation m' (gN_map hs ++ m).
Proof.
  induction hs as [|h hs IH]; intros m S F ND D; cbn [map SegdTypes.add_blocks].
  - exists m. split; [reflexivity|]. split; [exact S|reflexivity].
  - inversion F as [|? ? F1 F2]; subst. inversion ND as [|? ? N1 N2]; subst.
    unfold add_block at 1. cbn [blk_type]. rewrite F1. cbn [bind].
    assert (Nh : ~ In (gN_block_num h) (map fst m)) by (apply D; left; reflexivity).
    destruct (IH (bset m (gN_block_num h) (AN h)) (bset_sorted _ _ _ S) F2 N2) as (m' & E & S' & P).
    { intros x Hx K. rewrite (Permutation_map fst (bset_new m _ (AN h) Nh)) in K. cbn [map fst In] in K.
      destruct K as [K|K]; [apply N1; rewrite K; apply in_map, Hx|].
      apply (D x); [right; exact Hx|exact K]. }
    exists m'. split; [exact E|]. split; [exact S'|]. rewrite P. cbn [gN_map map].
    rewrite (bset_new m _ (AN h) Nh). unfold gN_map. apply Permutation_sym, Permutation_middle.
Qed.

Lemma in_order_ascending hs : in_order hs -> ascending hs.
Proof.
  unfold ascending. induction hs as [|h hs IH]; intros H; cbn [gN_map map sorted]; [exact I|]. split.
  - apply Forall_map, Forall_forall. intros x Hx. cbn [fst]. apply In_nth_error in Hx as (j & Hj).
    apply (H 0%nat (S j)); [lia|reflexivity|exact Hj].
  - apply IH. intros i j a b L Ha Hb. apply (H (S i) (S j)); [lia|exact Ha|exact Hb].
Qed.

Lemma ascending_nodup hs : ascending hs -> NoDup (map gN_block_num hs).
Proof.
  unfold ascending. induction hs as [|h hs IH]; cbn [gN_map map sorted]; [constructor|].
  intros [F S]. constructor; [|apply IH, S]. intros K. apply in_map_iff in K as (x & E & Hx).
  rewrite Forall_forall in F. specialize (F (gN_block_num x, AN x)). cbn [fst] in F.
  assert (gN_block_num h < gN_block_num x); [|lia]. apply F. unfold gN_map.
  apply in_map_iff. exists x. auto.
Qed.

(** Blocks given in any order are filed in ascending order. *)
Lemma add_blocks_any hs hs' : ascending hs -> Permutation hs' hs ->
  Forall (fun h => block_fields (gN_block_num h) = None) hs ->
  SegdTypes.add_blocks [] (map AN hs') = Ok (gN_map hs).
Proof.
  intros A P F.
  destruct (add_blocks_perm hs' [] I) as (m' & E & S & Pm).
  - rewrite P. exact F.
  - rewrite (Permutation_map gN_block_num P). apply ascending_nodup, A.
  - intros h _ K. exact K.
  - rewrite E. f_equal. apply sorted_perm_eq; [exact S|exact A|].
    rewrite Pm, app_nil_r. unfold gN_map. rewrite P. reflexivity.
Qed.

Lemma write_gNs_ok p xs : forall d,
  Forall (fun h => ghN_range (fst3 h) (snd (fst h)) (snd h)) xs ->
  write_gNs p (gN_map (map fst3 xs)) (fend d) = Ok (fend (d ++ concat (map gN_blk xs))).
Proof.
  induction xs as [|x xs IH]; intros d F; cbn [map gN_map write_gNs concat].
  - rewrite app_nil_r. reflexivity.
  - inversion F as [|? ? F1 F2]; subst.
    rewrite (put_block_fend GEN_HDR_SIZE _ _ d (ghN_WN p _ _ _ F1)) by (rewrite ghN_layout_len; vm_compute; lia).
    cbn [bind]. fold (gN_map (map fst3 xs)). rewrite (IH _ F2), <- app_assoc. reflexivity.
Qed.

Lemma write_ch_sets_ok p g1 g2 cs : g2_major g2 < 3 -> forall d,
  Forall (fun c => chset_range (fst3 c) (snd (fst c)) (snd c)) cs ->
  write_ch_sets p g1 g2 (map fst3 cs) (fend d) = Ok (fend (d ++ concat (map chset_blk cs))).
Proof.
  intros M. induction cs as [|c cs IH]; intros d F; cbn [map write_ch_sets concat].
  - rewrite app_nil_r. reflexivity.
  - inversion F as [|? ? F1 F2]; subst. unfold write_ch_set_hdr at 1.
    replace (g2_major g2 <? 3) with true by lia. rewrite andb_false_r.
    rewrite (put_block_fend CH_SET_HDR_SIZE _ _ d (chset_WN p _ _ _ F1)) by (rewrite chset_layout_len; vm_compute; lia).
    cbn [bind]. rewrite (IH _ F2), <- app_assoc. reflexivity.
Qed.

Lemma write_zero_blocks_ok n : forall d,
  write_zero_blocks n (fend d) = fend (d ++ repeat 0 (32 * n)).
Proof.
  induction n as [|n IH]; intros d; cbn [write_zero_blocks].
  - rewrite Nat.mul_0_r. cbn [repeat]. rewrite app_nil_r. reflexivity.
  - rewrite fwrite_fend, IH, <- app_assoc. do 2 f_equal.
    change (zeros SKEW_BLOCK_SIZE) with (repeat 0 32). rewrite <- repeat_app. f_equal. lia.
Qed.

Lemma write_scan_types_ok p g1 g2 sets : g2_major g2 < 3 -> 0 <= g1_channel_sets g1 < 100 ->
  Forall (Forall (fun c => chset_range (fst3 c) (snd (fst c)) (snd c))) sets ->
  Forall (fun cs => len cs = g1_channel_sets g1) sets -> forall d,
  write_scan_types p g1 g2 (map (map fst3) sets) (fend d) =
  Ok (fend (d ++ concat (map (fun cs => concat (map chset_blk cs) ++
                               repeat 0 (32 * Z.to_nat (g1_skew_blocks g1))) sets))).
Proof.
  intros M C. induction sets as [|cs sets IH]; intros F L d; cbn [map write_scan_types concat].
  - rewrite app_nil_r. reflexivity.
  - inversion F as [|? ? F1 F2]; subst. inversion L as [|? ? L1 L2]; subst.
    unfold o_nsets. replace (g1_channel_sets g1 =? 1665) with false by lia.
    rewrite len_map, L1, wrapu_small by lia. rewrite Z.eqb_refl. cbn [negb].
    rewrite (write_ch_sets_ok p g1 g2 cs M d F1). cbn [bind].
    rewrite write_zero_blocks_ok, (IH F2 L2), <- !app_assoc. reflexivity.
Qed.

Lemma write_blks_ok bs : Forall (fun b => List.length b = 32%nat /\ bytes b) bs -> forall d,
  write_blks (List.length bs) bs (fend d) = Ok (fend (d ++ concat bs)).
Proof.
  induction bs as [|b bs IH]; intros F d; cbn [List.length write_blks concat].
  - rewrite app_nil_r. reflexivity.
  - inversion F as [|? ? [F1 _] F2]; subst. unfold len. rewrite F1.
    change (Z.of_nat 32 <? 32) with false. cbv iota.
    rewrite firstn_all2 by lia. rewrite fwrite_fend, (IH F2), <- app_assoc. reflexivity.
Qed.

Lemma count_written c1 c2 n : count_ok c1 c2 n -> 0 <= c1 < 2 ^ 31 -> 0 <= c2 < 2 ^ 16 ->
  wrapu 32 (if c1 =? 165 then c2 else c1) = n.
Proof.
  intros C H1 H2. rewrite wrapu_small by (destruct (c1 =? 165); lia).
  unfold count_ok in C. destruct (Z.eqb_spec c1 165); lia.
Qed.

Lemma count_read c1 c2 n : count_ok c1 c2 n -> 0 <= c1 < 2 ^ 31 -> 0 <= c2 < 2 ^ 16 ->
  wrapu 32 (if unesc 2 c1 =? 165 then c2 else unesc 2 c1) = n.
Proof.
  intros C H1 H2. unfold unesc. change (10 ^ Z.of_nat 2) with 100.
  change (pos_value (repeat 15 2)) with 165. unfold count_ok in C.
  destruct (Z.leb_spec 100 c1).
  - change (165 =? 165) with true. cbv iota. rewrite wrapu_small; lia.
  - destruct (Z.eqb_spec c1 165); [lia|]. rewrite wrapu_small; lia.
Qed.

Lemma fmt_writes p fmt y bs : sample_word fmt y bs -> exists b w, d_sample_writer p fmt = Ok (b, w).
Proof.
  unfold sample_word, d_sample_writer. intros H.
  repeat match type of H with match ?x with _ => _ end => destruct x; try contradiction; try (eexists _, _; reflexivity) end.
Qed.

Definition fmt_known (p : platform) (fmt : Z) : Prop := exists b w, d_sample_writer p fmt = Ok (b, w).

Lemma concat_map_map {A B} (f : A -> B) (l : list (list A)) : concat (map (map f) l) = map f (concat l).
Proof. induction l as [|x l IH]; [reflexivity|]. cbn [map concat]. rewrite IH, map_app. reflexivity. Qed.

Lemma osegd_open_ok p r hs ls : srec_ok r -> fmt_known p (g1_format_code (r_g1 r)) ->
  ascending (map fst3 (r_N r)) ->
  Forall (fun h => block_fields (gN_block_num (fst3 h)) = None) (r_N r) ->
  Permutation hs (map fst3 (r_N r)) ->
  osegd_open p (r_g1 r) (r_g2 r) (map (map fst3) (r_sets r)) (map AN hs) (r_extd r) (r_extl r) ls =
  Ok (mkOD (fend (rec_hdr r)) (r_g1 r) (r_g2 r) (gN_map (map fst3 (r_N r))) (map (map fst3) (r_sets r))
           (r_extd r) (r_extl r) ls (wrapu 64 (p_chans0 p + r_chans r)) 0 [] []).
Proof.
  intros (R1 & R2 & M & RN' & RA & RS & Sn & Sl & RL & Xd & Cd & Xl & Cl) (b & w & Hw) A BF P.
  unfold osegd_open. rewrite (add_blocks_any (map fst3 (r_N r)) hs A P).
  2:{ rewrite Forall_map. exact BF. }
  cbn [bind]. rewrite len_map.
  pose proof R1 as R1'. unfold gh1_range in R1'. decompose [and] R1'. clear R1'.
  pose proof R2 as R2'. unfold gh2_range in R2'. decompose [and] R2'. clear R2'.
  rewrite wrapu_small by lia. rewrite Sn, Z.eqb_refl. cbn [negb]. rewrite Hw. cbn [bind].
  change empty_file with (fend []).
  rewrite (put_block_fend GEN_HDR_SIZE _ _ [] (gh1_WN p _ (r_g2 r) _ _ R1)) by (rewrite gh1_layout_len; vm_compute; lia).
  cbn [bind].
  rewrite (put_block_fend GEN_HDR_SIZE _ _ _ (gh2_WN _ R2)) by (rewrite gh2_layout_len; vm_compute; lia).
  cbn [bind]. rewrite (write_gNs_ok p _ _ RN'). cbn [bind].
  rewrite (write_scan_types_ok p _ _ (r_sets r) M) by (unfold below in *; try assumption; lia).
  cbn [bind].
  rewrite (count_written _ _ _ Cd), (count_written _ _ _ Cl), !len_to_nat by lia.
  rewrite (write_blks_ok _ Xd). cbn [bind]. rewrite (write_blks_ok _ Xl). cbn [bind].
  f_equal. f_equal.
  - unfold rec_hdr. rewrite <- !app_assoc. cbn [app]. do 2 f_equal.
    unfold ext_len, r_ext. pose proof (len_nonneg (r_N r)).
    destruct (Z.eqb_spec (g1_add_blocks (r_g1 r)) 0); [exfalso; lia|]. reflexivity.
  - unfold r_chans. rewrite concat_map_map, map_map. reflexivity.
Qed.

(** ** The reader *)

(** At position [q] the file [D] goes on with [l]. *)
Definition here (D : list Z) (q : Z) (l : list Z) : Prop := exists a, D = a ++ l /\ q = len a.

Lemma here_read D q b l n : here D q (b ++ l) -> len b = n ->
  fread n (fat D q) = Ok (b, fat D (q + n)) /\ here D (q + n) l.
Proof.
  intros (a & -> & ->) <-. split; [apply fread_fat|].
  exists (a ++ b). rewrite <- app_assoc, len_app. auto.
Qed.

Lemma here_seek D q b l n : here D q (b ++ l) -> len b = n -> len D < 2 ^ 63 ->
  fseek_cur n (fat D q) = Ok (fat D (q + n)) /\ here D (q + n) l.
Proof.
  intros (a & -> & ->) <- B. rewrite !len_app in B.
  pose proof (len_nonneg a). pose proof (len_nonneg b). pose proof (len_nonneg l). split.
  - unfold fseek_cur, fseek, fat. cbn [fpos fdata].
    replace (0 <=? len a + len b) with true by lia.
    replace (len a + len b <? 2 ^ 63) with true by lia. reflexivity.
  - exists (a ++ b). rewrite <- app_assoc, len_app. auto.
Qed.

Lemma blk_len w ns n : WN [] w ns -> (List.length ns <= 2 * n)%nat -> len (blk n ns) = Z.of_nat n.
Proof. intros H L. unfold len. destruct (blk_run w ns n H L) as (_ & _ & E & _). rewrite E. reflexivity. Qed.

Lemma gh1_blk_len g ext k e : gh1_range g k e -> len (blk 32 (gh1_layout g ext k e)) = 32.
Proof.
  intros R. unfold blk. rewrite gh1_layout_len.
  assert (K : forall n ns, List.length ns = (2 * n)%nat -> List.length (pack ns) = n).
  { clear. induction n as [|n IH]; intros ns E; [destruct ns; [reflexivity|discriminate]|].
    destruct ns as [|a [|b ns]]; try (cbn in E; lia). cbn [pack List.length]. f_equal. apply IH.
    cbn in E. lia. }
  unfold len. rewrite (K 32%nat); [reflexivity|]. rewrite app_length, gh1_layout_len, repeat_length. lia.
Qed.

Lemma rd_gN_blocks_ok p D xs : p_left_first p = true ->
  Forall (fun h => ghN_range (fst3 h) (snd (fst h)) (snd h)) xs -> forall q l m,
  here D q (concat (map gN_blk xs) ++ l) ->
  rd_gN_blocks p (List.length xs) (fat D q) m =
    Ok (fold_left (fun m h => bset m (gN_block_num h) (AN h)) (map fst3 xs) m, fat D (q + 32 * len xs)) /\
  here D (q + 32 * len xs) l.
Proof.
  intros Hp. induction xs as [|x xs IH]; intros F q l m H; cbn [List.length rd_gN_blocks map fold_left concat] in *.
  - change (32 * len (@nil (ghN * Z * Z))) with 0. rewrite Z.add_0_r. auto.
  - inversion F as [|? ? F1 F2]; subst. rewrite <- app_assoc in H.
    assert (Lb : len (gN_blk x) = 32).
    { unfold gN_blk. rewrite (blk_len _ _ _ (ghN_WN p _ _ _ F1)); [reflexivity|]. rewrite ghN_layout_len. lia. }
    destruct (here_read D q _ _ GEN_HDR_SIZE H Lb) as [E H'].
    rewrite E. cbn [bind].
    destruct (RN_blk (rd_ghN p) _ _ (fst3 x) 32 (ghN_WN p _ _ _ F1) (ghN_RN p _ _ _ Hp F1)) as (c & Ec);
      [rewrite ghN_layout_len; lia|].
    unfold gN_blk. rewrite Ec. cbn [bind].
    destruct (IH F2 _ _ (bset m (gN_block_num (fst3 x)) (AN (fst3 x))) H') as [E2 H2].
    rewrite E2, len_cons. unfold GEN_HDR_SIZE in *.
    replace (q + 32 * (1 + len xs)) with (q + 32 + 32 * len xs) by lia. auto.
Qed.

Lemma read_ch_sets_ok p D cs : Forall (fun c => chset_range (fst3 c) (snd (fst c)) (snd c)) cs -> forall q l,
  here D q (concat (map chset_blk cs) ++ l) ->
  read_ch_sets p false (List.length cs) (fat D q) =
    Ok (map (fun c => chset_seen (fst3 c)) cs, fat D (q + 32 * len cs)) /\
  here D (q + 32 * len cs) l.
Proof.
  induction cs as [|x cs IH]; intros F q l H; cbn [List.length read_ch_sets map concat] in *.
  - change (32 * len (@nil (chset * Z * Z))) with 0. rewrite Z.add_0_r. auto.
  - inversion F as [|? ? F1 F2]; subst. rewrite <- app_assoc in H.
    assert (Lb : len (chset_blk x) = 32).
    { unfold chset_blk. rewrite (blk_len _ _ _ (chset_WN p _ _ _ F1)); [reflexivity|]. rewrite chset_layout_len. lia. }
    unfold read_ch_set_hdr at 1.
    destruct (here_read D q _ _ CH_SET_HDR_SIZE H Lb) as [E H']. rewrite E. cbn [bind].
    destruct (RN_blk (rd_chset p) _ _ (chset_seen (fst3 x)) 32 (chset_WN p _ _ _ F1) (chset_RN p _ _ _ F1)) as (c & Ec);
      [rewrite chset_layout_len; lia|].
    unfold chset_blk. rewrite Ec. cbn [bind].
    destruct (IH F2 _ _ H') as [E2 H2].
    rewrite E2, len_cons. cbn [bind]. unfold CH_SET_HDR_SIZE in *.
    replace (q + 32 * (1 + len cs)) with (q + 32 + 32 * len cs) by lia. auto.
Qed.

Definition scans_bytes (n : Z) (sets : list (list (chset * Z * Z))) : list Z :=
  concat (map (fun cs => concat (map chset_blk cs) ++ repeat 0 (32 * Z.to_nat n)) sets).

Lemma read_scan_types_ok p D sets n skew : len D < 2 ^ 63 -> 0 <= skew ->
  Forall (Forall (fun c => chset_range (fst3 c) (snd (fst c)) (snd c))) sets ->
  Forall (fun cs => List.length cs = n) sets -> forall q l,
  here D q (scans_bytes skew sets ++ l) ->
  exists q', read_scan_types p false n skew (List.length sets) (fat D q) =
    Ok (map (map (fun c => chset_seen (fst3 c))) sets, fat D q') /\ here D q' l.
Proof.
  intros LD Sk. unfold scans_bytes. induction sets as [|cs sets IH]; intros F L q l H;
    cbn [List.length read_scan_types map concat] in *.
  - exists q. auto.
  - inversion F as [|? ? F1 F2]; subst. inversion L as [|? ? L1 L2]; subst. rewrite <- !app_assoc in H.
    destruct (read_ch_sets_ok p D cs F1 _ _ H) as [E H1]. rewrite E. cbn [bind].
    destruct (here_seek D _ _ _ (skew * SKEW_BLOCK_SIZE) H1) as [E2 H2].
    { rewrite len_repeat. unfold SKEW_BLOCK_SIZE. lia. }
    { exact LD. }
    rewrite E2. cbn [bind].
    destruct (IH F2 L2 _ _ H2) as (q' & E3 & H3). rewrite E3. cbn [bind]. exists q'. auto.
Qed.

Lemma read_blks_ok D bs : Forall (fun b => List.length b = 32%nat /\ bytes b) bs -> forall q l,
  here D q (concat bs ++ l) ->
  read_blks (List.length bs) (fat D q) = Ok (bs, fat D (q + 32 * len bs)) /\ here D (q + 32 * len bs) l.
Proof.
  induction bs as [|b bs IH]; intros F q l H; cbn [List.length read_blks concat] in *.
  - change (32 * len (@nil (list Z))) with 0. rewrite Z.add_0_r. auto.
  - inversion F as [|? ? [F1 _] F2]; subst. rewrite <- app_assoc in H.
    destruct (here_read D q _ _ 32 H) as [E H']; [unfold len; rewrite F1; reflexivity|].
    rewrite E. cbn [bind]. destruct (IH F2 _ _ H') as [E2 H2].
    rewrite E2, len_cons. cbn [bind].
    replace (q + 32 * (1 + len bs)) with (q + 32 + 32 * len bs) by lia. auto.
Qed.

Lemma sum_seen (sets : list (list (chset * Z * Z))) :
  sum_channels (map (map (fun c => chset_seen (fst3 c))) sets) =
  fold_right Z.add 0 (map (fun c => c_channels (fst3 c)) (concat sets)).
Proof. unfold sum_channels. rewrite concat_map_map, map_map. reflexivity. Qed.

Lemma resize_ok p n : 0 <= n <= p_max_alloc p -> n < 2 ^ 64 -> resize_to p n = Ok n.
Proof.
  intros H B. unfold resize_to. rewrite wrapu_small by lia.
  destruct (Z.leb_spec n (p_max_alloc p)); [reflexivity|lia].
Qed.

Lemma reader_known p fmt : fmt_known p fmt -> exists b r, d_sample_reader p fmt = Ok (b, r).
Proof.
  intros (b & w & H). unfold d_sample_writer, d_sample_reader in *.
  repeat match type of H with match ?x with _ => _ end = _ => destruct x; try discriminate H end.
  all: eexists _, _; reflexivity.
Qed.

(** What a reader positioned at the headers of a record makes of them. *)
Lemma read_headers_ok p s r D q l : p_left_first p = true -> 24 * 2 ^ 16 <= p_max_alloc p ->
  len D < 2 ^ 63 -> srec_ok r -> fmt_known p (g1_format_code (r_g1 r)) ->
  d_file s = fat D q -> here D q (rec_hdr r ++ l) ->
  exists q', here D q' l /\
  read_headers_before_traces p s =
    Ok (mkD (fat D q') (gh1_seen (r_g1 r) (r_ext r)) (gh2_seen (r_g2 r) (d_g2 s)) (d_g3 s)
            (fold_left (fun m h => bset m (gN_block_num h) (AN h)) (map fst3 (r_N r)) (d_blocks s))
            (map (map (fun c => chset_seen (fst3 c))) (r_sets r)) (r_extd r) (r_extl r)
            (d_layouts s) (d_eod s) (r_chans r) 0).
Proof.
  intros Hp HA LD (R1 & R2 & M & RN' & RA & RS & Sn & Sl & RL & Xd & Cd & Xl & Cl) Fk Hs Q0.
  pose proof R1 as R1'. unfold gh1_range in R1'. decompose [and] R1'. clear R1'.
  pose proof R2 as R2'. unfold gh2_range in R2'. decompose [and] R2'. clear R2'.
  unfold rec_hdr in Q0. fold (scans_bytes (g1_skew_blocks (r_g1 r)) (r_sets r)) in Q0.
  rewrite <- !app_assoc in Q0.
  unfold read_headers_before_traces, read_general_headers. rewrite Hs.
  destruct (here_read D q _ _ GEN_HDR_SIZE Q0) as [E1 Q1]; [apply gh1_blk_len; exact R1|].
  rewrite E1. cbn [bind]. clear E1 Q0.
  assert (Ext : r_ext r = ext_len (r_g1 r) (r_g2 r)).
  { unfold ext_len, r_ext. pose proof (len_nonneg (r_N r)).
    destruct (Z.eqb_spec (g1_add_blocks (r_g1 r)) 0); [exfalso; lia|]. reflexivity. }
  destruct (RN_blk rd_gh1 _ _ (gh1_seen (r_g1 r) (r_ext r)) 32
              (gh1_WN p (r_g1 r) (r_g2 r) _ _ R1)) as (c1 & Ec1).
  { rewrite <- Ext. apply gh1_RN, R1. }
  { rewrite gh1_layout_len. lia. }
  rewrite <- Ext in Ec1. rewrite Ec1. cbn [bind]. clear Ec1 c1.
  cbn [gh1_seen g1_add_blocks]. pose proof (len_nonneg (r_N r)) as LN.
  destruct (Z.eqb_spec (g1_add_blocks (r_g1 r)) 0) as [K|_]; [exfalso; lia|].
  destruct (here_read D _ _ _ GEN_HDR_SIZE Q1) as [E2 Q2].
  { rewrite (blk_len _ _ _ (gh2_WN _ R2)); [reflexivity|]. rewrite gh2_layout_len. lia. }
  rewrite E2. cbn [bind]. clear E2 Q1.
  assert (Erev : exists c, rd_rev (blk 32 (gh2_layout (r_g2 r))) = Ok ((g2_major (r_g2 r), g2_minor (r_g2 r)), c)).
  { destruct (blk_run _ _ 32 (gh2_WN _ R2)) as (_ & B & _ & N); [rewrite gh2_layout_len; lia|].
    destruct (gh2_rev_RN _ R2) as (ns & El & Rr). rewrite El in N at 2. rewrite <- app_assoc in N.
    apply (RN_run _ _ _ _ _ Rr B N). }
  destruct Erev as (c2 & Erev). rewrite Erev. cbn [bind]. clear Erev c2.
  replace (g2_major (r_g2 r) <? 3) with true by lia.
  destruct (RN_blk (rd_gh2_rev2 p (g2_major (r_g2 r)) (g2_minor (r_g2 r)) (d_g2 s)) _ _
              (gh2_seen (r_g2 r) (d_g2 s)) 32 (gh2_WN _ R2) (gh2_RN p _ _ Hp R2)) as (c3 & Ec3).
  { rewrite gh2_layout_len. lia. }
  rewrite Ec3. cbn [bind]. clear Ec3 c3.
  replace (Z.to_nat (g1_add_blocks (r_g1 r) - 1)) with (List.length (r_N r)).
  2:{ rewrite RA. replace (1 + len (r_N r) - 1) with (len (r_N r)) by lia. rewrite len_to_nat. reflexivity. }
  destruct (rd_gN_blocks_ok p D (r_N r) Hp RN' _ _ (d_blocks s) Q2) as [E3 Q3].
  rewrite E3. cbn [bind]. clear E3 Q2.
  destruct (reader_known p _ Fk) as (bits & rs & Ers).
  cbn [gh1_seen g1_format_code]. rewrite Ers. cbn [bind].
  unfold is_rev3. cbn [gh1_seen g1_add_blocks g1_scan_types gh2_seen g2_major].
  replace (g2_major (r_g2 r) <? 3) with true by lia. rewrite andb_false_r.
  assert (U1 : unesc 2 (g1_scan_types (r_g1 r)) = g1_scan_types (r_g1 r)).
  { unfold unesc. change (10 ^ Z.of_nat 2) with 100. destruct (Z.leb_spec 100 (g1_scan_types (r_g1 r))); [exfalso; lia|reflexivity]. }
  rewrite U1, Sn, len_to_nat.
  unfold nsets_of, skew_of, extended_of, external_of.
  cbn [g1_channel_sets g1_skew_blocks g1_extended_blocks g1_external_blocks
       g2_channel_sets g2_skew_blocks g2_extended_blocks g2_external_blocks gh1_seen gh2_seen].
  unfold below in *. change (10 ^ Z.of_nat 2) with 100 in *.
  replace (g1_channel_sets (r_g1 r) =? 1665) with false by lia.
  replace (g1_skew_blocks (r_g1 r) =? 165) with false by lia.
  rewrite !(wrapu_small 16) by lia.
  destruct (read_scan_types_ok p D (r_sets r) (Z.to_nat (g1_channel_sets (r_g1 r))) (g1_skew_blocks (r_g1 r))
              LD ltac:(lia) RS) with (q := q + GEN_HDR_SIZE + GEN_HDR_SIZE + 32 * len (r_N r))
              (l := concat (r_extd r) ++ concat (r_extl r) ++ l) as (q4 & E4 & Q4).
  { eapply Forall_impl; [|exact RL]. intros cs <-. rewrite len_to_nat. reflexivity. }
  { exact Q3. }
  rewrite E4. cbn [bind]. clear E4 Q3.
  rewrite (count_read _ _ _ Cd), (count_read _ _ _ Cl) by lia.
  assert (Bd : 0 <= len (r_extd r) < 2 ^ 16).
  { unfold count_ok in Cd. pose proof (len_nonneg (r_extd r)). lia. }
  assert (Bl : 0 <= len (r_extl r) < 2 ^ 16).
  { unfold count_ok in Cl. pose proof (len_nonneg (r_extl r)). lia. }
  rewrite !resize_ok by lia. cbn [bind]. rewrite !len_to_nat.
  destruct (read_blks_ok D _ Xd _ _ Q4) as [E5 Q5]. rewrite E5. cbn [bind].
  destruct (read_blks_ok D _ Xl _ _ Q5) as [E6 Q6]. rewrite E6. cbn [bind].
  eexists. split; [exact Q6|]. rewrite sum_seen. reflexivity.
Qed.
