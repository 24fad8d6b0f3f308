(** Trace header extension blocks with layouts of the user. *)
From Coq Require Import Reals.
From Verif Require Import BaseFacts Bcd Platform CodecSpec CodecFacts Fp FpSpec FpReal SampleReal TraceHdr HdrFacts SegyTypes SegyCodec
  ISegy OSegy LayoutSpec LayoutFacts SegdTypes SegdSpec SegdDecSpec SegdExtSpec ISegd OSegd OpenFacts ReadFacts2 NibFacts SegdHdrFacts
  SegdTrcFacts SegdFileFacts SegdDecFacts SegdOpenFacts.
Local Open Scope Z_scope.

(** ** Field values *)

Lemma big_be d n : bytes d -> List.length d = n -> d = be_bytes n (big d 0 n).
Proof. intros B <-. unfold big. cbn [skipn]. rewrite firstn_all. symmetry. apply be_big, B. Qed.

Lemma fval_value p t d : p_left_first p = true -> bytes d -> len d = width t -> field_value t d (fval p Swapped t d).
Proof.
  intros Hp B L. assert (Ln : List.length d = Z.to_nat (width t)) by (unfold len in L; lia).
  pose proof (big_be d _ B Ln) as Ed. pose proof (big_range d 0 (List.length d) B ltac:(lia)) as R. rewrite Ln in R.
  assert (E : forall v, (forall c, rd_field p Swapped t (d ++ c) = Ok (v, c)) -> fval p Swapped t d = v).
  { intros v K. specialize (K []). rewrite app_nil_r in K. unfold fval. rewrite K. reflexivity. }
  destruct t; cbn [field_value width] in *; try change (Z.to_nat 1) with 1%nat in *; try change (Z.to_nat 2) with 2%nat in *;
    try change (Z.to_nat 3) with 3%nat in *; try change (Z.to_nat 4) with 4%nat in *; try change (Z.to_nat 8) with 8%nat in *;
    first [rewrite <- wr_swapped in Ed| idtac];
    set (v := big d 0 _) in *; clearbody v.
  1,2,3,4,7,8,9,10: intros f Hf; injection Hf as <-; apply E; intros c; rewrite Ed; cbn [rd_field]; eapply pmap_ok;
      first [rewrite as_signed_wraps by lia; apply rd_i_wr | rewrite as_unsigned_wrapu; apply rd_u_wr].
  1,2: intros f Hf; injection Hf as <-; apply E; intros c; rewrite Ed; rewrite wr_swapped, <- wr24_swapped; cbn [rd_field]; eapply pmap_ok;
      first [rewrite as_signed_wraps by lia; apply rd_i24_wr24, Hp | rewrite as_unsigned_wrapu; apply rd_u24_wr24, Hp].
  - exists (ibm2d v). split; [|apply ibm2d_holds; exact R]. apply E. intros c. rewrite Ed. cbn [rd_field]. eapply pmap_ok.
    unfold rd_ibm. erewrite pmap_ok by apply rd_u_wr. change (8 * Z.of_nat 4) with 32. rewrite wrapu_small by exact R. reflexivity.
  - exists (f2d v). split; [|intros F; apply f2d_finite; [exact R|exact F]]. apply E. intros c. rewrite Ed. cbn [rd_field]. eapply pmap_ok.
    unfold rd_f32. erewrite pmap_ok by apply rd_u_wr. change (8 * Z.of_nat 4) with 32. rewrite wrapu_small by exact R. reflexivity.
  - apply E. intros c. rewrite Ed. cbn [rd_field]. eapply pmap_ok.
    unfold rd_f64. rewrite rd_u_wr. change (8 * Z.of_nat 8) with 64. rewrite wrapu_small by exact R. reflexivity.
Qed.

Lemma stored_fval p t v d : p_left_first p = true -> t <> Ibm -> wr_ext_field p t v = Ok d ->
  len d = width t /\ bytes d /\ stored_value t v (fval p Swapped t d).
Proof.
  intros Hp Ni H. assert (OI : forall a b : list Z, Ok a = Ok b -> a = b) by (intros a b K; injection K; auto).
  assert (E : forall x, (forall c, rd_field p Swapped t (d ++ c) = Ok (x, c)) -> fval p Swapped t d = x).
  { intros x K. specialize (K []). rewrite app_nil_r in K. unfold fval. rewrite K. reflexivity. }
  destruct t; try congruence; cbn [wr_ext_field] in H; destruct v as [z|x]; cbn [get_int get_dbl bind] in H; try discriminate;
    apply OI in H; subst d; unfold wr_f32, wr_f64 in *; unfold len;
    try (rewrite wr_length; split; [reflexivity|split; [apply wr_bytes|]]);
    try (rewrite wr24_length; split; [reflexivity|split; [apply wr24_bytes|]]);
    cbn [stored_value].
  1,2,3,4,7,8,9,10: intros f Hf; injection Hf as <-; apply E; intros c; cbn [rd_field]; eapply pmap_ok;
      first [rewrite as_signed_wraps by lia; apply rd_i_wr | rewrite as_unsigned_wrapu; apply rd_u_wr].
  1,2: intros f Hf; injection Hf as <-; apply E; intros c; cbn [rd_field]; eapply pmap_ok;
      first [rewrite as_signed_wraps by lia; apply rd_i24_wr24, Hp | rewrite as_unsigned_wrapu; apply rd_u24_wr24, Hp].
  - split; [discriminate|]. intros _ y Hy L. rewrite pw_powerRZ in L. destruct (d2f_finite _ _ Hy L) as (D & F & V & _).
    exists (f2d (d2f x)). split.
    + apply E. intros c. cbn [rd_field]. eapply pmap_ok. unfold rd_f32. erewrite pmap_ok by apply rd_u_wr.
      change (8 * Z.of_nat 4) with 32. rewrite wrapu_small by exact D. reflexivity.
    + rewrite <- V. apply (f2d_finite _ D F).
  - split; [|discriminate]. intros _ D. apply E. intros c. cbn [rd_field]. eapply pmap_ok. unfold rd_f64. rewrite rd_u_wr.
    change (8 * Z.of_nat 8) with 64. rewrite wrapu_small by exact D. reflexivity.
Qed.

(** ** Reading one block *)

Definition u64s (l : layout) : Z := len (filter (fun en => match e_type en with U64 => true | _ => false end) l).

(** Pairwise disjoint fields inside 32 bytes. *)
Definition cells (en : entry) : list Z := map (fun i => e_off en + Z.of_nat i) (seq 0 (Z.to_nat (width (e_type en)))).

Lemma in_cells en x : In x (cells en) <-> e_off en <= x < e_off en + width (e_type en).
Proof.
  unfold cells. rewrite in_map_iff. split.
  - intros (i & <- & Hi). apply in_seq in Hi. lia.
  - intros H. exists (Z.to_nat (x - e_off en)). split; [lia|]. apply in_seq. lia.
Qed.

Lemma cells_nodup en : NoDup (cells en).
Proof. unfold cells. apply FinFun.Injective_map_NoDup; [intros a b H; lia|apply seq_NoDup]. Qed.


Lemma nodup_app {A} (a b : list A) : NoDup a -> NoDup b -> (forall x, In x a -> ~ In x b) -> NoDup (a ++ b).
Proof.
  induction 1 as [|x a Nx _ IH]; intros Hb D; [exact Hb|]. cbn [app]. constructor.
  - rewrite in_app_iff. intros [H|H]; [contradiction|]. exact (D x (or_introl eq_refl) H).
  - apply IH; [exact Hb|]. intros y Hy. apply D. right. exact Hy.
Qed.

Lemma all_cells l : ForallOrdPairs apart l -> NoDup (concat (map cells l)).
Proof.
  induction 1 as [|a l Ha _ IH]; cbn [map concat]; [constructor|].
  rewrite Forall_forall in Ha. apply nodup_app; [apply cells_nodup|exact IH|].
  intros x Hx Hy. apply in_concat in Hy as (c & Hc & Hy). apply in_map_iff in Hc as (b & <- & Hb).
  apply in_cells in Hx, Hy. specialize (Ha b Hb). unfold apart in Ha. lia.
Qed.

Lemma ext_ord l : block_layout l -> (forall en, In en l -> 0 <= e_off en /\ e_off en + width (e_type en) <= 32) /\ ForallOrdPairs apart l.
Proof.
  intros [S1 S2]. split; [exact S1|]. apply FOP_of_nth. intros i j a b Ha Hb Hij. apply (S2 i j); auto. lia.
Qed.

Lemma u64s_bound l : block_layout l -> 8 * u64s l <= 32.
Proof.
  intros S. apply ext_ord in S as [S1 S2]. pose proof (all_cells l S2) as N.
  assert (I : incl (concat (map cells l)) (map Z.of_nat (seq 0 32))).
  { intros x Hx. apply in_concat in Hx as (c & Hc & Hx). apply in_map_iff in Hc as (b & <- & Hb).
    apply in_cells in Hx. specialize (S1 b Hb). apply in_map_iff. exists (Z.to_nat x). split; [lia|]. apply in_seq. lia. }
  pose proof (NoDup_incl_length N I) as L. rewrite map_length, seq_length in L.
  assert (K : 8 * u64s l <= Z.of_nat (List.length (concat (map cells l)))).
  { clear. induction l as [|a l IH]; [cbn; lia|]. unfold u64s, len in *. cbn [filter map concat]. rewrite app_length.
    pose proof (width_pos (e_type a)).
    assert (C : List.length (cells a) = Z.to_nat (width (e_type a))) by (unfold cells; rewrite map_length, seq_length; reflexivity).
    destruct (e_type a); cbn [List.length] in *; try lia. cbn [width] in C. lia. }
  lia.
Qed.

Lemma u64s_cons a l : u64s (a :: l) = (match e_type a with U64 => 1 | _ => 0 end) + u64s l.
Proof. unfold u64s, len. cbn [filter]. destruct (e_type a); cbn [List.length]; lia. Qed.

Lemma rd_ext_fields_ok p blk l : len blk = 32 -> (forall en, In en l -> 0 <= e_off en /\ e_off en + width (e_type en) <= 32) ->
  forall c h0, 8 * u64s l <= len c ->
  exists h', rd_ext_fields p blk l c h0 = Ok h' /\
   (forall k, ~ In k (names l) -> hget h' k = hget h0 k) /\
   (NoDup (names l) -> forall en, In en l -> e_type en <> U64 ->
     hget h' (e_name en) = Some (fval p Swapped (e_type en) (slice (e_off en) (width (e_type en)) blk))).
Proof.
  intros L. induction l as [|a l IH]; intros Hin c h0 Hc; cbn [rd_ext_fields].
  - exists h0. split; [reflexivity|]. split; [auto|]. intros _ ? [].
  - destruct (Hin a (or_introl eq_refl)) as [I1 I2]. pose proof (width_pos (e_type a)). rewrite u64s_cons in Hc.
    assert (At : at_off blk (e_off a) = Ok (slice (e_off a) (width (e_type a)) blk ++ skipn (Z.to_nat (e_off a + width (e_type a))) blk)).
    { unfold at_off. replace ((0 <=? e_off a) && (e_off a <=? len blk)) with true by lia.
      rewrite (skipn_slice (e_off a) (width (e_type a))) by lia. reflexivity. }
    assert (Rf : rd_field p Swapped (e_type a) (slice (e_off a) (width (e_type a)) blk ++ skipn (Z.to_nat (e_off a + width (e_type a))) blk) =
      Ok (fval p Swapped (e_type a) (slice (e_off a) (width (e_type a)) blk), skipn (Z.to_nat (e_off a + width (e_type a))) blk)).
    { apply rd_field_app. rewrite slice_length; lia. }
    set (v := fval p Swapped (e_type a) (slice (e_off a) (width (e_type a)) blk)) in *.
    assert (X : exists v' c', 8 * u64s l <= len c' /\ (e_type a <> U64 -> v' = v) /\
      rd_ext_fields p blk (a :: l) c h0 = rd_ext_fields p blk l c' (hset h0 (e_name a) v')).
    { cbn [rd_ext_fields]. rewrite At. cbn [bind]. pose proof (len_nonneg (filter (fun en => match e_type en with U64 => true | _ => false end) l)) as Nn.
      fold (u64s l) in Nn. destruct (e_type a) eqn:Et.
      1-9,11-13: exists v, c; (split; [lia|]); (split; [reflexivity|]); rewrite Rf; reflexivity.
      destruct (rd_i_ok Swapped 8 c) as (z & Ez); [unfold len in Hc; lia|].
      exists (VInt z), (skipn 8 c). split; [unfold len in *; rewrite skipn_length; lia|]. split; [congruence|].
      rewrite Ez. reflexivity. }
    cbn [rd_ext_fields] in X. destruct X as (v' & c' & Hc' & Hv & ->).
    destruct (IH (fun en K => Hin en (or_intror K)) c' (hset h0 (e_name a) v') Hc') as (h' & E & O & S).
    exists h'. split; [exact E|]. split.
    + intros k K. cbn [names map In] in K. rewrite O by tauto. apply hget_hset_other. intros ->. tauto.
    + intros ND en K Nu. cbn [names map] in ND. inversion ND as [|? ? N1 N2]; subst. destruct K as [<-|K].
      * rewrite O by exact N1. rewrite hget_hset_same. f_equal. exact (Hv Nu).
      * apply S; auto.
Qed.

(** ** Reading all blocks *)

Definition user_read (p : platform) (ls : ext_layouts) (i n : nat) (f : file) (h h' : hdr) : Prop :=
  (forall k, (forall j l, (i <= j < i + n)%nat -> nth_error ls j = Some l -> ~ In k (names l)) -> hget h' k = hget h k) /\
  (forall j l en, (j < n)%nat -> nth_error ls (i + j) = Some l -> In en l -> e_type en <> U64 -> NoDup (names l) ->
     (forall j' l', (j < j' < n)%nat -> nth_error ls (i + j') = Some l' -> ~ In (e_name en) (names l')) ->
     hget h' (e_name en) =
       Some (fval p Swapped (e_type en) (slice (fpos f + 32 * Z.of_nat j + e_off en) (width (e_type en)) (fdata f)))).

Lemma slice_in {A} (d : list A) o n o' n' : 0 <= o -> 0 <= o' -> 0 <= n' -> o' + n' <= n -> slice o' n' (slice o n d) = slice (o + o') n' d.
Proof.
  intros H1 H2 H3 H4. unfold slice. rewrite skipn_firstn_comm, skipn_skipn', firstn_firstn.
  f_equal; [lia|]. f_equal. lia.
Qed.

Lemma exts_user p mj ls n : forall i f h, good_file f -> (i + n <= List.length ls)%nat ->
  (forall j l, (i <= j < i + n)%nat -> nth_error ls j = Some l -> block_layout l) ->
  reads (rd_exts p mj ls n i f h) f (32 * Z.of_nat n) (user_read p ls i n f h).
Proof.
  induction n as [|n IH]; intros i f h G Hn Hl; cbn [rd_exts].
  - apply reads_ret. split; [auto|]. intros; lia.
  - replace (32 * Z.of_nat (S n)) with (32 + 32 * Z.of_nat n) by lia.
    eapply reads_bind; [exact G|lia|lia|apply reads_fread, G|].
    intros b f1 G1 D1 P1 (B & Bb & L & Q).
    destruct (nth_error ls i) as [l|] eqn:El; [|apply nth_error_None in El; lia].
    pose proof (Hl i l ltac:(lia) El) as Sl. pose proof (u64s_bound l Sl) as U.
    destruct (rd_ext_fields_ok p b l ltac:(unfold len; lia) (proj1 Sl) b h ltac:(unfold len; lia)) as (h1 & E & O & F).
    eapply reads_ok; [destruct ls as [|l0 ls']; [destruct i; discriminate|]; exact E|].
    eapply reads_weak; [apply (IH (S i) f1 h1 G1); [lia|]|reflexivity|].
    + intros j l' Hj. apply Hl. lia.
    + intros h' [H1 H2]. split.
      * intros k Hk. rewrite H1; [|intros j l' Hj; apply Hk; lia]. apply O. apply (Hk i l); [lia|exact El].
      * intros j l' en Hj El' Hen Nu Nd Hlast. destruct j as [|j].
        -- rewrite Nat.add_0_r in El'. assert (l' = l) by congruence. subst l'.
           rewrite H1.
           ++ rewrite (F Nd en Hen Nu). do 2 f_equal. rewrite B. destruct (proj1 Sl en Hen). pose proof (width_pos (e_type en)).
              destruct G as (_ & Gp & _). rewrite slice_in by lia. f_equal. lia.
           ++ intros j' l' Hj' Ej'. apply (Hlast (j' - i)%nat); [lia|]. rewrite <- Ej'. f_equal. lia.
        -- rewrite (H2 j l' en ltac:(lia)); [|rewrite <- El'; f_equal; lia|exact Hen|exact Nu|exact Nd|].
           ++ rewrite D1, P1. do 3 f_equal. lia.
           ++ intros j' l2 Hj' Ej'. apply (Hlast (S j') l2); [lia|]. rewrite <- Ej'. f_equal. lia.
Qed.

(** ** Writing *)

Lemma upd_firstn buf off d buf' n : upd buf off d = Ok buf' -> off + len d <= n -> n <= len buf ->
  upd (firstn (Z.to_nat n) buf) off d = Ok (firstn (Z.to_nat n) buf').
Proof.
  unfold upd. destruct (_ && _) eqn:E; [|discriminate]. intros H Hn Hb. injection H as <-.
  apply andb_true_iff in E as [E1 E2]. pose proof (len_nonneg d). unfold len in *. rewrite firstn_length.
  replace ((0 <=? off) && (off + Z.of_nat (List.length d) <=? Z.of_nat (Nat.min (Z.to_nat n) (List.length buf)))) with true by lia.
  f_equal. rewrite firstn_firstn. replace (Nat.min (Z.to_nat off) (Z.to_nat n)) with (Z.to_nat off) by lia.
  rewrite firstn_app, firstn_length. replace (Nat.min (Z.to_nat off) (List.length buf)) with (Z.to_nat off) by lia.
  rewrite firstn_firstn. replace (Nat.min (Z.to_nat n) (Z.to_nat off)) with (Z.to_nat off) by lia. f_equal.
  rewrite firstn_app. rewrite (firstn_all2 d) by lia. f_equal. rewrite skipn_firstn_comm. f_equal. lia.
Qed.

Lemma wr_ext_field_length p t v d : wr_ext_field p t v = Ok d -> len d = width t /\ bytes d.
Proof.
  assert (OI : forall a b : list Z, Ok a = Ok b -> a = b) by (intros a b K; injection K; auto).
  intros H. destruct t; cbn [wr_ext_field] in H; apply bind_ok in H as (z & _ & H);
    try (apply OI in H; subst d; unfold len, wr_f32, wr_f64;
         first [rewrite wr_length; split; [reflexivity|apply wr_bytes]|rewrite wr24_length; split; [reflexivity|apply wr24_bytes]]).
  apply wr_ibm_length in H as [H1 H2]. unfold len. rewrite H1. split; [reflexivity|exact H2].
Qed.

Lemma wr_ext_fields_spec p h l : (forall en, In en l -> 0 <= e_off en /\ e_off en + width (e_type en) <= 32) -> ForallOrdPairs apart l ->
  forall blk blk', wr_ext_fields p l h blk = Ok blk' ->
  len blk' = len blk /\ (bytes blk -> bytes blk') /\
  (forall en, In en l -> exists v, hget h (e_name en) = Some v /\
     wr_ext_field p (e_type en) v = Ok (slice (e_off en) (width (e_type en)) blk')) /\
  (forall o n, 0 <= o -> (forall en, In en l -> o + n <= e_off en \/ e_off en + width (e_type en) <= o) ->
     slice o n blk' = slice o n blk).
Proof.
  induction l as [|a l IH]; intros Hin Hap blk blk' H; cbn [wr_ext_fields] in H.
  - injection H as <-. repeat split; auto. intros ? [].
  - destruct (hget h (e_name a)) as [v|] eqn:Ev; [|discriminate].
    apply bind_ok in H as (d & Ed & H). apply bind_ok in H as (blk1 & Eu & H).
    inversion Hap as [|x l0 Ha Hap']; subst. rewrite Forall_forall in Ha.
    destruct (IH (fun en K => Hin en (or_intror K)) Hap' _ _ H) as (L & B & S & O).
    destruct (wr_ext_field_length _ _ _ _ Ed) as [Ld Bd].
    assert (L1 := upd_length _ _ _ _ Eu).
    destruct (Hin a (or_introl eq_refl)) as [I1 I2].
    split; [lia|]. split; [intros Hb; apply B; eapply upd_bytes; eauto|]. split.
    + intros en [<-|K]; [|apply S, K]. exists v. split; [exact Ev|].
      rewrite (O (e_off a) (width (e_type a)) I1).
      * rewrite <- Ld, (upd_slice_same _ _ _ _ Eu). exact Ed.
      * intros en K. specialize (Ha en K). unfold apart in Ha. lia.
    + intros o n Ho K. rewrite (O o n Ho) by (intros en Kn; apply K; right; exact Kn).
      apply (upd_slice_other _ _ _ _ _ _ Eu Ho). rewrite Ld.
      specialize (K a (or_introl eq_refl)). lia.
Qed.

Definition user_blocks (p : platform) (ls : ext_layouts) (h : hdr) (i : nat) (bs : list (list Z)) : Prop :=
  Forall (fun b => len b = 32 /\ bytes b) bs /\
  forall j b l en, nth_error bs j = Some b -> nth_error ls (i + j) = Some l -> In en l ->
    exists v, hget h (e_name en) = Some v /\ wr_ext_field p (e_type en) v = Ok (slice (e_off en) (width (e_type en)) b).

Lemma write_user p mj ls h n : forall i d f', (i + n <= List.length ls)%nat ->
  (forall j l, (i <= j < i + n)%nat -> nth_error ls j = Some l -> block_layout l) ->
  write_exts p mj ls h n i (fend d) = Ok f' ->
  exists bs, List.length bs = n /\ user_blocks p ls h i bs /\ f' = fend (d ++ concat bs).
Proof.
  induction n as [|n IH]; intros i d f' Hn Hl H; cbn [write_exts] in H.
  - injection H as <-. exists []. split; [reflexivity|]. split; [split; [constructor|]|cbn [concat]; rewrite app_nil_r; reflexivity].
    intros j b l en Hb. destruct j; discriminate.
  - destruct (p_flat_bufs p); [|discriminate].
    destruct (nth_error ls i) as [l|] eqn:El; [|apply nth_error_None in El; lia].
    assert (H' : (let* buf := wr_ext_fields p l h (zeros FLAT_SIZE) in write_exts p mj ls h n (S i) (fwrite (firstn 32 buf) (fend d))) = Ok f').
    { destruct ls as [|l0 ls']; [destruct i; discriminate|exact H]. }
    clear H. apply bind_ok in H' as (buf & Eb & H). pose proof (Hl i l ltac:(lia) El) as Sl. apply ext_ord in Sl as [S1 S2].
    destruct (wr_ext_fields_spec p h l S1 S2 _ _ Eb) as (Lb & Bb & Fb & _).
    change (len (zeros FLAT_SIZE)) with 52 in Lb.
    rewrite fwrite_fend in H. destruct (IH (S i) _ _ ltac:(lia) ltac:(intros j l' Hj; apply Hl; lia) H) as (bs & Nb & [U1 U2] & ->).
    assert (Bz : bytes (zeros FLAT_SIZE)) by (unfold bytes; apply Forall_forall; intros x Hx; apply repeat_spec in Hx; subst x; unfold is_byte; lia).
    exists (firstn 32 buf :: bs). split; [cbn; lia|]. split; [split|].
    + constructor; [|exact U1]. split; [unfold len in *; rewrite firstn_length; lia|]. apply bytes_firstn, Bb, Bz.
    + intros j b l' en Hb El' Hen. destruct j as [|j].
      * assert (Eq : firstn 32 buf = b) by (change (Some (firstn 32 buf) = Some b) in Hb; congruence). clear Hb. subst b.
        rewrite Nat.add_0_r in El'. assert (l' = l) by congruence. subst l'.
        destruct (Fb en Hen) as (v & Ev & Ew). exists v. split; [exact Ev|]. rewrite Ew.
        destruct (S1 en Hen). pose proof (width_pos (e_type en)).
        pose proof (slice_in buf 0 32 (e_off en) (width (e_type en))) as Q.
        change (slice 0 32 buf) with (firstn 32 buf) in Q. rewrite Q by lia. reflexivity.
      * apply (U2 j b l' en Hb); [rewrite <- El'; f_equal; lia|exact Hen].
    + cbn [concat]. rewrite app_assoc. reflexivity.
Qed.

(** A writer moves over the array it is given and leaves its length alone. *)
Definition keeps (w : W) : Prop := forall c d c', w c = Ok (d, c') -> len d + len c' = len c.
Lemma keeps_nil : keeps wnil.
Proof. intros c d c' H. injection H as <- <-. reflexivity. Qed.
Lemma keeps_seq a b : keeps a -> keeps b -> keeps (a ;; b).
Proof.
  intros Ha Hb c d c' H. unfold wseq in H. apply bind_ok in H as ([d1 c1] & E1 & H). apply bind_ok in H as ([d2 c2] & E2 & H).
  injection H as <- <-. apply Ha in E1. apply Hb in E2. rewrite len_app. lia.
Qed.
Lemma keeps_put b : keeps (wput b).
Proof.
  intros c d c' H. unfold wput in H. destruct (Nat.leb_spec (List.length b) (List.length c)); [|discriminate].
  injection H as <- <-. unfold len. rewrite skipn_length. lia.
Qed.
Lemma keeps_skip n : keeps (wskip n).
Proof.
  intros c d c' H. unfold wskip in H. destruct (Nat.leb_spec n (List.length c)); [|discriminate].
  injection H as <- <-. unfold len. rewrite skipn_length, firstn_length. lia.
Qed.
Lemma keeps_mod f : keeps (wmod f).
Proof. intros c d c' H. destruct c; [discriminate|]. injection H as <- <-. unfold len. cbn [List.length]. lia. Qed.
Lemma keeps_let {A} (x : outcome A) f : (forall a, keeps (f a)) -> keeps (wlet x f).
Proof. intros Hf c d c' H. unfold wlet in H. apply bind_ok in H as (a & _ & H). exact (Hf a _ _ _ H). Qed.
Lemma keeps_tail vs st n : keeps (to_bcd_tail vs st n).
Proof.
  revert n. fix IH 1. intros [|[|n]]; [apply keeps_nil|apply keeps_mod|].
  cbn [to_bcd_tail]. apply keeps_seq; [apply keeps_put|apply IH].
Qed.
Lemma keeps_bcd vs v b n : keeps (to_bcd vs v b n).
Proof.
  unfold to_bcd. destruct (_ && _); [|intros c d c' H; discriminate]. destruct b; [|apply keeps_tail].
  apply keeps_seq; [apply keeps_mod|]. apply keeps_seq; [apply keeps_skip|apply keeps_tail].
Qed.
Lemma keeps_esc4 vs v : keeps (w_esc4 vs v).
Proof. unfold w_esc4. destruct (_ <? _); [apply keeps_put|apply keeps_bcd]. Qed.
Lemma keeps_esc2 vs v : keeps (w_esc2 vs v).
Proof. unfold w_esc2. destruct (_ <? _); [apply keeps_put|apply keeps_bcd]. Qed.

Lemma keeps_header p h : keeps (trace_header_writer p h).
Proof.
  unfold trace_header_writer. apply keeps_let. intros ffid. apply keeps_seq; [apply keeps_esc4|].
  apply keeps_seq; [apply keeps_let; intros; apply keeps_bcd|].
  destruct (hget h "CH_SET_NUM"); [|intros c d c' H; discriminate].
  apply keeps_let. intros set.
  repeat (apply keeps_seq; [first [apply keeps_esc2
    |apply keeps_let; intros; first [apply keeps_esc4|apply keeps_put|apply keeps_let; intros; apply keeps_put]
    |apply keeps_put]|]). apply keeps_put.
Qed.

Lemma put_keeps n w d f : 0 <= n -> keeps w -> put_block n w (fend d) = Ok f ->
  exists b, len b = n /\ f = fend (d ++ b).
Proof.
  intros Hn K H. unfold put_block in H. apply bind_ok in H as (b & E & H). injection H as <-.
  unfold wrun in E. apply bind_ok in E as ([x y] & E & Q). injection Q as <-. apply K in E.
  exists (x ++ y). split; [rewrite len_app; unfold zeros, len in *; rewrite repeat_length in E; lia|apply fwrite_fend].
Qed.
