(** Lemmas about opening a file and about the default layouts (C56-C58). *)
From Verif Require Import BaseFacts Platform TraceHdr SegyTypes SegyCodec CodecFacts ISegy LayoutFacts OpenFacts LayoutSpec CodecSpec
     ReadSpec ReadFacts ReadFacts2 ReadFacts3 ReadFacts4 SegyDecSpec SegyDecFacts SegyDecFacts2 SegyDecFacts3.
Local Open Scope Z_scope.

Lemma opened_open p content maps s : opened p content maps s -> exists ov b0, i_open p content maps ov b0 = Ok s.
Proof. intros [O|(bh & O)]; [exists false, bin_zero|exists true, bh]; exact O. Qed.

Lemma number_of e m : endian_of m = Ok e -> order_number (ord e) m.
Proof.
  unfold endian_of. destruct (Z.eqb_spec m 16909060) as [->|N1]; [intros H; injection H as <-; reflexivity|].
  destruct (Z.eqb_spec m 0) as [->|N2]; [cbn [orb]; intros H; injection H as <-; left; reflexivity|].
  destruct (Z.eqb_spec m 67305985) as [->|N3]; cbn [orb]; intros H; [injection H as <-; right; reflexivity|discriminate].
Qed.

Lemma open_order p content maps ov b0 s : bytes content -> i_open p content maps ov b0 = Ok s ->
  order_in content = Some (ord (i_endian s)).
Proof. intros B H. apply open_parts in H as (L & _ & E & _). exact (marker_order _ _ B L E). Qed.

Lemma open_says p content maps s : bytes content -> isegy_open p content maps = Ok s ->
  bin_says content (ord (i_endian s)) (i_bh s) /\
  (if 1 <? bh_SEGY_rev_major_ver (i_bh s) then bin2_says content (ord (i_endian s)) (i_bh s) else bin2_zero (i_bh s)) /\
  order_number (ord (i_endian s)) (bh_endianness (i_bh s)).
Proof.
  intros B H. apply open_parts in H as (L & (c & F) & E & _).
  destruct (fill_says (i_endian s) content (set_endianness bin_zero (marker content)) B L) as (b & c' & F' & S & N & M).
  rewrite F in F'. injection F' as <- <-. split; [exact S|]. split.
  - destruct (1 <? _); [exact M|]. unfold bin2_zero. exact M.
  - rewrite N. exact (number_of _ _ E).
Qed.

Lemma open_bh_says p content bh maps s : isegy_open_bh p content bh maps = Ok s ->
  same_but_order (i_bh s) bh /\ order_number (ord (i_endian s)) (bh_endianness (i_bh s)).
Proof.
  intros H. apply open_parts in H as (L & F & E & _). rewrite F. split; [split; reflexivity|]. exact (number_of _ _ E).
Qed.

Lemma open_first p content maps s : opened p content maps s -> i_cur s = first_at (i_bh s) (len (i_text s)).
Proof.
  intros O. apply opened_open in O as (ov & b0 & O). pose proof (open_shape _ _ _ _ _ _ O) as (_ & Sh).
  assert (Hc : i_cur s = i_first s) by (rewrite Sh; reflexivity). rewrite Hc. clear Sh Hc.
  apply open_parts in O as (_ & _ & _ & f3 & f4 & f5 & X1 & X2 & _). unfold first_at.
  destruct (Z.eqb_spec (bh_byte_off_of_first_tr (i_bh s)) 0) as [Z0|Z0].
  - injection X2 as X2 _. rewrite <- X2. clear X2.
    unfold read_ext_text_headers in X1. set (n := bh_ext_text_headers_num (i_bh s)) in *.
    destruct (Z.eqb_spec n 0) as [N0|N0]; [injection X1 as <- <-; reflexivity|].
    destruct (Z.eqb_spec n (-1)) as [N1|N1].
    { apply until_inv in X1 as (bs & b & -> & -> & _); [|cbn [fpos]; lia]. cbn [fpos]. rewrite !len_app.
      change (len [slice 0 3200 content]) with 1. change (len [b]) with 1. lia. }
    destruct (Z.lt_ge_cases n 0) as [Q|Q]; [exfalso; exact (blocks_neg _ _ _ _ _ Q X1)|].
    apply blocks_inv in X1 as (bs & -> & Lb & -> & _); [|cbn [fpos]; lia|lia]. cbn [fpos]. rewrite len_app.
    change (len [slice 0 3200 content]) with 1. lia.
  - apply bind_ok in X2 as (f & _ & X2). injection X2 as X2 _. rewrite <- X2. rewrite as_signed_wraps by lia. reflexivity.
Qed.

(** ** The default layouts *)
Lemma nth_error_over {A} (l : list A) i : (List.length l <= i)%nat -> nth_error l i = None.
Proof. apply nth_error_None. Qed.

Lemma fields_of_more ls n : (List.length ls <= n)%nat -> fields_of ls n = fields_of ls (List.length ls).
Proof.
  intros H. replace n with (List.length ls + (n - List.length ls))%nat by lia. generalize (n - List.length ls)%nat as m.
  intros m. unfold fields_of. rewrite seq_app, flat_map_app. cbn [Nat.add].
  replace (flat_map _ (seq (List.length ls) m)) with (@nil (Z * entry)); [apply app_nil_r|].
  symmetry. assert (G : forall q, (List.length ls <= q)%nat ->
    flat_map (fun i => map (pair (Z.of_nat i)) match nth_error ls i with Some (_, l) => l | None => [] end) (seq q m) = []).
  { induction m as [|m IH]; intros q Hq; [reflexivity|]. cbn [seq flat_map]. rewrite nth_error_over by exact Hq.
    cbn [map app]. apply IH. lia. }
  apply G. lia.
Qed.

Definition same_field (f : option (Z * entry)) (i : Z) (ab : Z * Z) (dbl : bool) : bool :=
  match f with
  | Some (j, en) => (j =? i) && (e_off en =? fst ab - 1) && (width (e_type en) =? snd ab - fst ab + 1) &&
      match e_type en with I8 | I16 | I24 | I32 | I64 | U64 => negb dbl | F64 => dbl | _ => false end
  | None => false
  end.
Lemma same_field_shows o c pos f i ab dbl v : same_field f i ab dbl = true -> 1 <= fst ab -> snd ab <= 240 ->
  0 <= i -> 0 <= pos ->
  (match f with
   | Some (i, en) => exists w, v = Some w /\ shown o (e_type en) (slice (pos + 240 * i + e_off en) (width (e_type en)) c) w
   | None => v = None end) ->
  v = Some (if dbl then VDbl (unsg (slice (pos + 240 * i) 240 c) o (fst ab) (snd ab))
            else VInt (sgnd (slice (pos + 240 * i) 240 c) o (fst ab) (snd ab))).
Proof.
  intros H A B Hi Hp X. unfold same_field in H. destruct f as [[j en]|]; [|discriminate].
  apply andb_true_iff in H as (H & T). apply andb_true_iff in H as (H & W). apply andb_true_iff in H as (J & O).
  apply Z.eqb_eq in J, O, W. subst j. destruct X as (w & -> & X). f_equal.
  unfold unsg, sgnd, span. pose proof (width_pos (e_type en)).
  rewrite slice_slice by lia. rewrite O, W in X.
  replace (pos + 240 * i + (fst ab - 1)) with (pos + 240 * i + (fst ab - 1)) in X by lia.
  destruct (e_type en); try discriminate T; destruct dbl; try discriminate T; exact X.
Qed.

Lemma find_named {A} (nm : A -> string) k (l : list A) : ~ In k (map nm l) -> find (fun x => String.eqb (nm x) k) l = None.
Proof.
  intros H. destruct (find _ l) as [x|] eqn:E; [|reflexivity]. apply find_some in E as (I & E). apply String.eqb_eq in E.
  exfalso. apply H. rewrite <- E. apply in_map. exact I.
Qed.

Definition std_names : list string := map fst std_header.
Definition ext_names : list string := map fst ext_ints ++ map fst ext_dbls ++ std_names.
Definition std_check (k : string) : bool :=
  match place std_header k with
  | Some ab => same_field (field_named k (fields_of default_trace_header 1)) 0 ab false && (1 <=? fst ab) && (snd ab <=? 240)
  | None => false
  end.
Definition ext_check (k : string) : bool :=
  match place ext_ints k, place ext_dbls k with
  | Some ab, _ => same_field (field_named k (fields_of default_trace_header 2)) 1 ab false && (1 <=? fst ab) && (snd ab <=? 240)
  | None, Some ab => same_field (field_named k (fields_of default_trace_header 2)) 1 ab true && (1 <=? fst ab) && (snd ab <=? 240)
  | None, None =>
    match place std_header k with
    | Some ab => same_field (field_named k (fields_of default_trace_header 2)) 0 ab false && (1 <=? fst ab) && (snd ab <=? 240)
    | None => false
    end
  end.
Lemma std_checks : forallb std_check std_names = true.
Proof. vm_compute. reflexivity. Qed.
Lemma ext_checks : forallb ext_check ext_names = true.
Proof. vm_compute. reflexivity. Qed.
Lemma std_no_more : forallb (fun f => existsb (String.eqb (e_name (snd f))) std_names) (fields_of default_trace_header 1) = true.
Proof. vm_compute. reflexivity. Qed.
Lemma ext_no_more : forallb (fun f => existsb (String.eqb (e_name (snd f))) ext_names) (fields_of default_trace_header 2) = true.
Proof. vm_compute. reflexivity. Qed.

Lemma not_field k fs names : forallb (fun f => existsb (String.eqb (e_name (snd f))) names) fs = true ->
  ~ In k names -> field_named k fs = None.
Proof.
  intros H N. unfold field_named. apply (find_named (fun f : Z * entry => e_name (snd f))). intros I. apply in_map_iff in I as (f & E & I).
  apply in_rev in I. rewrite forallb_forall in H. specialize (H f I). apply existsb_exists in H as (x & X & Q).
  apply String.eqb_eq in Q. apply N. rewrite <- E, Q. exact X.
Qed.
Lemma not_place k tab : ~ In k (map fst tab) -> place tab k = None.
Proof. intros H. unfold place. rewrite find_named by exact H. reflexivity. Qed.

Lemma std_says o c pos k v : 0 <= pos -> hdr_says o c default_trace_header 1 pos k v -> v = std_shows o (slice pos 240 c) k.
Proof.
  intros Hp X. unfold hdr_says in X. unfold std_shows. destruct (in_dec string_dec k std_names) as [I|N].
  - pose proof std_checks as C. rewrite forallb_forall in C. specialize (C k I). unfold std_check in C.
    destruct (place std_header k) as [ab|]; [|discriminate]. apply andb_true_iff in C as (C & B). apply andb_true_iff in C as (C & A).
    apply (same_field_shows o c pos _ _ _ _ v) in C; try lia; [|exact X].
    replace (pos + 240 * 0) with pos in C by lia. destruct ab. exact C.
  - rewrite (not_field k _ std_names std_no_more N) in X. rewrite not_place by exact N. exact X.
Qed.

Lemma ext_says o c pos k v : 0 <= pos -> hdr_says o c default_trace_header 2 pos k v ->
  v = ext_shows o (slice pos 240 c) (slice (pos + 240) 240 c) k.
Proof.
  intros Hp X. unfold hdr_says in X. unfold ext_shows, std_shows. destruct (in_dec string_dec k ext_names) as [I|N].
  - pose proof ext_checks as C. rewrite forallb_forall in C. specialize (C k I). unfold ext_check in C.
    destruct (place ext_ints k) as [ab|].
    { apply andb_true_iff in C as (C & B). apply andb_true_iff in C as (C & A).
      apply (same_field_shows o c pos _ _ _ _ v) in C; try lia; [|exact X].
      replace (pos + 240 * 1) with (pos + 240) in C by lia. destruct ab. exact C. }
    destruct (place ext_dbls k) as [ab|].
    { apply andb_true_iff in C as (C & B). apply andb_true_iff in C as (C & A).
      apply (same_field_shows o c pos _ _ _ _ v) in C; try lia; [|exact X].
      replace (pos + 240 * 1) with (pos + 240) in C by lia. destruct ab. exact C. }
    destruct (place std_header k) as [ab|]; [|discriminate]. apply andb_true_iff in C as (C & B). apply andb_true_iff in C as (C & A).
    apply (same_field_shows o c pos _ _ _ _ v) in C; try lia; [|exact X].
    replace (pos + 240 * 0) with pos in C by lia. destruct ab. exact C.
  - rewrite (not_field k _ ext_names ext_no_more N) in X.
    unfold ext_names, std_names in N. rewrite !in_app_iff in N. rewrite !not_place by tauto. exact X.
Qed.

Lemma short_of ls : forallb (fun nl : string * layout => forallb (fun en =>
    negb (String.eqb (e_name en) "SAMP_NUM") || (width (e_type en) <=? 4)) (snd nl)) ls = true -> short_count ls.
Proof.
  intros H n l en I1 I2 E. rewrite forallb_forall in H. specialize (H (n, l) I1). cbn [snd] in H.
  rewrite forallb_forall in H. specialize (H en I2). rewrite E, String.eqb_refl in H. cbn [negb orb] in H. lia.
Qed.
Lemma default_short : short_count default_trace_header.
Proof. apply short_of. vm_compute. reflexivity. Qed.

Lemma head_default o b c pos h ns : 0 <= pos -> 0 <= bh_max_num_add_tr_headers b ->
  head_at o b default_trace_header c pos h ns -> forall k,
  hget h k = if bh_max_num_add_tr_headers b =? 0 then std_shows o (slice pos 240 c) k
             else ext_shows o (slice pos 240 c) (slice (pos + 240) 240 c) k.
Proof.
  intros Hp Hm (H & _) k. assert (Bc : block_count b = bh_max_num_add_tr_headers b + 1) by (unfold block_count; lia).
  rewrite Bc in H. destruct (Z.eqb_spec (bh_max_num_add_tr_headers b) 0) as [E|E].
  - rewrite E in H. change (Z.to_nat (0 + 1)) with 1%nat in H. destruct (H k) as [X|(_ & _ & X & _)].
    + exact (std_says _ _ _ _ _ Hp X).
    + vm_compute in X. discriminate.
  - assert (F : fields_of default_trace_header (Z.to_nat (bh_max_num_add_tr_headers b + 1)) = fields_of default_trace_header 2).
    { apply (fields_of_more default_trace_header). change (List.length default_trace_header) with 2%nat. lia. }
    destruct (H k) as [X|(_ & _ & X & _)].
    + unfold hdr_says in X. rewrite F in X. exact (ext_says _ _ _ _ _ Hp X).
    + rewrite F in X. vm_compute in X. discriminate.
Qed.

Lemma mixed_snoc p : forall ops s l x s', read_mixed p ops s = Ok (l ++ [x], s') ->
  exists ops1 op s1, read_mixed p ops1 s = Ok (l, s1) /\ read_mixed p [op] s1 = Ok ([x], s').
Proof.
  induction ops as [|op ops IH]; intros s l x s' H; cbn [read_mixed] in H.
  { injection H as H _. destruct l; discriminate. }
  apply bind_ok in H as ([y s1] & E & H). apply bind_ok in H as ([l1 s2] & E2 & H). injection H as H <-.
  destruct l as [|z l].
  - cbn [app] in H. injection H as -> ->. destruct ops as [|op' ops].
    + cbn [read_mixed] in E2. injection E2 as <-. exists [], op, s. split; [reflexivity|]. cbn [read_mixed]. rewrite E. reflexivity.
    + exfalso. cbn [read_mixed] in E2. apply bind_ok in E2 as ([y' s1'] & _ & E2). apply bind_ok in E2 as ([l1' s2'] & _ & E2). discriminate.
  - cbn [app] in H. injection H as -> ->. apply IH in E2 as (ops1 & op' & s3 & A & B).
    exists (op :: ops1), op', s3. split; [|exact B]. cbn [read_mixed]. rewrite E. cbn [bind]. rewrite A. reflexivity.
Qed.

Lemma one_item o b ls c pos x next : items_at o b ls c pos [x] next -> exists ns, head_at o b ls c pos (header_of x) ns.
Proof.
  intros H. inversion H as [|? ? mid ? ? X Y]; subst. destruct x as [t|h]; cbn [item_at header_of] in *.
  - destruct X as (w & _ & X & _). eauto.
  - destruct X as (w & ns & _ & X & _). eauto.
Qed.
