(** Lemmas for C94. *)
From Coq Require Import Reals.
From Verif Require Import BaseFacts Platform Fp FpSpec TraceHdr SegyTypes SegyCodec CodecSpec CodecFacts SampleFacts
     LayoutSpec LayoutFacts HdrFacts ISegy OSegy OpenFacts BinFacts WriterFacts RoundSpec ReaderFacts RoundFacts
     ReadSpec ReadFacts ReadFacts2 ReadFacts3 ReadFacts4 SegyDecSpec SegyDecFacts SegyDecFacts2 SegyDecFacts3 SegyDecFacts4 FileSpec FileFacts
     SegyEncSpec SegyEncFacts SegyEncFacts2 SegyEncFacts3 SegyEncFacts4 CopySpec CopyFacts CopyFacts2 CopyFacts3 CopyFacts4 EditSpec.
Local Open Scope Z_scope.

Lemma slice_same {A} (a n : Z) (c c1 : list A) : 0 <= a ->
  (forall j, a <= j < a + n -> nth_error c1 (Z.to_nat j) = nth_error c (Z.to_nat j)) -> slice a n c1 = slice a n c.
Proof.
  intros Ha H. apply nth_error_ext. intros i. rewrite !nth_error_slice.
  destruct (Nat.ltb_spec i (Z.to_nat n)) as [L|L]; [|reflexivity].
  specialize (H (a + Z.of_nat i) ltac:(lia)). replace (Z.to_nat (a + Z.of_nat i)) with (Z.to_nat a + i)%nat in H by lia. exact H.
Qed.

Lemma slice_left {A} (a n : Z) (x y : list A) : 0 <= a -> 0 <= n -> a + n <= len x -> slice a n (x ++ y) = slice a n x.
Proof.
  intros H0 H1 H. apply nth_error_ext. intros i. rewrite !nth_error_slice.
  destruct (Nat.ltb_spec i (Z.to_nat n)) as [L|L]; [|reflexivity]. apply nth_error_app1. unfold len in H. lia.
Qed.
Lemma slice_right {A} (a n : Z) (x y : list A) : 0 <= a -> slice (len x + a) n (x ++ y) = slice a n y.
Proof.
  intros H0. apply nth_error_ext. intros i. rewrite !nth_error_slice.
  destruct (Nat.ltb_spec i (Z.to_nat n)) as [L|L]; [|reflexivity]. unfold len. rewrite nth_error_app2 by lia. f_equal. lia.
Qed.

Lemma field_in nm l ls k i en : field_named k (fields_of ((nm, l) :: ls) 1) = Some (i, en) -> i = 0 /\ In en l /\ e_name en = k.
Proof.
  unfold field_named. intros H. apply find_some in H as (I & E). apply in_rev in I.
  rewrite fields_of_cons in I. change (fields_of ls 0) with (@nil (Z * entry)) in I. cbn [map] in I. rewrite app_nil_r in I.
  apply in_map_iff in I as (x & E1 & I). injection E1 as <- <-. split; [reflexivity|]. split; [exact I|]. apply String.eqb_eq, E.
Qed.

Lemma apart_names l a b : safe_layout l -> In a l -> In b l -> e_name a <> e_name b -> apart a b.
Proof.
  intros (_ & S) A B N. apply In_nth_error in A as (i & A). apply In_nth_error in B as (j & B).
  apply (S i j a b A B). intros ->. congruence.
Qed.

Lemma as_signed_mod n v : as_signed n (as_unsigned n v) = as_signed n v.
Proof. unfold as_signed, as_unsigned. cbv zeta. rewrite Z.mod_mod by (pose proof (pow256_pos n); lia). reflexivity. Qed.

(** The bytes that show an integer. *)
Lemma field_bytes e t g v : int_field t = Some g -> g v = v ->
  let fb := wr e (Z.to_nat (width t)) v in
  bytes fb /\ len fb = width t /\ shown (ord e) t fb (VInt v).
Proof.
  intros I G. cbv zeta. split; [apply wr_bytes|]. split; [unfold len; rewrite wr_length; destruct t; reflexivity|].
  pose proof (uval_wr e (Z.to_nat (width t)) v) as U.
  assert (V : sval (ord e) (wr e (Z.to_nat (width t)) v) = as_signed (Z.to_nat (width t)) v).
  { unfold sval. rewrite wr_length, U. apply as_signed_mod. }
  destruct t; cbn [int_field] in I; try discriminate; injection I as <-; cbn [shown]; f_equal;
    first [rewrite U | rewrite V]; symmetry; exact G.
Qed.

Lemma smp_width fmt w : code_width fmt = Some w -> w = sample_width fmt /\ 1 <= w.
Proof.
  intros Cw. unfold code_width in Cw. unfold sample_width. destruct fmt as [|q|q]; try discriminate.
  do 5 (destruct q as [q|q|]; try discriminate; try (injection Cw as <-; split; [reflexivity|lia])).
Qed.

(** ** One header *)
Lemma set_one e b nm l ls c pos t next k v : bytes c -> safe_layout l -> NoDup (names l) ->
  bh_max_num_add_tr_headers b = 0 -> 0 <= pos ->
  trace_at (ord e) b ((nm, l) :: ls) c pos t next -> settable b l (k, v) ->
  exists c1, bytes c1 /\ len c1 = len c /\
    trace_at (ord e) b ((nm, l) :: ls) c1 pos (mkTrace (hset (t_hdr t) k (VInt v)) (t_smp t)) next /\
    (forall j, 0 <= j -> nth_error c1 (Z.to_nat j) = nth_error c (Z.to_nat j) \/
       exists en, In en l /\ e_name en = k /\ pos + e_off en <= j < pos + e_off en + width (e_type en)).
Proof.
  intros B S N M0 P T (en & g & I & Ek & Ig & Gv & Num). cbn [fst snd] in *.
  destruct T as (w & Cw & H & Sy & Nx & Le). cbv zeta in *. destruct (smp_width _ _ Cw) as (_ & W1).
  assert (BC : block_count b = 1) by (unfold block_count; rewrite M0; reflexivity).
  destruct H as (H & L & Hn). unfold trace_at, head_at. rewrite BC in *. change (Z.to_nat 1) with 1%nat in *. rewrite len_cons in L.
  pose proof (len_nonneg ls) as L0. replace (Z.min 1 (1 + len ls)) with 1 in L by lia. specialize (L ltac:(lia)).
  destruct (field_bytes e (e_type en) g v Ig Gv) as (Bf & Lf & Sf). cbv zeta in *. set (fb := wr e (Z.to_nat (width (e_type en))) v) in *.
  destruct (proj1 S en I) as (I1 & I2). pose proof (width_pos (e_type en)) as Wp.
  pose proof (upd_ok c (pos + e_off en) fb ltac:(lia) ltac:(lia)) as U.
  match type of U with _ = Ok ?x => set (c1 := x) in * end.
  pose proof (upd_length _ _ _ _ U) as Lc. exists c1. split; [eapply upd_bytes; eassumption|]. split; [exact Lc|]. split.
  - exists w. split; [exact Cw|]. cbn [t_hdr t_smp]. split.
    + split; [|split; [intros _; rewrite len_cons; replace (Z.min 1 (1 + len ls)) with 1 by lia; lia|]].
      * intros k'. destruct (String.eqb_spec k' k) as [->|Q].
        { left. unfold hdr_says. rewrite <- Ek, (only_field nm l ls en N I), hget_hset_same. exists (VInt v). split; [reflexivity|].
          replace (pos + 240 * 0 + e_off en) with (pos + e_off en) by lia. rewrite <- Lf, (upd_slice_same _ _ _ _ U). exact Sf. }
        rewrite hget_hset_other by exact Q. destruct (H k') as [K|K]; [|right; exact K]. left. unfold hdr_says in *.
        destruct (field_named k' _) as [[i en']|] eqn:F; [|exact K]. apply field_in in F as (-> & I' & E').
        destruct K as (v' & Kv & Ks). exists v'. split; [exact Kv|].
        rewrite (upd_slice_other _ _ _ _ _ _ U); [exact Ks|destruct (proj1 S en' I'); lia|].
        destruct (apart_names l en en' S I I' ltac:(congruence)); lia.
      * destruct (same_length b) eqn:Sl; [exact Hn|]. rewrite hget_hset_other; [exact Hn|]. intros <-. specialize (Num eq_refl). discriminate.
    + split; [|split; [exact Nx|rewrite Lc; exact Le]]. intros i d Hd. rewrite (upd_slice_other _ _ _ _ _ _ U); [apply Sy, Hd|nia|nia].
  - intros j Hj. rewrite (upd_nth _ _ _ _ _ U). rewrite Z2Nat.id by exact Hj.
    destruct ((pos + e_off en <=? j) && (j <? pos + e_off en + len fb)) eqn:Q; [right|left; reflexivity].
    exists en. split; [exact I|]. split; [exact Ek|]. lia.
Qed.

Lemma set_many e b nm l ls pos next : safe_layout l -> NoDup (names l) ->
  bh_max_num_add_tr_headers b = 0 -> 0 <= pos -> forall kvs c t, bytes c ->
  trace_at (ord e) b ((nm, l) :: ls) c pos t next -> Forall (settable b l) kvs ->
  exists c1, bytes c1 /\ len c1 = len c /\
    trace_at (ord e) b ((nm, l) :: ls) c1 pos (set_fields t kvs) next /\
    (forall j, 0 <= j -> nth_error c1 (Z.to_nat j) = nth_error c (Z.to_nat j) \/
       exists en, In en l /\ In (e_name en) (map fst kvs) /\ pos + e_off en <= j < pos + e_off en + width (e_type en)).
Proof.
  intros S N M0 P. induction kvs as [|[k v] kvs IH]; intros c t B T F.
  - exists c. split; [exact B|]. split; [reflexivity|]. split; [|auto]. destruct t. exact T.
  - inversion F as [|? ? F1 F2]; subst. destruct (set_one e b nm l ls c pos t next k v B S N M0 P T F1) as (c1 & B1 & L1 & T1 & D1).
    destruct (IH c1 _ B1 T1 F2) as (c2 & B2 & L2 & T2 & D2). exists c2. split; [exact B2|]. split; [congruence|]. split; [exact T2|].
    intros j Hj. destruct (D2 j Hj) as [E|(en & I & Nm & R)]; [|right; exists en; split; [exact I|split; [right; exact Nm|exact R]]].
    rewrite E. destruct (D1 j Hj) as [E1|(en & I & Nm & R)]; [left; exact E1|]. right. exists en.
    split; [exact I|]. split; [left; symmetry; exact Nm|exact R].
Qed.

(** The header of a trace in a file with one block shows its fields. *)
Lemma header_shows o b nm l ls c pos t next en : NoDup (names l) -> bh_max_num_add_tr_headers b = 0 ->
  trace_at o b ((nm, l) :: ls) c pos t next -> In en l ->
  exists v, hget (t_hdr t) (e_name en) = Some v /\ shown o (e_type en) (slice (pos + e_off en) (width (e_type en)) c) v.
Proof.
  intros N M0 (w & _ & (H & _) & _) I. unfold block_count in H. rewrite M0 in H. change (Z.to_nat (Z.max 0 (0 + 1))) with 1%nat in H.
  pose proof (only_field nm l ls en N I) as O. destruct (H (e_name en)) as [K|(_ & K1 & K2 & _)].
  - unfold hdr_says in K. rewrite O in K. replace (pos + 240 * 0 + e_off en) with (pos + e_off en) in K by lia. exact K.
  - rewrite <- K1, O in K2. discriminate.
Qed.

Lemma start_cons fmt pos t ts i : trace_start fmt pos (t :: ts) (S i) = trace_start fmt (pos + 240 + sample_width fmt * len (t_smp t)) ts i.
Proof. reflexivity. Qed.
Lemma start_shift fmt k pos ts i : trace_start fmt (k + pos) ts i = k + trace_start fmt pos ts i.
Proof.
  revert pos i. induction ts as [|t ts IH]; intros pos i.
  - unfold trace_start. destruct i; reflexivity.
  - destruct i as [|i]; [reflexivity|]. rewrite !start_cons, <- IH. f_equal. lia.
Qed.

(** ** All traces *)
Lemma edit_traces p nm l ls b c r e f : p_left_first p = true -> p_max_alloc p < 2 ^ 63 -> bytes c -> safe_layout l ->
  NoDup (names l) -> integers l -> sample_reader p e (bh_format_code b) = Ok r -> bh_max_num_add_tr_headers b = 0 ->
  let fmt := bh_format_code b in
  forall ts n s pos next, o_endian s = e ->
  o_min s = MNone -> o_add s = false -> o_maps s = (nm, l) :: ls -> o_good p s ->
  bh_format_code (o_bh s) = fmt -> o_bps s = sample_width fmt ->
  o_var s = negb (same_length b) -> (o_var s = false -> len (o_sbuf s) = declared b * o_bps s) -> 0 <= pos ->
  items_at (ord e) b ((nm, l) :: ls) c pos (map Full ts) next -> Forall (fit p fmt) ts ->
  tidy p (ord e) fmt l c pos ts -> at_end (o_file s) ->
  (forall i t, nth_error ts i = Some t -> Forall (settable b l) (f (n + i)%nat t)) ->
  exists s' x, write_traces p s (map (fun it => set_fields (snd it) (f (fst it) (snd it))) (combine (seq n (List.length ts)) ts)) = Ok s' /\
    fdata (o_file s') = fdata (o_file s) ++ x /\ at_end (o_file s') /\ o_bh s' = o_bh s /\
    pos <= next /\ len x = next - pos /\
    (forall j, 0 <= j < len x -> nth_error x (Z.to_nat j) = nth_error c (Z.to_nat (pos + j)) \/
       exists i t en, nth_error ts i = Some t /\ In en l /\ In (e_name en) (map fst (f (n + i)%nat t)) /\
         trace_start fmt 0 ts i + e_off en <= j < trace_start fmt 0 ts i + e_off en + width (e_type en)) /\
    (forall i t en, nth_error ts i = Some t -> In en l -> 0 <= trace_start fmt 0 ts i /\
       exists v, hget (set_all (t_hdr t) (f (n + i)%nat t)) (e_name en) = Some v /\
         shown (ord e) (e_type en) (slice (trace_start fmt 0 ts i + e_off en) (width (e_type en)) x) v).
Proof.
  intros Hp A B Sf N Ints R M0 fmt. induction ts as [|t ts IH]; intros n s pos next Ee Mn Ad Mp G Fm Bp Va Sb P It Ft Ti En St.
  - inversion It; subst. exists s, []. cbn [write_traces List.length seq combine map]. split; [reflexivity|]. rewrite app_nil_r.
    split; [reflexivity|]. split; [exact En|]. split; [reflexivity|]. split; [lia|]. split; [change (len (@nil Z)) with 0; lia|].
    split; [change (len (@nil Z)) with 0; intros; lia|]. intros i t en Hi. destruct i; discriminate.
  - cbn [map] in It. inversion It as [|? x0 mid l0 nx T It']; subst. cbn [item_at] in T.
    inversion Ft as [|? ? F1 F2]; subst. destruct Ti as (T1 & T2 & T3).
    assert (Nn : (nm, l) :: ls <> []) by discriminate.
    pose proof (trace_next _ _ _ _ _ _ _ M0 Nn T) as (Hm & Em).
    assert (St0 : Forall (settable b l) (f n t)) by (specialize (St 0%nat t eq_refl); rewrite Nat.add_0_r in St; exact St).
    destruct (set_many (o_endian s) b nm l ls pos mid Sf N M0 P (f n t) c t B T St0) as (c1 & B1 & L1 & Tc & D1).
    assert (Far : forall j, pos + 240 <= j -> nth_error c1 (Z.to_nat j) = nth_error c (Z.to_nat j)).
    { intros j Hj. destruct (D1 j ltac:(lia)) as [Q|(en & I & _ & Q)]; [exact Q|]. destruct (proj1 Sf en I). lia. }
    destruct (copy_trace p s nm l ls b c1 pos (set_fields t (f n t)) mid r) as (s1 & W & D & A1 & C & Bh & Sb1 & _); try assumption.
    { intros i Hi Nc. destruct (D1 (pos + i) ltac:(lia)) as [Q|(en & I & _ & Q)]; [rewrite Q; apply T1; assumption|].
      exfalso. apply Nc. exists en. split; [exact I|lia]. }
    { cbn [set_fields t_smp]. intros i Hi. rewrite (slice_same _ _ c c1); [apply T2, Hi|nia|]. intros j Hj. apply Far. nia. }
    pose proof C as (C1 & C2 & C3 & C4 & C5 & C6 & C7 & C8 & C9).
    fold fmt in Em. rewrite <- Em in T3.
    destruct (IH (S n) s1 mid next) as (s2 & x & W2 & D2 & A2 & Bh2 & Hn & Lx & X1 & X2); try congruence.
    + unfold o_good. rewrite Bh, C4, C5. exact G.
    + rewrite C9, C5. exact Sb1.
    + lia.
    + intros i t' Hi. specialize (St (S i) t' Hi). replace (S n + i)%nat with (n + S i)%nat by lia. exact St.
    + exists s2, (slice pos (mid - pos) c1 ++ x). cbn [List.length seq combine map write_traces fst snd]. rewrite W. cbn [bind].
      split; [exact W2|].
      assert (Ls : len (slice pos (mid - pos) c1) = mid - pos) by (apply slice_length; lia).
      split; [rewrite D2, D, <- app_assoc; reflexivity|]. split; [exact A2|]. split; [congruence|]. split; [lia|].
      split; [rewrite len_app; lia|]. split.
      * intros j Hj. rewrite len_app, Ls in Hj. destruct (Z.lt_ge_cases j (mid - pos)) as [Lj|Lj].
        -- rewrite nth_error_app1 by (unfold len in Ls; lia). rewrite nth_slice by lia.
           destruct (D1 (pos + j) ltac:(lia)) as [Q|(en & I & Nm & Q)]; [left; exact Q|]. right. exists 0%nat, t, en.
           split; [reflexivity|]. split; [exact I|]. split; [rewrite Nat.add_0_r; exact Nm|]. change (trace_start fmt 0 (t :: ts) 0) with 0. lia.
        -- rewrite nth_error_app2 by (unfold len in Ls; lia).
           replace (Z.to_nat j - List.length (slice pos (mid - pos) c1))%nat with (Z.to_nat (j - (mid - pos))) by (unfold len in Ls; lia).
           destruct (X1 (j - (mid - pos)) ltac:(lia)) as [Q|(i & t' & en & Q1 & Q2 & Q3 & Q4)].
           ++ left. rewrite Q. f_equal. lia.
           ++ right. exists (S i), t', en. split; [exact Q1|]. split; [exact Q2|]. split; [replace (n + S i)%nat with (S n + i)%nat by lia; exact Q3|].
              rewrite start_cons. replace (0 + 240 + sample_width fmt * len (t_smp t)) with ((mid - pos) + 0) by lia. rewrite start_shift. lia.
      * intros i t' en Hi I. destruct (proj1 Sf en I) as (I1 & I2). pose proof (width_pos (e_type en)) as Wp.
        destruct i as [|i].
        -- injection Hi as <-. change (trace_start fmt 0 (t :: ts) 0) with 0. split; [lia|]. rewrite Nat.add_0_r.
           destruct (header_shows _ b nm l ls c1 pos _ mid en N M0 Tc I) as (v & V1 & V2). exists v. split; [exact V1|].
           rewrite (slice_left (e_off en)) by lia. rewrite slice_slice by lia. exact V2.
        -- destruct (X2 i t' en Hi I) as (Z0 & v & V1 & V2). rewrite start_cons.
           replace (0 + 240 + sample_width fmt * len (t_smp t)) with ((mid - pos) + 0) by lia. rewrite start_shift. split; [lia|].
           exists v. split; [replace (n + S i)%nat with (S n + i)%nat by lia; exact V1|].
           pose proof (slice_right (trace_start fmt 0 ts i + e_off en) (width (e_type en)) (slice pos (mid - pos) c1) x ltac:(lia)) as Q.
           rewrite Ls in Q. rewrite <- Z.add_assoc, Q. exact V2.
Qed.


Definition edits (f : nat -> trace -> list (string * Z)) (n : nat) (ts : list trace) : list trace :=
  map (fun it => set_fields (snd it) (f (fst it) (snd it))) (combine (seq n (List.length ts)) ts).

Lemma edit_loop_ok p f : forall fuel n s w ts s1 w', read_all p fuel s = Ok (ts, s1) -> write_traces p w (edits f n ts) = Ok w' ->
  edit_loop p f n fuel s w = Ok w'.
Proof.
  induction fuel as [|fuel IH]; intros n s w ts s1 w' R W; cbn [read_all edit_loop] in *; destruct (has_trace s); try discriminate.
  1,3: injection R as <- <-; exact W.
  apply bind_ok in R as ([t s2] & -> & R). apply bind_ok in R as ([ts2 s3] & R2 & R). injection R as <- <-. cbn [bind].
  unfold edits in W. cbn [List.length seq combine map write_traces fst snd] in W. apply bind_ok in W as (w1 & -> & W). cbn [bind].
  eapply IH; eassumption.
Qed.

Lemma edit_file p content nm l ls s fuel ts s1 f : sane_alloc p -> p_left_first p = true -> bytes content -> len content < 2 ^ 63 ->
  safe_layout l -> NoDup (names l) -> integers l -> short_count ((nm, l) :: ls) ->
  isegy_open p content ((nm, l) :: ls) = Ok s -> read_all p fuel s = Ok (ts, s1) ->
  (exists bs, i_text s = slice 0 3200 content :: bs /\ blocks_at content 3600 bs /\
    (0 <= bh_ext_text_headers_num (i_bh s) -> len bs = bh_ext_text_headers_num (i_bh s))) ->
  plain content (i_bh s) (i_text s) ->
  tidy p (ord (i_endian s)) (bh_format_code (i_bh s)) l content (i_cur s) ts ->
  (forall i t, nth_error ts i = Some t -> Forall (settable (i_bh s) l) (f i t)) ->
  exists c', edit p content ((nm, l) :: ls) f fuel = Ok c' /\
    edited (ord (i_endian s)) (bh_format_code (i_bh s)) l f ts (i_cur s) content c'.
Proof.
  intros A Hp B Ln Sf N Ints Sc O Ra (bs & Et & Bk & Nb) Pl Ti Se. pose proof A as (A1 & A2).
  destruct Pl as (P1 & P2 & P3 & P4 & P5 & P6 & P7 & P8 & P9 & P10).
  assert (Op : opened p content ((nm, l) :: ls) s) by (left; exact O).
  pose proof (opened_inv _ _ _ _ Op A2 Ln) as (I & Mp & Dt). pose proof (open_first _ _ _ _ Op) as Fi. rewrite P7 in Fi.
  pose proof (eod_end _ _ _ _ O P6) as Eo. pose proof (open_says _ _ _ _ B O) as (S1 & S2 & _).
  pose proof O as O'. unfold isegy_open in O'. pose proof (open_shape _ _ _ _ _ _ O') as (Sp & _).
  pose proof (i_open_inv _ _ _ _ _ _ O') as ((r & R) & Bps & En & _ & _ & _ & _ & _ & _ & _ & _ & Ck).
  apply open_parts in O' as (L & (cc & Fl) & Ee & _).
  pose proof (fill_endianness _ _ _ _ _ Fl) as Me. rewrite bh_endianness_set in Me.
  assert (Tx : Forall (fun t => len t = 3200) (i_text s)).
  { rewrite Et. constructor; [apply slice_length; lia|]. eapply blocks_3200; [|exact Bk]. lia. }
  assert (Nt : i_text s <> []) by (rewrite Et; discriminate).
  assert (Cb : check_tr_hdr_map (i_bh s) ((nm, l) :: ls) = Ok tt).
  { apply check_map_intro; [right; left; exact P5|]. apply (check_map_ok _ _ Ck). }
  destruct (open_forward p (i_bh s) (i_text s) ((nm, l) :: ls) _ _ A Cb Nt Tx En R) as (s2 & O2).
  pose proof (reader_fmt _ _ _ _ R) as Sup.
  assert (Nf : bh_format_code (i_bh s) <> 0) by (unfold supported in Sup; cbn [In] in Sup; lia).
  assert (Z0 : bh_SEGY_rev_major_ver (i_bh s) = 0 -> len (i_text s) = 1 /\ ~ blank (writer_for (i_bh s) (i_text s)) (i_bh s)).
  { intros E. destruct (P9 E) as (Q1 & Q2). split; [|exact Q2]. rewrite Et, len_cons, Nb by lia. lia. }
  pose proof (open_state p (i_bh s) (i_text s) _ s2 Nt Tx P10 Nf P5 Z0 O2) as (W1 & W2 & W3 & W4 & W5 & W6 & W7 & W8 & W9 & W10 & W11).
  pose proof W4 as (_ & Wb & We). rewrite W11, En in We. injection We as We.
  assert (Bp : o_bps s2 = sample_width (bh_format_code (i_bh s))).
  { rewrite <- W5. apply width_bps; [exact Wb|]. rewrite W5. exact Sup. }
  assert (Wr : 1 <= o_bps s2 <= 8).
  { rewrite W5 in Wb. destruct (bps_agree _ Sup) as (k & _ & Bk' & Hk). rewrite Bk' in Wb. injection Wb as <-. lia. }
  destruct (all_traces p Hp A2 fuel s ts s1 I) as (It & Ft); try (rewrite ?Dt, ?Mp; assumption).
  rewrite Mp, Dt, Eo in It.
  assert (Tn : tl (i_text s) = bs) by (rewrite Et; reflexivity).
  assert (Lt : len (i_text s) = 1 + len bs) by (rewrite Et; apply len_cons). pose proof (len_nonneg bs) as L0.
  assert (Pr : fdata (o_file s2) = slice 0 (i_cur s) content).
  { rewrite W10, Tn, (concat_blocks content bs 3600 ltac:(lia) Bk). replace (hd [] (i_text s)) with (slice 0 3200 content) by (rewrite Et; reflexivity).
    rewrite <- We. rewrite <- (bin_same content (i_endian s) B L (i_bh s)); try assumption.
    - change (slice 3600 (3200 * len bs) content) with (slice (3200 + 400) (3200 * len bs) content).
      rewrite <- (slice_cut 3200) by lia. change (slice 3200 (400 + 3200 * len bs) content) with (slice (0 + 3200) (400 + 3200 * len bs) content).
      rewrite <- (slice_cut 0) by lia. f_equal. lia.
    - destruct (Z.ltb_spec 1 (bh_SEGY_rev_major_ver (i_bh s))); [exact S2|]. apply zero_says; auto.
    - apply marker_same; auto. }
  destruct (edit_traces p nm l ls (i_bh s) content r (i_endian s) f Hp A2 B Sf N Ints R P5 ts 0%nat s2 (i_cur s) (len content))
    as (s3 & x & Wt & D3 & A3 & B3 & Hn & Lx & X1 & X2);
    try assumption; try congruence; try lia.
  { intros V. rewrite W8 by exact V. rewrite W7 in V. rewrite P8 by (destruct (same_length _); [reflexivity|discriminate]).
    rewrite (as_unsigned_wrapu 2). change (8 * Z.of_nat 2) with 16. pose proof (wrapu_bound 16 (bh_samp_per_tr (i_bh s)) ltac:(lia)).
    apply wrapu_small. nia. }
  cbn [Nat.add] in X1, X2. change (write_traces p s2 (edits f 0 ts) = Ok s3) in Wt.
  assert (Lp : len (slice 0 (i_cur s) content) = i_cur s) by (apply slice_length; lia).
  assert (Cl : rev2_close s3 = Ok (mkFile (fdata (o_file s3)) (len content))).
  { unfold rev2_close. rewrite B3, W6, P6. unfold fseek_end, fseek.
    replace (len (fdata (o_file s3)) + 0) with (len content) by (rewrite D3, Pr, len_app, Lp; lia).
    replace ((0 <=? len content) && (len content <? 2 ^ 63)) with true by (pose proof (len_nonneg content); lia). reflexivity. }
  exists (slice 0 (i_cur s) content ++ x). split.
  { unfold edit. rewrite O. cbn [bind]. cbv zeta. rewrite O2. cbn [bind]. rewrite (edit_loop_ok _ _ _ _ _ _ _ _ _ Ra Wt). cbn [bind].
    rewrite <- Pr, <- D3. destruct (writer_for (i_bh s) (i_text s)); [reflexivity|reflexivity|]. rewrite Cl. reflexivity. }
  split; [rewrite len_app, Lp; lia|]. replace (i_cur s) with (i_cur s + 0) by lia. split.
  - intros j Hj. rewrite Z.add_0_r. destruct (Z.lt_ge_cases j (i_cur s)) as [Lj|Lj].
    + left. rewrite nth_error_app1 by (unfold len in Lp; lia). rewrite nth_slice by lia. reflexivity.
    + rewrite nth_error_app2 by (unfold len in Lp; lia).
      replace (Z.to_nat j - List.length (slice 0 (i_cur s) content))%nat with (Z.to_nat (j - i_cur s)) by (unfold len in Lp; lia).
      destruct (X1 (j - i_cur s) ltac:(lia)) as [Q|(i & t & en & Q1 & Q2 & Q3 & Q4)]; [left; rewrite Q; f_equal; lia|].
      right. exists i, t, en. split; [exact Q1|]. split; [exact Q2|]. split; [exact Q3|].
      replace (i_cur s) with (i_cur s + 0) by lia. rewrite start_shift. lia.
  - intros i t en Hi Ie. destruct (X2 i t en Hi Ie) as (Z1 & v & V1 & V2). exists v. split; [exact V1|].
    rewrite start_shift, Z.add_0_r. destruct (proj1 Sf en Ie) as (I1 & _).
    pose proof (slice_right (trace_start (bh_format_code (i_bh s)) 0 ts i + e_off en) (width (e_type en)) (slice 0 (i_cur s) content) x ltac:(lia)) as Q.
    rewrite Lp in Q. rewrite <- Z.add_assoc, Q. exact V2.
Qed.
