(** Extension blocks: from the block functions to traces. *)
From Coq Require Import Reals.
From Verif Require Import BaseFacts Bcd Platform CodecSpec CodecFacts Fp FpSpec TraceHdr HdrFacts SegyTypes SegyCodec
  ISegy OSegy LayoutSpec LayoutFacts SegdTypes SegdSpec SegdDecSpec SegdExtSpec ISegd OSegd OpenFacts ReadFacts2 NibFacts SegdHdrFacts
  SegdTrcFacts SegdFileFacts SegdDecFacts SegdOpenFacts SegdExtFacts SegdIoFacts SegdTrcRead.
Local Open Scope Z_scope.

(** Distinct names. *)
Lemma nodup_part {A} (a b c : list A) : NoDup (a ++ b ++ c) -> NoDup b /\ forall x, In x b -> ~ In x c.
Proof.
  induction a as [|x a IH]; cbn [app]; intros H.
  - induction b as [|y b IHb]; [split; [constructor|intros x []]|]. cbn [app] in H. inversion H as [|? ? N1 N2]; subst.
    destruct (IHb N2) as [K1 K2]. rewrite in_app_iff in N1. split; [constructor; tauto|].
    intros x [<-|Hx]; [tauto|apply K2, Hx].
  - inversion H as [|? ? N1 N2]; subst. apply IH, N2.
Qed.

Lemma nodup_concat {A} (f : A -> list string) (ls : list A) i l : NoDup (concat (map f ls)) -> nth_error ls i = Some l ->
  NoDup (f l) /\ forall k j l', In k (f l) -> (i < j)%nat -> nth_error ls j = Some l' -> ~ In k (f l').
Proof.
  intros N E. apply nth_error_split in E as (l1 & l2 & -> & Hl). rewrite map_app, concat_app in N. cbn [map concat] in N.
  apply nodup_part in N as [N1 N2]. split; [exact N1|]. intros k j l' Hk Hj E' Hk'.
  rewrite nth_error_app2 in E' by lia. destruct (j - List.length l1)%nat as [|m] eqn:Em; [lia|]. cbn [nth_error] in E'.
  apply (N2 k Hk). apply in_concat. exists (f l'). split; [|exact Hk']. apply in_map. eapply nth_error_In, E'.
Qed.

Lemma not_named (ls : ext_layouts) k n : (forall l, In l ls -> ~ In k (names l)) ->
  forall j l, (0 <= j < 0 + n)%nat -> nth_error ls j = Some l -> ~ In k (names l).
Proof. intros H j l _ E. apply H. eapply nth_error_In, E. Qed.

Lemma ext_count s p h f n : hget h "TR_HDR_EXT" = Some (VInt n) -> 0 <= n < 256 ->
  read_trace_header_ext p s h f = rd_exts p (g2_major (d_g2 s)) (d_layouts s) (Z.to_nat n) 0 f h.
Proof.
  intros H B. unfold read_trace_header_ext, hidx. rewrite H. cbn [get_int bind].
  rewrite wraps_id by (unfold in_i; lia). reflexivity.
Qed.

Lemma read_user p s h f n : p_left_first p = true -> bytes (fdata f) -> 0 <= fpos f -> len (fdata f) < 2 ^ 63 ->
  hget h "TR_HDR_EXT" = Some (VInt n) -> 0 <= n < 256 -> n <= len (d_layouts s) ->
  (forall l, In l (d_layouts s) -> block_layout l) ->
  read_trace_header_ext p s h f <> UB /\
  (fpos f + 32 * n <= len (fdata f) -> exists r, read_trace_header_ext p s h f = Ok r) /\
  (forall h' f', read_trace_header_ext p s h f = Ok (h', f') ->
     fdata f' = fdata f /\ fpos f' = fpos f + 32 * n /\
     (NoDup (concat (map names (d_layouts s))) -> fields_decoded (d_layouts s) n f h h')).
Proof.
  intros Hp Hb Hf Hl Hn B N S. rewrite (ext_count s p h f n Hn B).
  assert (G : good_file f) by (split; [exact Hb|split; assumption]).
  destruct (exts_user p (g2_major (d_g2 s)) (d_layouts s) (Z.to_nat n) 0 f h G) as (U & R & C).
  - unfold len in N. lia.
  - intros j l _ E. apply S. eapply nth_error_In, E.
  - replace (32 * Z.of_nat (Z.to_nat n)) with (32 * n) in * by lia.
    split; [exact U|]. split; [exact C|]. intros h' f' E. destruct (R h' f' E) as (D & P & F1 & F2).
    split; [exact D|]. split; [exact P|]. intros ND. split.
    + intros k Hk. apply F1. apply not_named, Hk.
    + intros j l en Hj El Hen Nu. destruct (nodup_concat names _ _ _ ND El) as [N1 N2].
      rewrite (F2 j l en ltac:(lia) El Hen Nu N1).
      * eexists. split; [reflexivity|]. destruct (proj1 (S l (nth_error_In _ _ El)) en Hen). pose proof (width_pos (e_type en)).
        apply fval_value; [exact Hp|apply bytes_slice, Hb|].
        assert (Ln : fpos f + 32 * n <= len (fdata f)).
        { destruct (Z.le_gt_cases (fpos f) (len (fdata f))) as [Q|Q].
          - pose proof (exts_in _ _ _ _ _ _ _ _ _ E Q) as K. rewrite D, P in K. exact K.
          - exfalso. destruct (Z.to_nat n) as [|m] eqn:Em; [lia|]. cbn [rd_exts] in E. unfold fread in E.
            replace (TRACE_HEADER_EXT_SIZE =? 0) with false in E by reflexivity.
            replace (fpos f + TRACE_HEADER_EXT_SIZE <=? len (fdata f)) with false in E
              by (change TRACE_HEADER_EXT_SIZE with 32; lia). discriminate. }
        rewrite slice_length; [reflexivity|lia|lia|lia].
      * intros j' l' Hj' Ej'. apply (N2 (e_name en) j' l'); [|lia|exact Ej']. apply in_map, Hen.
Qed.

(** ** Writing a trace *)

Lemma concat_slice (bs : list (list Z)) : Forall (fun b => len b = 32 /\ bytes b) bs -> forall j b, nth_error bs j = Some b ->
  forall r, slice (32 * Z.of_nat j) 32 (concat bs ++ r) = b.
Proof.
  induction 1 as [|x bs [L _] _ IH]; intros j b E r; [destruct j; discriminate|]. destruct j as [|j]; cbn [nth_error concat] in *.
  - injection E as ->. change (32 * Z.of_nat 0) with 0. unfold slice. change (skipn (Z.to_nat 0) ?l) with l.
    rewrite <- app_assoc, firstn_app. unfold len in L. replace (Z.to_nat 32 - List.length b)%nat with 0%nat by lia.
    rewrite firstn_all2 by lia. cbn [firstn]. apply app_nil_r.
  - rewrite <- (IH j b E r). rewrite <- app_assoc. unfold slice. f_equal. unfold len in L.
    replace (Z.to_nat (32 * Z.of_nat (S j))) with (List.length x + Z.to_nat (32 * Z.of_nat j))%nat by lia.
    rewrite <- skipn_skipn'. f_equal. rewrite skipn_app, Nat.sub_diag, skipn_all. reflexivity.
Qed.

Lemma concat_len (bs : list (list Z)) : Forall (fun b => len b = 32 /\ bytes b) bs -> len (concat bs) = 32 * len bs.
Proof.
  induction 1 as [|x bs [L _] _ IH]; [reflexivity|]. cbn [concat]. rewrite len_app, IH, L, len_cons. lia.
Qed.

Lemma write_trace_file p o t o' d : od_file o = fend d -> d_write_trace p o t = Ok o' ->
  exists n hb f2 sb, opt_int (t_hdr t) "TR_HDR_EXT" = Ok n /\ len hb = 20 /\
    write_exts p (g2_major (od_g2 o)) (od_layouts o) (t_hdr t) (Z.to_nat (wrapu 8 n)) 0 (fend (d ++ hb)) = Ok f2 /\
    od_file o' = fwrite sb f2.
Proof.
  intros Ef H. unfold d_write_trace in H. destruct (od_written o =? od_chans o); [discriminate|].
  apply bind_ok in H as (f1 & E1 & H). rewrite Ef in E1.
  apply put_keeps in E1 as (hb & Lh & ->); [|discriminate|apply keeps_header].
  apply bind_ok in H as (n & En & H). apply bind_ok in H as (f2 & E2 & H). apply bind_ok in H as ([bits sw] & _ & H).
  apply bind_ok in H as (buf & _ & H). apply bind_ok in H as (c & _ & H). cbv zeta in H.
  apply bind_ok in H as ([pend dc] & _ & H). apply (f_equal (fun x => match x with Ok y => od_file y | _ => od_file o end)) in H.
  cbn [od_upd od_file] in H. exists n, hb, f2, (fst dc ++ snd dc). rewrite H. auto.
Qed.

Lemma round_user p o t o' d n s h0 : p_left_first p = true ->
  od_file o = fend d -> d_write_trace p o t = Ok o' ->
  hget (t_hdr t) "TR_HDR_EXT" = Some (VInt n) -> 0 <= n < 256 -> n <= len (od_layouts o) ->
  (forall l, In l (od_layouts o) -> block_layout l) ->
  (forall l en, In l (od_layouts o) -> In en l -> e_type en <> U64 /\ e_type en <> Ibm) ->
  NoDup (concat (map names (od_layouts o))) ->
  d_layouts s = od_layouts o -> hget h0 "TR_HDR_EXT" = Some (VInt n) ->
  exists h', read_trace_header_ext p s h0 (mkFile (fdata (od_file o')) (len d + 20)) =
               Ok (h', mkFile (fdata (od_file o')) (len d + 20 + 32 * n)) /\
    fields_stored (od_layouts o) n (t_hdr t) h0 h'.
Proof.
  intros Hp Ef H Hn B N Sb T ND Hs Hn0.
  destruct (write_trace_file p o t o' d Ef H) as (n' & hb & f2 & sb & En & Lh & Ew & Eo).
  unfold opt_int in En. rewrite Hn in En. injection En as <-. rewrite wrapu_small in Ew by (unfold in_u; lia).
  assert (N' : (0 + Z.to_nat n <= List.length (od_layouts o))%nat) by (unfold len in N; lia).
  destruct (write_user p _ _ _ _ _ _ _ N' (fun j l _ E => Sb l (nth_error_In _ _ E)) Ew) as (bs & Lb & [U1 U2] & E2).
  clear N'. subst f2.
  rewrite fwrite_fend in Eo. rewrite Eo. cbn [fdata fend]. set (D := ((d ++ hb) ++ concat bs) ++ sb).
  assert (ED : D = (d ++ hb) ++ concat bs ++ sb) by (unfold D; rewrite <- !app_assoc; reflexivity).
  rewrite (ext_count s p h0 _ n Hn0 B), Hs. set (ls := od_layouts o) in *. clearbody D.
  (* the reader, block by block *)
  assert (K : forall m i h1, (i + m <= List.length bs)%nat -> exists h',
     rd_exts p (g2_major (d_g2 s)) ls m i (mkFile D (len d + 20 + 32 * Z.of_nat i)) h1 =
       Ok (h', mkFile D (len d + 20 + 32 * Z.of_nat (i + m))) /\
     (forall k, (forall l, In l ls -> ~ In k (names l)) -> hget h' k = hget h1 k) /\
     (forall k, (forall j l, (i <= j < i + m)%nat -> nth_error ls j = Some l -> ~ In k (names l)) -> hget h' k = hget h1 k) /\
     (forall j l en, (i <= j < i + m)%nat -> nth_error ls j = Some l -> In en l ->
       exists v v', hget (t_hdr t) (e_name en) = Some v /\ hget h' (e_name en) = Some v' /\ stored_value (e_type en) v v')).
  { induction m as [|m IH]; intros i h1 Hm; cbn [rd_exts].
    - exists h1. rewrite Nat.add_0_r. split; [reflexivity|]. split; [auto|]. split; [auto|]. intros; lia.
    - destruct (nth_error bs i) as [b|] eqn:Eb; [|apply nth_error_None in Eb; lia].
      destruct (nth_error ls i) as [l|] eqn:El; [|apply nth_error_None in El; unfold len in N; lia].
      pose proof (Sb l (nth_error_In _ _ El)) as Sl. pose proof (u64s_bound l Sl) as Ub.
      destruct (proj1 (Forall_forall _ _) U1 b (nth_error_In _ _ Eb)) as [Lb32 Bb].
      destruct (rd_ext_fields_ok p b l Lb32 (proj1 Sl) b h1 ltac:(lia)) as (h2 & E & O & F).
      assert (Rd : fread TRACE_HEADER_EXT_SIZE (mkFile D (len d + 20 + 32 * Z.of_nat i)) =
                   Ok (b, mkFile D (len d + 20 + 32 * Z.of_nat (S i)))).
      { unfold fread. change TRACE_HEADER_EXT_SIZE with 32. change (32 =? 0) with false. cbv iota. cbn [fdata fpos].
        assert (LD : len D = len d + 20 + 32 * Z.of_nat (List.length bs) + len sb).
        { rewrite ED, !len_app, (concat_len bs U1). unfold len in *. lia. }
        pose proof (len_nonneg sb). replace (len d + 20 + 32 * Z.of_nat i + 32 <=? len D) with true by lia.
        do 2 f_equal; [|f_equal; lia]. rewrite <- (concat_slice bs U1 i b Eb sb). rewrite ED. unfold slice. f_equal.
        replace (Z.to_nat (len d + 20 + 32 * Z.of_nat i)) with (List.length (d ++ hb) + Z.to_nat (32 * Z.of_nat i))%nat
          by (rewrite app_length; unfold len in *; lia).
        rewrite <- skipn_skipn'. f_equal. rewrite skipn_app, Nat.sub_diag, skipn_all. reflexivity. }
      rewrite Rd. cbn [bind].
      match goal with |- exists _, bind ?x _ = _ /\ _ =>
        assert (Em : x = Ok h2) by (destruct ls; [destruct i; discriminate|exact E]); rewrite Em end.
      cbn [bind].
      destruct (IH (S i) h2 ltac:(lia)) as (h' & E' & O1 & O2 & F'). exists h'.
      replace (i + S m)%nat with (S i + m)%nat by lia. split; [exact E'|]. split; [|split].
      + intros k Hk. rewrite (O1 k Hk). apply O. apply Hk. eapply nth_error_In, El.
      + intros k Hk. rewrite O2; [|intros j l' Hj; apply Hk; lia]. apply O. apply (Hk i l); [lia|exact El].
      + intros j l' en Hj El' Hen. destruct (Nat.eq_dec j i) as [->|Nj]; [|apply (F' j l'); [lia|exact El'|exact Hen]].
        assert (l' = l) by congruence. subst l'. destruct (nodup_concat names _ _ _ ND El) as [N1 N2].
        destruct (U2 i b l en Eb El Hen) as (v & Ev & Ewf).
        destruct (T l en (nth_error_In _ _ El) Hen) as [T1 T2].
        destruct (stored_fval p _ _ _ Hp T2 Ewf) as (_ & _ & St).
        exists v, (fval p Swapped (e_type en) (slice (e_off en) (width (e_type en)) b)). split; [exact Ev|]. split; [|exact St].
        rewrite O2; [apply F; auto|]. intros j' l' Hj' Ej'. apply (N2 (e_name en) j' l'); [apply in_map, Hen|lia|exact Ej']. }
  destruct (K (Z.to_nat n) 0%nat h0 ltac:(lia)) as (h' & E & O1 & _ & F).
  exists h'. split; [|split].
  - rewrite <- (Z.add_0_r (len d + 20)) at 1. change 0 with (32 * Z.of_nat 0) at 1. rewrite E. do 3 f_equal. lia.
  - exact O1.
  - intros j l en Hj El Hen. apply (F j l en); [lia|exact El|exact Hen].
Qed.

(** The blocks can be written if the header gives every field a value of its
    kind. *)
Lemma wr_fields_given p h l : (forall en, In en l -> 0 <= e_off en /\ e_off en + width (e_type en) <= 32) ->
  (forall en, In en l -> gives h en) -> forall blk, len blk = 52 -> is_ok (wr_ext_fields p l h blk) = true.
Proof.
  induction l as [|a l IH]; intros Hin Hg blk L; cbn [wr_ext_fields]; [reflexivity|].
  pose proof (Hg a (or_introl eq_refl)) as G. destruct (Hin a (or_introl eq_refl)) as [I1 I2].
  assert (X : exists v d, hget h (e_name a) = Some v /\ wr_ext_field p (e_type a) v = Ok d).
  { unfold gives in G. destruct (e_type a); try contradiction; destruct G as (z & ->); eexists _, _; split; reflexivity. }
  destruct X as (v & d & -> & Ed). rewrite Ed. cbn [bind]. destruct (wr_ext_field_length _ _ _ _ Ed) as [Ld _].
  rewrite upd_ok by lia. cbn [bind]. apply IH.
  - intros en K. apply Hin. right. exact K.
  - intros en K. apply Hg. right. exact K.
  - pose proof (width_pos (e_type a)). unfold len in *. rewrite !app_length, firstn_length, skipn_length. lia.
Qed.

Lemma write_given p mj ls h n : p_flat_bufs p = true -> forall i f, (i + n <= List.length ls)%nat ->
  (forall l, In l ls -> block_layout l) -> (forall l en, In l ls -> In en l -> gives h en) ->
  exists f', write_exts p mj ls h n i f = Ok f'.
Proof.
  intros Hp. induction n as [|n IH]; intros i f Hn Sb G; cbn [write_exts]; [eauto|]. rewrite Hp.
  destruct (nth_error ls i) as [l|] eqn:El; [|apply nth_error_None in El; lia].
  assert (Hl : In l ls) by (eapply nth_error_In, El).
  pose proof (wr_fields_given p h l (proj1 (Sb l Hl)) (fun en => G l en Hl) (zeros FLAT_SIZE) eq_refl) as K.
  destruct (wr_ext_fields p l h (zeros FLAT_SIZE)) as [buf| |] eqn:E; try discriminate.
  destruct (IH (S i) (fwrite (firstn 32 buf) f) ltac:(lia) Sb G) as (f' & Ef). exists f'.
  destruct ls as [|l0 ls']; [destruct i; discriminate|]. exact Ef.
Qed.

Lemma wr_fields_safe p h l : (forall en, In en l -> 0 <= e_off en /\ e_off en + width (e_type en) <= 32) ->
  (forall en, In en l -> e_type en <> Ibm) -> forall blk, len blk = 52 -> wr_ext_fields p l h blk <> UB.
Proof.
  induction l as [|a l IH]; intros Hin Hg blk L; cbn [wr_ext_fields]; [discriminate|].
  destruct (hget h (e_name a)) as [v|]; [|discriminate].
  destruct (Hin a (or_introl eq_refl)) as [I1 I2]. pose proof (Hg a (or_introl eq_refl)) as Nt.
  destruct (wr_ext_field p (e_type a) v) as [d| |] eqn:Ed; [|discriminate|].
  - cbn [bind]. destruct (wr_ext_field_length _ _ _ _ Ed) as [Ld _].
    rewrite upd_ok by lia. cbn [bind]. apply IH.
    + intros en K. apply Hin. right. exact K.
    + intros en K. apply Hg. right. exact K.
    + pose proof (width_pos (e_type a)). unfold len in *. rewrite !app_length, firstn_length, skipn_length. lia.
  - exfalso. destruct v, (e_type a); cbn in Ed; try discriminate; congruence.
Qed.

Lemma write_safe p mj ls h n : p_flat_bufs p = true -> forall i f, (i + n <= List.length ls)%nat ->
  (forall l, In l ls -> block_layout l) -> (forall l en, In l ls -> In en l -> e_type en <> Ibm) ->
  write_exts p mj ls h n i f <> UB.
Proof.
  intros Hp. induction n as [|n IH]; intros i f Hn Sb G; cbn [write_exts]; [discriminate|]. rewrite Hp.
  destruct (nth_error ls i) as [l|] eqn:El; [|apply nth_error_None in El; lia].
  assert (Hl : In l ls) by (eapply nth_error_In, El).
  pose proof (wr_fields_safe p h l (proj1 (Sb l Hl)) (fun en => G l en Hl) (zeros FLAT_SIZE) eq_refl) as K.
  destruct ls as [|l0 ls']; [destruct i; discriminate|].
  destruct (wr_ext_fields p l h (zeros FLAT_SIZE)) as [buf| |] eqn:E; cbn [bind]; [|discriminate|congruence].
  apply IH; [cbn [List.length] in *; lia|exact Sb|exact G].
Qed.

(** The standard block. *)
Lemma standard_block p h h0 t n d : p_left_first p = true -> p_flat_bufs p = true -> te_carries h t -> te_range t -> (1 <= n)%nat ->
  exists f', write_exts p 2 [] h n 0 (fend d) = Ok f' /\
  exists h', rd_exts p 2 [] n 0 (mkFile (fdata f') (len d)) h0 = Ok (h', mkFile (fdata f') (len (fdata f'))) /\ te_shows h' t /\
    (forall k, ~ In k ["R_LINE"; "R_POINT"; "R_POINT_IDX"; "SAMP_NUM"; "SENSOR_TYPE"]%string -> hget h' k = hget h0 k).
Proof.
  intros Hp Hf C R Hn. eexists. split; [apply (write_exts_ok p h t n d Hf C R Hn)|]. cbn [fend fdata].
  set (D := d ++ blk 32 (te_layout t) ++ repeat 0 (32 * (n - 1))).
  assert (Q : here D (len d) (blk 32 (te_layout t) ++ repeat 0 (32 * (n - 1)) ++ [])).
  { exists d. rewrite app_nil_r. split; reflexivity. }
  destruct (rd_exts_ok p h0 h t n D (len d) [] Hp C R Hn Q) as [E Q'].
  exists (te_set h0 t). split; [|split; [apply te_set_shows, R|]].
  - unfold fat in E. rewrite E. do 3 f_equal. destruct Q' as (a & E1 & E2). rewrite app_nil_r in E1. rewrite E1. lia.
  - intros k Hk. apply te_set_other, Hk.
Qed.
