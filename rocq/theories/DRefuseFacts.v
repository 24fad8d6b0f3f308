(** Lemmas about a SEG-D writer that goes on after an exception (C96). *)
From Coq Require Import String.
From Verif Require Import BaseFacts Platform Bcd Fp TraceHdr SegyTypes SegyCodec ISegy OSegy SegdTypes OSegd StepX OSegdX WriterFacts RefuseSpec DRefuseSpec
  SegdCountFacts SegdReadProps SegdOpenFacts.
Local Open Scope Z_scope.

(** ** Writers that keep the size of the array, and writers that do not throw *)
Definition wsize (w : W) : Prop := forall c d c', w c = Ok (d, c') -> (List.length d + List.length c' = List.length c)%nat.
Definition wquiet (w : W) : Prop := forall c x, w c <> Throw x.

Lemma wsize_put d : wsize (wput d).
Proof.
  intros c d' c' H. unfold wput in H. destruct (Nat.leb_spec (List.length d) (List.length c)); [|discriminate].
  injection H as <- <-. rewrite skipn_length. lia.
Qed.
Lemma wsize_skip n : wsize (wskip n).
Proof.
  intros c d c' H. unfold wskip in H. destruct (Nat.leb_spec n (List.length c)); [|discriminate].
  injection H as <- <-. rewrite firstn_length, skipn_length. lia.
Qed.
Lemma wsize_mod f : wsize (wmod f).
Proof. intros [|b c] d c' H; [discriminate|]. injection H as <- <-. reflexivity. Qed.
Lemma wsize_nil : wsize wnil.
Proof. intros c d c' H. injection H as <- <-. reflexivity. Qed.
Lemma wsize_seq a b : wsize a -> wsize b -> wsize (a ;; b).
Proof.
  intros A B c d c' H. unfold wseq in H. destruct (a c) as [[d1 c1]|e|] eqn:E1; cbn [bind] in H; [|discriminate..].
  destruct (b c1) as [[d2 c2]|e|] eqn:E2; cbn [bind] in H; [|discriminate..]. injection H as <- <-.
  apply A in E1. apply B in E2. rewrite app_length. lia.
Qed.
Lemma wsize_let {A} (x : outcome A) f : (forall a, wsize (f a)) -> wsize (wlet x f).
Proof. intros F c d c' H. unfold wlet in H. destruct x as [a|e|]; cbn [bind] in H; [|discriminate..]. exact (F a _ _ _ H). Qed.
Lemma wsize_ub : wsize (fun _ => UB).
Proof. intros c d c' H. discriminate. Qed.
Lemma wsize_tail vs st : forall n, wsize (to_bcd_tail vs st n).
Proof.
  fix IH 1. intros [|[|n]]; cbn [to_bcd_tail]; [apply wsize_nil|apply wsize_mod|].
  apply wsize_seq; [apply wsize_put|apply IH].
Qed.
Lemma wsize_bcd vs v b n : wsize (to_bcd vs v b n).
Proof.
  unfold to_bcd. destruct (_ && _); [|apply wsize_ub]. destruct b; [|apply wsize_tail].
  apply wsize_seq; [apply wsize_mod|]. apply wsize_seq; [apply wsize_skip|apply wsize_tail].
Qed.

Lemma wquiet_put d : wquiet (wput d).
Proof. intros c x. unfold wput. destruct (Nat.leb _ _); discriminate. Qed.
Lemma wquiet_skip n : wquiet (wskip n).
Proof. intros c x. unfold wskip. destruct (Nat.leb _ _); discriminate. Qed.
Lemma wquiet_mod f : wquiet (wmod f).
Proof. intros [|b c] x; discriminate. Qed.
Lemma wquiet_nil : wquiet wnil.
Proof. intros c x. discriminate. Qed.
Lemma wquiet_seq a b : wquiet a -> wquiet b -> wquiet (a ;; b).
Proof.
  intros A B c x. unfold wseq. destruct (a c) as [[d1 c1]|e|] eqn:E1; cbn [bind]; [|exfalso; exact (A _ _ E1)|discriminate].
  destruct (b c1) as [[d2 c2]|e|] eqn:E2; cbn [bind]; [discriminate|exfalso; exact (B _ _ E2)|discriminate].
Qed.
Lemma wquiet_let {A} (o : outcome A) f : (forall x, o <> Throw x) -> (forall a, wquiet (f a)) -> wquiet (wlet o f).
Proof.
  intros O F c x. unfold wlet. destruct o as [a|e|]; cbn [bind]; [apply F|exfalso; exact (O e eq_refl)|discriminate].
Qed.

Lemma d2u_quiet p w d x : d2u p w d <> Throw x.
Proof. unfold d2u. destruct (d_trunc d) as [t|]; [destruct (in_u w t); [discriminate|]|]; destruct (p_d2u p w _); discriminate. Qed.
Lemma d2s_quiet p w d x : d2s p w d <> Throw x.
Proof. unfold d2s. destruct (d_trunc d) as [t|]; [destruct (in_i w t); [discriminate|]|]; destruct (p_d2u p w _); discriminate. Qed.
Lemma wquiet_24d p d : wquiet (w24_d p d).
Proof. apply wquiet_let; [apply d2u_quiet|]. intros a. apply wquiet_put. Qed.
Lemma wquiet_16d p d : wquiet (w16_d p d).
Proof. apply wquiet_let; [apply d2u_quiet|]. intros a. apply wquiet_put. Qed.
Lemma num_val_quiet p ov x : num_val p ov <> Throw x.
Proof.
  destruct ov as [[z|d]|]; cbn [num_val]; [discriminate| |discriminate].
  destruct (d2s p 64 d) as [i|e|] eqn:E; cbn [bind]; [discriminate|exfalso; exact (d2s_quiet _ _ _ _ E)|discriminate].
Qed.
Lemma opt_int_quiet h k x : (forall d, hget h k <> Some (VDbl d)) -> opt_int h k <> Throw x.
Proof. intros H. unfold opt_int. destruct (hget h k) as [[z|d]|]; [discriminate|exfalso; exact (H d eq_refl)|discriminate]. Qed.

Lemma wsize_std p major h : wsize (ext_std_writer p major h).
Proof.
  unfold ext_std_writer, w_ext_num, w24_d, w16_d, wbyte, w24, w16.
  repeat match goal with
    | |- wsize (wseq _ _) => apply wsize_seq
    | |- wsize (wlet _ _) => apply wsize_let; intros
    | |- wsize (if ?b then _ else _) => destruct b
    | |- wsize (wput _) => apply wsize_put
    | |- wsize (wskip _) => apply wsize_skip
    | |- wsize wnil => apply wsize_nil
    end.
Qed.
Lemma wsize_header p h : wsize (trace_header_writer p h).
Proof.
  unfold trace_header_writer, w_esc4, w_esc2, w24_d, wbyte_d, wbyte, w24, w16.
  repeat match goal with
    | |- wsize (wseq _ _) => apply wsize_seq
    | |- wsize (wlet _ _) => apply wsize_let; intros
    | |- wsize (if ?b then _ else _) => destruct b
    | |- wsize (match ?b with Some _ => _ | None => _ end) => destruct b
    | |- wsize (wput _) => apply wsize_put
    | |- wsize (wskip _) => apply wsize_skip
    | |- wsize (to_bcd _ _ _ _) => apply wsize_bcd
    | |- wsize (fun _ => UB) => apply wsize_ub
    | |- wsize wnil => apply wsize_nil
    end.
Qed.
Lemma wrun_size w b b' : wsize w -> wrun w b = Ok b' -> List.length b' = List.length b.
Proof.
  intros S H. unfold wrun in H. destruct (w b) as [[d c]|e|] eqn:E; cbn [bind] in H; [|discriminate..]. injection H as <-.
  rewrite app_length. exact (S _ _ _ E).
Qed.
Lemma wrun_quiet w b x : wquiet w -> wrun w b <> Throw x.
Proof. intros Q. unfold wrun. destruct (w b) as [[d c]|e|] eqn:E; cbn [bind]; [discriminate|exfalso; exact (Q _ _ E)|discriminate]. Qed.

Lemma std_quiet p major h : (forall k d, In k (std_integers major) -> hget h k <> Some (VDbl d)) -> wquiet (ext_std_writer p major h).
Proof.
  intros H. unfold std_integers in H. unfold ext_std_writer, w_ext_num, wbyte, w24.
  destruct (1 <? major) eqn:E1; destruct (2 <? major) eqn:E2; try (exfalso; lia);
  repeat match goal with
    | |- wquiet (wseq _ _) => apply wquiet_seq
    | |- wquiet (wlet (num_val _ _) _) => apply wquiet_let; [intros ?; apply num_val_quiet|intros ?]
    | |- wquiet (wlet (opt_int _ _) _) => apply wquiet_let; [intros ?; apply opt_int_quiet; intros ?; apply H; cbn; tauto|intros ?]
    | |- wquiet (if ?b then _ else _) => destruct b
    | |- wquiet (w24_d _ _) => apply wquiet_24d
    | |- wquiet (w16_d _ _) => apply wquiet_16d
    | |- wquiet (wput _) => apply wquiet_put
    | |- wquiet (wskip _) => apply wquiet_skip
    | |- wquiet wnil => apply wquiet_nil
    end.
Qed.

(** ** Extension blocks *)
Lemma upd_size b o d b' : upd b o d = Ok b' -> List.length b' = List.length b.
Proof.
  unfold upd. destruct ((0 <=? o) && (o + len d <=? len b)) eqn:E; [|discriminate]. intros H. injection H as <-.
  apply andb_prop in E as [E1 E2]. apply Z.leb_le in E1, E2. unfold len in *. rewrite !app_length, firstn_length, skipn_length. lia.
Qed.
Lemma fields_size p h : forall l b b', wr_ext_fields p l h b = Ok b' -> List.length b' = List.length b.
Proof.
  induction l as [|en l IH]; intros b b' H; cbn [wr_ext_fields] in H; [injection H as <-; reflexivity|].
  destruct (hget h (e_name en)) as [v|]; [|discriminate].
  destruct (wr_ext_field p (e_type en) v) as [d|e|]; cbn [bind] in H; [|discriminate..].
  destruct (upd b (e_off en) d) as [b1|e|] eqn:E; cbn [bind] in H; [|discriminate..].
  apply IH in H. apply upd_size in E. congruence.
Qed.
Lemma ibm_quiet p e d x : wr_ibm p e d <> Throw x.
Proof.
  unfold wr_ibm, d2ibm. destruct (p_ibm_exp p (d_abs d)); [|discriminate].
  destruct (d2u p 32 _) as [v|y|] eqn:E; cbn [bind]; [discriminate|exfalso; exact (d2u_quiet _ _ _ _ E)|discriminate].
Qed.
Lemma field_quiet p t v x : real_value v = real_field t -> wr_ext_field p t v <> Throw x.
Proof.
  intros H. destruct v as [z|d], t; try discriminate H; cbn [wr_ext_field get_int get_dbl bind]; try discriminate. apply ibm_quiet.
Qed.
Lemma fields_quiet p h x : forall l b, (forall en, In en l -> exists v, hget h (e_name en) = Some v /\ real_value v = real_field (e_type en)) ->
  wr_ext_fields p l h b <> Throw x.
Proof.
  induction l as [|en l IH]; intros b H; cbn [wr_ext_fields]; [discriminate|].
  destruct (H en (or_introl eq_refl)) as (v & -> & R).
  destruct (wr_ext_field p (e_type en) v) as [d|e|] eqn:E; cbn [bind]; [|exfalso; exact (field_quiet _ _ _ _ R E)|discriminate].
  unfold upd. destruct (_ && _); cbn [bind]; [|discriminate]. apply IH. intros en' I. apply H. right. exact I.
Qed.

(** The array of extension block [i]. *)
Definition ext_array (p : platform) (major : Z) (ls : ext_layouts) (h : hdr) (i : nat) : outcome (list Z) :=
  match ls with
  | [] => match i with
          | O => wrun (ext_std_writer p major h) (zeros FLAT_SIZE)
          | S _ => Ok (zeros FLAT_SIZE)
          end
  | _ => match nth_error ls i with
         | Some l => wr_ext_fields p l h (zeros FLAT_SIZE)
         | None => UB
         end
  end.
Lemma array_size p major ls h i b : ext_array p major ls h i = Ok b -> List.length b = 52%nat.
Proof.
  unfold ext_array. change 52%nat with (List.length (zeros FLAT_SIZE)). intros H.
  destruct ls as [|l0 ls].
  - destruct i; [exact (wrun_size _ _ _ (wsize_std _ _ _) H)|congruence].
  - destruct (nth_error (l0 :: ls) i) as [l|]; [exact (fields_size _ _ _ _ _ H)|discriminate].
Qed.

Definition with_file (s : osegd) (f : file) : osegd := od_upd s f (od_written s) (od_pend s) (od_sbuf s).
Lemma with_file_same s : with_file s (od_file s) = s.
Proof. destruct s; reflexivity. Qed.
Lemma with_with s f g : with_file (with_file s f) g = with_file s g.
Proof. reflexivity. Qed.
(** Blocks written one after the other. *)
Definition put_all (bs : list (list Z)) (f : file) : file := fold_left (fun f b => fwrite b f) bs f.
Lemma put_all_end bs : forall f, at_end f -> fdata (put_all bs f) = fdata f ++ concat bs /\ at_end (put_all bs f).
Proof.
  induction bs as [|b bs IH]; intros f A; cbn [put_all fold_left concat]; [rewrite app_nil_r; auto|].
  destruct (fwrite_end b f A) as [D A']. destruct (IH _ A') as [D' A'']. unfold put_all in *. rewrite D', D, app_assoc. auto.
Qed.

Lemma exts_step p h n i s : xd_exts p h (S n) i s =
  if p_flat_bufs p then
    match ext_array p (g2_major (od_g2 s)) (od_layouts s) h i with
    | Ok b => xd_exts p h n (S i) (with_file s (fwrite (firstn 32 b) (od_file s)))
    | Throw e => (Throw e, s)
    | UB => (UB, s)
    end
  else (UB, s).
Proof.
  cbn [xd_exts]. unfold xbind at 1, xget at 1. destruct (p_flat_bufs p); [|reflexivity].
  fold (ext_array p (g2_major (od_g2 s)) (od_layouts s) h i). unfold xbind at 1, xlift at 1.
  destruct (ext_array p (g2_major (od_g2 s)) (od_layouts s) h i) as [b|e|]; reflexivity.
Qed.

Lemma exts_run p h : forall n i s,
  match write_exts p (g2_major (od_g2 s)) (od_layouts s) h n i (od_file s) with
  | Ok f => xd_exts p h n i s = (Ok tt, with_file s f) /\
            exists bs, List.length bs = n /\ Forall (fun b => List.length b = 32%nat) bs /\ f = put_all bs (od_file s)
  | Throw e => exists bs, xd_exts p h n i s = (Throw e, with_file s (put_all bs (od_file s))) /\
      (List.length bs < n)%nat /\ Forall (fun b => List.length b = 32%nat) bs
  | UB => exists s', xd_exts p h n i s = (UB, s')
  end.
Proof.
  induction n as [|n IH]; intros i s.
  - cbn [write_exts xd_exts]. split; [rewrite with_file_same; reflexivity|]. exists []. split; [reflexivity|]. split; [constructor|reflexivity].
  - rewrite exts_step. cbn [write_exts]. destruct (p_flat_bufs p); [|exists s; reflexivity].
    fold (ext_array p (g2_major (od_g2 s)) (od_layouts s) h i).
    destruct (ext_array p (g2_major (od_g2 s)) (od_layouts s) h i) as [b|e|] eqn:E; cbn [bind].
    + set (s1 := with_file s (fwrite (firstn 32 b) (od_file s))). specialize (IH (S i) s1).
      change (od_g2 s1) with (od_g2 s) in IH. change (od_layouts s1) with (od_layouts s) in IH.
      change (od_file s1) with (fwrite (firstn 32 b) (od_file s)) in IH.
      assert (L : List.length (firstn 32 b) = 32%nat) by (rewrite firstn_length, (array_size _ _ _ _ _ _ E); reflexivity).
      destruct (write_exts p _ _ h n (S i) _) as [f|e|].
      * destruct IH as (X & bs & B1 & B2 & B3). rewrite X. unfold s1. rewrite with_with. split; [reflexivity|].
        exists (firstn 32 b :: bs). split; [cbn; congruence|]. split; [constructor; assumption|]. exact B3.
      * destruct IH as (bs & X & B1 & B2). exists (firstn 32 b :: bs). rewrite X. unfold s1. rewrite with_with. split; [reflexivity|].
        split; [cbn [List.length]; lia|constructor; assumption].
      * exact IH.
    + exists []. cbn [put_all fold_left]. rewrite with_file_same. split; [reflexivity|]. split; [cbn; lia|constructor].
    + exists s. reflexivity.
Qed.

Lemma exts_quiet p major ls h z x : hget h "TR_HDR_EXT" = Some (VInt z) -> ext_complete major ls h -> forall n i f,
  (i + n)%nat = Z.to_nat (z mod 256) -> write_exts p major ls h n i f <> Throw x.
Proof.
  intros Hz C. induction n as [|n IH]; intros i f L; cbn [write_exts]; [discriminate|].
  assert (B : 0 <= z mod 256 < 256) by (apply Z.mod_pos_bound; lia).
  specialize (C z Hz ltac:(lia)). destruct (p_flat_bufs p); [|discriminate].
  fold (ext_array p major ls h i). assert (Q : ext_array p major ls h i <> Throw x).
  { unfold ext_array. destruct ls as [|l0 ls].
    - destruct i; [|discriminate]. apply wrun_quiet, std_quiet. exact C.
    - destruct (nth_error (l0 :: ls) i) as [l|] eqn:E; [|discriminate]. apply fields_quiet. intros en I.
      exact (C i l en ltac:(lia) E I). }
  destruct (ext_array p major ls h i) as [b|e|]; cbn [bind]; [|congruence|discriminate]. apply IH. lia.
Qed.

(** ** Samples *)
Lemma bind_quiet {A B} (o : outcome A) (k : A -> outcome B) x :
  (forall y, o <> Throw y) -> (forall a, k a <> Throw x) -> (let* a := o in k a) <> Throw x.
Proof. intros O K. destruct o as [a|e|]; cbn [bind]; [apply K|exfalso; exact (O e eq_refl)|discriminate]. Qed.
Lemma fmt_exp_quiet p fmt m d x : fmt_exp p fmt m d <> Throw x.
Proof. unfold fmt_exp. destruct (p_fmt_exp _ _ _); discriminate. Qed.
Lemma mapM_quiet {A B} (f : A -> outcome B) : (forall a x, f a <> Throw x) -> forall l x, mapM f l <> Throw x.
Proof.
  intros F. induction l as [|a l IH]; intros x; cbn [mapM]; [discriminate|].
  apply bind_quiet; [apply F|]. intros b. apply bind_quiet; [exact IH|]. intros bs. discriminate.
Qed.
Lemma enc_quiet p vs x : enc_8015 p vs <> Throw x.
Proof.
  unfold enc_8015. apply bind_quiet.
  - apply mapM_quiet. intros a y. apply bind_quiet; [apply fmt_exp_quiet|]. intros e. apply bind_quiet; [apply d2u_quiet|]. intros r. discriminate.
  - intros l. repeat match goal with |- context [match ?q with [] => _ | _ :: _ => _ end] => destruct q as [|[] ?] end; discriminate.
Qed.
Definition swriter_quiet (sw : swriter) : Prop :=
  match sw with
  | SBytes f => forall v x, f v <> Throw x
  | SFirst f => forall v x, f v <> Throw x
  | S8015 => True
  end.
Lemma writer_quiet p fmt bits sw : d_sample_writer p fmt = Ok (bits, sw) -> swriter_quiet sw.
Proof.
  intros H.
  assert (K : In fmt known_formats).
  { destruct (in_dec Z.eq_dec fmt known_formats) as [I|N]; [exact I|]. rewrite (writer_other p fmt N) in H. discriminate H. }
  unfold known_formats in K. cbn [In] in K. repeat (destruct K as [<-|K]; [cbn [d_sample_writer] in H; injection H as _ <-; cbn [swriter_quiet]; try exact I; intros v x;
    repeat (apply bind_quiet; [intros ?; first [apply fmt_exp_quiet|apply d2u_quiet|apply d2s_quiet]|intros ?]); discriminate|]).
  destruct K.
Qed.
Lemma smps_quiet p sw : swriter_quiet sw -> forall vs pend c x, write_smps p sw pend vs c <> Throw x.
Proof.
  intros Q. induction vs as [|v vs IH]; intros pend c x; cbn [write_smps]; [discriminate|].
  destruct (sample_step p sw pend v) as [[pend1 w]|e|] eqn:E; cbn [bind]; [| |discriminate].
  - assert (Wq : wquiet w).
    { destruct sw as [f|f|]; cbn [sample_step swriter_quiet] in *.
      - destruct (f v); cbn [bind] in E; [|discriminate..]. injection E as _ <-. apply wquiet_put.
      - destruct (f v); cbn [bind] in E; [|discriminate..]. injection E as _ <-. apply wquiet_mod.
      - destruct (Nat.eqb _ _); [|injection E as _ <-; apply wquiet_nil].
        destruct (enc_8015 _ _); cbn [bind] in E; [|discriminate..]. injection E as _ <-. apply wquiet_put. }
    destruct (w c) as [[d1 c1]|e|] eqn:Ew; cbn [bind]; [|exfalso; exact (Wq _ _ Ew)|discriminate].
    apply bind_quiet; [intros y; apply IH|]. intros [pend2 [d2 c2]]. discriminate.
  - exfalso. destruct sw as [f|f|]; cbn [sample_step swriter_quiet] in *.
    + destruct (f v) eqn:Ef; cbn [bind] in E; [discriminate| |discriminate]. exact (Q _ _ Ef).
    + destruct (f v) eqn:Ef; cbn [bind] in E; [discriminate| |discriminate]. exact (Q _ _ Ef).
    + destruct (Nat.eqb _ _); [|discriminate]. destruct (enc_8015 _ _) eqn:Ee; cbn [bind] in E; [discriminate| |discriminate].
      exact (enc_quiet _ _ _ Ee).
Qed.

(** ** A whole call *)
Lemma wseq_inv a b c r : (a ;; b) c = Ok r -> exists d1 c1 d2 c2, a c = Ok (d1, c1) /\ b c1 = Ok (d2, c2).
Proof.
  unfold wseq. destruct (a c) as [[d1 c1]|e|]; cbn [bind]; [|discriminate..].
  destruct (b c1) as [[d2 c2]|e|] eqn:E; cbn [bind]; [|discriminate..]. intros _. exists d1, c1, d2, c2. auto.
Qed.
Lemma wlet_inv {A} (o : outcome A) f c r : wlet o f c = Ok r -> exists a, o = Ok a /\ f a c = Ok r.
Proof. unfold wlet. destruct o as [a|e|]; cbn [bind]; [|discriminate..]. eauto. Qed.
Lemma header_ints p h b b' : wrun (trace_header_writer p h) b = Ok b' ->
  (exists z, opt_int h "SCAN_TYPE_NUM" = Ok z) /\ (exists z, hget h "CH_SET_NUM" = Some (VInt z)) /\ exists z, opt_int h "TR_HDR_EXT" = Ok z.
Proof.
  unfold wrun. destruct (trace_header_writer p h b) as [[d c]|e|] eqn:E; cbn [bind]; [|discriminate..]. intros _.
  unfold trace_header_writer in E. apply wlet_inv in E as (ffid & _ & E).
  apply wseq_inv in E as (d1 & c1 & d2 & c2 & _ & E). apply wseq_inv in E as (d3 & c3 & d4 & c4 & E3 & E).
  apply wlet_inv in E3 as (z & E3 & _). split; [exists z; exact E3|].
  destruct (hget h "CH_SET_NUM") as [cv|]; [|discriminate]. apply wlet_inv in E as (set & Es & E).
  split; [destruct cv as [z'|z']; [exists z'; reflexivity|discriminate Es]|].
  apply wseq_inv in E as (d5 & c5 & d6 & c6 & _ & E). apply wseq_inv in E as (d7 & c7 & d8 & c8 & _ & E).
  apply wseq_inv in E as (d9 & c9 & d10 & c10 & _ & E). apply wseq_inv in E as (d11 & c11 & d12 & c12 & E & _).
  apply wlet_inv in E as (n & E & _). exists n. exact E.
Qed.
Lemma ch_set_quiet s h x : (exists z, opt_int h "SCAN_TYPE_NUM" = Ok z) -> (exists z, hget h "CH_SET_NUM" = Some (VInt z)) -> o_ch_set s h <> Throw x.
Proof.
  intros [z Hz] [z' Hz']. unfold o_ch_set. rewrite Hz'. cbn [get_int bind]. unfold opt_int in Hz.
  assert (N : forall A (l : list A) i, (if (1 <=? i) && (i <=? len l) then match nth_error l (Z.to_nat (i - 1)) with Some a => Ok a | None => UB end else UB) <> Throw x).
  { intros A l i. destruct (_ && _); [|discriminate]. destruct (nth_error _ _); discriminate. }
  apply bind_quiet.
  { intros y. destruct (hget h "SCAN_TYPE_NUM") as [[w|w]|]; [discriminate|discriminate Hz|discriminate]. }
  intros i. apply bind_quiet; [|intros cs; apply N].
  intros y. destruct (_ && _); [|discriminate]. destruct (nth_error _ _); discriminate.
Qed.

(** What a refused call may leave in the file: nothing, or the header block
    and some of the extension blocks. *)
Definition left_blocks (h : hdr) (bs : list (list Z)) : Prop :=
  bs = [] \/
  exists hd es n, bs = hd :: es /\ List.length hd = 20%nat /\ Forall (fun b => List.length b = 32%nat) es /\
    opt_int h "TR_HDR_EXT" = Ok n /\ len es <= n mod 256.

Lemma write_run p t s :
  match d_write_trace p s t with
  | Ok s' => xd_write_trace p t s = (Ok tt, s')
  | Throw e => exists bs, xd_write_trace p t s = (Throw e, with_file s (put_all bs (od_file s))) /\ left_blocks (t_hdr t) bs
  | UB => exists s', xd_write_trace p t s = (UB, s')
  end.
Proof.
  unfold d_write_trace. remember (xd_write_trace p t s) as res eqn:U. unfold xd_write_trace in U. unfold xbind at 1, xget at 1 in U.
  destruct (od_written s =? od_chans s).
  { exists []. cbn [put_all fold_left]. rewrite with_file_same. split; [exact U|left; reflexivity]. }
  unfold put_block. assert (X : forall k : unit -> XD unit, xbind (xd_header p (t_hdr t)) k s =
    match wrun (trace_header_writer p (t_hdr t)) (zeros TRACE_HEADER_SIZE) with
    | Ok b => k tt (with_file s (fwrite b (od_file s)))
    | Throw e => (Throw e, s)
    | UB => (UB, s)
    end).
  { intros k. unfold xd_header, xbind, xlift, xd_put. destruct (wrun _ _); reflexivity. }
  rewrite X in U. clear X. destruct (wrun (trace_header_writer p (t_hdr t)) (zeros TRACE_HEADER_SIZE)) as [hd|e|] eqn:E; cbn [bind].
  2:{ exists []. cbn [put_all fold_left]. rewrite with_file_same. split; [exact U|left; reflexivity]. }
  2:{ exists s. exact U. }
  pose proof (wrun_size _ _ _ (wsize_header _ _) E) as Lh. change (List.length (zeros TRACE_HEADER_SIZE)) with 20%nat in Lh.
  destruct (header_ints _ _ _ _ E) as (I1 & I2 & n & In). set (s1 := with_file s (fwrite hd (od_file s))).
  rewrite In. cbn [bind]. rewrite In in U. unfold xbind at 1, xlift at 1 in U. cbv beta iota in U.
  pose proof (exts_run p (t_hdr t) (Z.to_nat (wrapu 8 n)) 0 s1) as R.
  change (od_g2 s1) with (od_g2 s) in R. change (od_layouts s1) with (od_layouts s) in R. change (od_file s1) with (fwrite hd (od_file s)) in R.
  assert (Wn : wrapu 8 n = n mod 256) by reflexivity. assert (Bn : 0 <= n mod 256 < 256) by (apply Z.mod_pos_bound; lia).
  unfold xbind at 1 in U. destruct (write_exts p _ _ (t_hdr t) _ 0 (fwrite hd (od_file s))) as [f2|e|]; cbn [bind].
  - destruct R as (R & es & Le & Fe & Ef). fold s1 in U. rewrite R in U. unfold s1 in U. rewrite with_with in U.
    set (s2 := with_file s f2) in *. unfold xd_samples in U. unfold xbind at 1, xget at 1 in U. unfold xbind at 1, xlift at 1 in U.
    change (od_g1 s2) with (od_g1 s) in U.
    assert (LB : left_blocks (t_hdr t) (hd :: es)).
    { right. exists hd, es, n. split; [reflexivity|]. split; [exact Lh|]. split; [exact Fe|]. split; [exact In|]. unfold len. lia. }
    assert (ST : s2 = with_file s (put_all (hd :: es) (od_file s))) by (unfold s2; rewrite Ef; reflexivity).
    destruct (d_sample_writer p (g1_format_code (od_g1 s))) as [[bits sw]|e|] eqn:Ew; cbn [bind].
    2:{ exists (hd :: es). rewrite <- ST. split; [exact U|exact LB]. }
    2:{ exists s2. exact U. }
    unfold xbind at 1, xlift at 1 in U. change (o_samp_buf p s2 (len (t_smp t)) bits) with (o_samp_buf p s (len (t_smp t)) bits) in U.
    destruct (o_samp_buf p s (len (t_smp t)) bits) as [buf|e|]; cbn [bind].
    2:{ exists (hd :: es). rewrite <- ST. split; [exact U|exact LB]. }
    2:{ exists s2. exact U. }
    unfold xbind at 1, xd_buf at 1 in U. cbv beta iota in U. unfold xbind at 1, xlift at 1 in U. change (o_ch_set s2 (t_hdr t)) with (o_ch_set s (t_hdr t)) in U.
    destruct (o_ch_set s (t_hdr t)) as [c|e|] eqn:Ec; cbn [bind].
    2:{ exfalso. exact (ch_set_quiet _ _ _ I1 I2 Ec). }
    2:{ eexists. exact U. }
    cbv zeta in U. unfold xbind at 1, xlift at 1 in U. change (od_pend s2) with (od_pend s) in U.
    destruct (write_smps p sw (od_pend s) _ buf) as [[pend dc]|e|] eqn:Em; cbn [bind].
    2:{ exfalso. exact (smps_quiet _ _ (writer_quiet _ _ _ _ Ew) _ _ _ _ Em). }
    2:{ eexists. exact U. }
    exact U.
  - destruct R as (es & R & Le & Fe). fold s1 in U. rewrite R in U. exists (hd :: es). split; [exact U|].
    right. exists hd, es, n. split; [reflexivity|]. split; [exact Lh|]. split; [exact Fe|]. split; [exact In|]. unfold len. lia.
  - destruct R as (s' & R). fold s1 in U. rewrite R in U. exists s'. exact U.
Qed.

Lemma bits_bound p fmt bits sw : d_sample_writer p fmt = Ok (bits, sw) -> 8 <= bits <= 64.
Proof.
  intros H. assert (K : In fmt known_formats).
  { destruct (in_dec Z.eq_dec fmt known_formats) as [I|N]; [exact I|]. rewrite (writer_other p fmt N) in H. discriminate H. }
  unfold known_formats in K. cbn [In] in K.
  repeat (destruct K as [<-|K]; [cbn [d_sample_writer] in H; injection H as <- _; lia|]). destruct K.
Qed.
Lemma samp_buf_quiet p s n bits x : 0 <= n -> 8 <= bits <= 64 -> 8 * n <= p_max_alloc p -> p_max_alloc p < 2 ^ 63 -> o_samp_buf p s n bits <> Throw x.
Proof.
  intros N B M A. unfold o_samp_buf. destruct (len (od_sbuf s) =? wrapu 64 (n * bits) / 8); [discriminate|].
  unfold resize_buf, resize_to.
  assert (W : 0 <= wrapu 64 (n * bits) <= n * bits).
  { unfold wrapu. split; [apply Z.mod_pos_bound; lia|]. apply Z.mod_le; nia. }
  assert (D : 0 <= wrapu 64 (n * bits) / 8 <= p_max_alloc p).
  { split; [apply Z.div_pos; lia|]. apply Z.le_trans with (n * bits / 8); [apply Z.div_le_mono; lia|].
    apply Z.le_trans with (n * 64 / 8); [apply Z.div_le_mono; nia|]. replace (n * 64) with (8 * n * 8) by lia. rewrite Z.div_mul by lia. lia. }
  rewrite (wrapu_small 64 (_ / 8)) by lia. destruct (Z.leb_spec (wrapu 64 (n * bits) / 8) (p_max_alloc p)); cbn [bind]; [discriminate|exfalso; lia].
Qed.

Lemma early_throw p s t e : p_max_alloc p < 2 ^ 63 -> (exists w, d_sample_writer p (g1_format_code (od_g1 s)) = Ok w) ->
  d_early p (g2_major (od_g2 s)) (od_layouts s) t -> d_write_trace p s t = Throw e -> xd_write_trace p t s = (Throw e, s).
Proof.
  intros A [[bits sw] Hw] [C M] H. unfold d_write_trace in H. unfold xd_write_trace. unfold xbind at 1, xget at 1.
  destruct (od_written s =? od_chans s); [injection H as <-; reflexivity|]. unfold put_block in H. unfold xbind at 1.
  assert (X : xd_header p (t_hdr t) s = match wrun (trace_header_writer p (t_hdr t)) (zeros TRACE_HEADER_SIZE) with
    | Ok b => (Ok tt, with_file s (fwrite b (od_file s))) | Throw e => (Throw e, s) | UB => (UB, s) end).
  { unfold xd_header, xbind, xlift, xd_put. destruct (wrun _ _); reflexivity. }
  rewrite X. destruct (wrun (trace_header_writer p (t_hdr t)) (zeros TRACE_HEADER_SIZE)) as [hd|e'|] eqn:E; cbn [bind] in H;
    [|injection H as ->; reflexivity|discriminate].
  exfalso. destruct (header_ints _ _ _ _ E) as (I1 & I2 & n & In). rewrite In in H. cbn [bind] in H.
  assert (Q : forall f x, write_exts p (g2_major (od_g2 s)) (od_layouts s) (t_hdr t) (Z.to_nat (wrapu 8 n)) 0 f <> Throw x).
  { intros f x. unfold opt_int in In. destruct (hget (t_hdr t) "TR_HDR_EXT") as [[z|z]|] eqn:Eh; [|discriminate In|].
    - injection In as ->. apply (exts_quiet p _ _ _ n x Eh C). reflexivity.
    - injection In as <-. discriminate. }
  destruct (write_exts p _ _ (t_hdr t) _ 0 _) as [f2|e'|] eqn:Ee; cbn [bind] in H; [|exact (Q _ _ Ee)|discriminate].
  rewrite Hw in H. cbn [bind] in H.
  destruct (o_samp_buf p s (len (t_smp t)) bits) as [buf|e'|] eqn:Eb; cbn [bind] in H;
    [|exact (samp_buf_quiet p s (len (t_smp t)) bits e' (len_nonneg _) (bits_bound _ _ _ _ Hw) M A Eb)|discriminate].
  destruct (o_ch_set s (t_hdr t)) as [c|e'|] eqn:Ec; cbn [bind] in H; [|exact (ch_set_quiet _ _ _ I1 I2 Ec)|discriminate].
  destruct (write_smps p sw (od_pend s) _ buf) as [[pend dc]|e'|] eqn:Em; cbn [bind] in H;
    [discriminate|exact (smps_quiet _ _ (writer_quiet _ _ _ _ Hw) _ _ _ _ Em)|discriminate].
Qed.

(** ** Sequences of calls *)
Definition same_setup (s s' : osegd) : Prop :=
  od_g1 s' = od_g1 s /\ od_g2 s' = od_g2 s /\ od_layouts s' = od_layouts s /\ od_chans s' = od_chans s /\ od_sets s' = od_sets s.
Lemma write_setup p s t s' : d_write_trace p s t = Ok s' -> same_setup s s' /\ od_written s' = wrapu 64 (od_written s + 1) /\ od_written s <> od_chans s.
Proof.
  intros H. unfold d_write_trace in H. destruct (Z.eqb_spec (od_written s) (od_chans s)) as [|N]; [discriminate|].
  repeat match type of H with
    | (let* _ := ?o in _) = Ok _ => destruct o as [[? ?]|?|]; cbn [bind] in H; try discriminate H
    | (let* _ := ?o in _) = Ok _ => destruct o as [?|?|]; cbn [bind] in H; try discriminate H
    end.
  injection H as <-. unfold same_setup, od_upd. cbn [od_g1 od_g2 od_layouts od_chans od_sets od_written]. auto 10.
Qed.

Lemma attempt_early p : p_max_alloc p < 2 ^ 63 -> forall ts s bs s',
  (exists w, d_sample_writer p (g1_format_code (od_g1 s)) = Ok w) ->
  Forall (d_early p (g2_major (od_g2 s)) (od_layouts s)) ts ->
  d_attempt p s ts = Ok (bs, s') -> d_write_all p s (accepted bs ts) = Ok s'.
Proof.
  intros A. induction ts as [|t ts IH]; intros s bs s' W F H; cbn [d_attempt] in H.
  - injection H as <- <-. reflexivity.
  - inversion F as [|? ? F1 F2]; subst. pose proof (write_run p t s) as R.
    destruct (d_write_trace p s t) as [s1|e|] eqn:E.
    + rewrite R in H. destruct (write_setup _ _ _ _ E) as ((G1 & G2 & GL & _) & _).
      destruct (d_attempt p s1 ts) as [[bs1 s2]|x|] eqn:E2; cbn [bind] in H; [|discriminate..]. injection H as <- <-.
      cbn [accepted d_write_all]. rewrite E. cbn [bind]. apply IH; [rewrite G1; exact W|rewrite G2, GL; exact F2|exact E2].
    + rewrite (early_throw p s t e A W F1 E) in H. destruct (d_attempt p s ts) as [[bs1 s2]|x|] eqn:E2; cbn [bind] in H; [|discriminate..].
      injection H as <- <-. cbn [accepted]. exact (IH s bs1 s2 W F2 E2).
    + destruct R as (s1 & R). rewrite R in H. discriminate.
Qed.

(** The file of a writer ends where it is written to. *)
Lemma open_end p g1 g2 sets adds extd extl ls s : osegd_open p g1 g2 sets adds extd extl ls = Ok s ->
  at_end (od_file s) /\ od_g1 s = g1 /\ od_g2 s = g2 /\ od_layouts s = ls /\ exists w, d_sample_writer p (g1_format_code g1) = Ok w.
Proof.
  unfold osegd_open. intros H.
  destruct (SegdTypes.add_blocks _ _) as [m| |]; cbn [bind] in H; try discriminate H.
  destruct (negb _); [discriminate H|].
  destruct (d_sample_writer p (g1_format_code g1)) as [w| |]; cbn [bind] in H; try discriminate H.
  assert (PB : forall n wr f f', put_block n wr f = Ok f' -> at_end f -> at_end f').
  { intros n wr f f' Hp A. unfold put_block in Hp. destruct (wrun _ _) as [b|e|]; cbn [bind] in Hp; [|discriminate..]. injection Hp as <-. apply (fwrite_end b f A). }
  assert (A0 : at_end empty_file) by reflexivity.
  destruct (put_block _ _ empty_file) as [f1| |] eqn:E1; cbn [bind] in H; try discriminate H.
  destruct (put_block _ _ f1) as [f2| |] eqn:E2; cbn [bind] in H; try discriminate H.
  pose proof (PB _ _ _ _ E2 (PB _ _ _ _ E1 A0)) as A2.
  destruct (write_gNs _ _ _) as [f3| |] eqn:E3; cbn [bind] in H; try discriminate H.
  assert (A3 : at_end f3).
  { clear - PB E3 A2. revert f2 A2 E3. induction m as [|[k [h|c vs b]] m IH]; intros f2 A2 E3; cbn [write_gNs] in E3; [congruence| |discriminate].
    destruct (put_block _ _ f2) as [f| |] eqn:E; cbn [bind] in E3; try discriminate E3. exact (IH f (PB _ _ _ _ E A2) E3). }
  destruct (write_scan_types _ _ _ _ _) as [f4| |] eqn:E4; cbn [bind] in H; try discriminate H.
  assert (A4 : at_end f4).
  { clear - PB E4 A3. revert f3 A3 E4. induction sets as [|cs sets IH]; intros f3 A3 E4; cbn [write_scan_types] in E4; [congruence|].
    destruct (negb _); [discriminate|]. destruct (write_ch_sets p g1 g2 cs f3) as [f| |] eqn:E; cbn [bind] in E4; try discriminate E4.
    assert (Af : at_end f).
    { clear - PB E A3. revert f3 A3 E. induction cs as [|c cs IH]; intros f3 A3 E; cbn [write_ch_sets] in E; [congruence|].
      destruct (write_ch_set_hdr p g1 g2 c f3) as [f'| |] eqn:Ec; cbn [bind] in E; try discriminate E.
      apply (IH f'); [|exact E]. unfold write_ch_set_hdr in Ec. destruct (negb _ && negb _) in Ec; [discriminate|]. exact (PB _ _ _ _ Ec A3). }
    apply (IH _) with (2 := E4).
    generalize (Z.to_nat (g1_skew_blocks g1)). intros n. clear - Af. revert f Af. induction n as [|n IH]; intros f Af; cbn [write_zero_blocks]; [exact Af|].
    apply IH, fwrite_end, Af. }
  assert (BK : forall n bs f f', write_blks n bs f = Ok f' -> at_end f -> at_end f').
  { clear. induction n as [|n IH]; intros bs f f' H A; cbn [write_blks] in H; [congruence|].
    destruct bs as [|b bs]; [discriminate|]. destruct (len b <? 32); [discriminate|]. apply (IH bs _ f' H), fwrite_end, A. }
  destruct (write_blks _ _ f4) as [f5| |] eqn:E5; cbn [bind] in H; try discriminate H.
  destruct (write_blks _ _ f5) as [f6| |] eqn:E6; cbn [bind] in H; try discriminate H.
  injection H as <-. cbn [od_file od_g1 od_g2 od_layouts]. split; [exact (BK _ _ _ _ E6 (BK _ _ _ _ E5 A4))|]. eauto 10.
Qed.

Lemma write_end p s t s' : d_write_trace p s t = Ok s' -> at_end (od_file s) ->
  at_end (od_file s') /\ exists x, fdata (od_file s') = fdata (od_file s) ++ x.
Proof.
  intros H A. unfold d_write_trace in H. destruct (od_written s =? od_chans s); [discriminate|].
  unfold put_block in H. destruct (wrun _ (zeros TRACE_HEADER_SIZE)) as [hd|e|]; cbn [bind] in H; [|discriminate..].
  destruct (opt_int (t_hdr t) "TR_HDR_EXT") as [n|e|]; cbn [bind] in H; [|discriminate..].
  pose proof (exts_run p (t_hdr t) (Z.to_nat (wrapu 8 n)) 0 (with_file s (fwrite hd (od_file s)))) as R.
  cbn [with_file od_upd od_g2 od_layouts od_file] in R.
  destruct (write_exts p _ _ (t_hdr t) _ 0 _) as [f2|e|]; cbn [bind] in H; [|discriminate..].
  destruct R as (_ & es & _ & _ & ->).
  destruct (d_sample_writer p _) as [[bits sw]|e|]; cbn [bind] in H; [|discriminate..].
  destruct (o_samp_buf p s _ bits) as [buf|e|]; cbn [bind] in H; [|discriminate..].
  destruct (o_ch_set s _) as [c|e|]; cbn [bind] in H; [|discriminate..].
  destruct (write_smps p sw _ _ buf) as [[pend dc]|e|]; cbn [bind] in H; [|discriminate..]. injection H as <-. cbn [od_upd od_file].
  destruct (fwrite_end hd _ A) as [D1 A1]. destruct (put_all_end es _ A1) as [D2 A2].
  destruct (fwrite_end (fst dc ++ snd dc) _ A2) as [D3 A3]. split; [exact A3|].
  rewrite D3, D2, D1, <- !app_assoc. eexists. reflexivity.
Qed.

Lemma attempt_inv p n : 0 <= n < 2 ^ 64 -> forall ts s bs s',
  at_end (od_file s) -> od_chans s = n -> 0 <= od_written s <= n -> d_attempt p s ts = Ok (bs, s') ->
  at_end (od_file s') /\ od_chans s' = n /\ od_written s' = od_written s + len (accepted bs ts) /\ od_written s' <= n /\
  exists x, fdata (od_file s') = fdata (od_file s) ++ x.
Proof.
  intros Hn. induction ts as [|t ts IH]; intros s bs s' A C W H; cbn [d_attempt] in H.
  - injection H as <- <-. cbn [accepted]. change (len (@nil trace)) with 0. split; [exact A|]. split; [exact C|]. split; [lia|]. split; [lia|].
    exists []. rewrite app_nil_r. reflexivity.
  - pose proof (write_run p t s) as R. destruct (d_write_trace p s t) as [s1|e|] eqn:E.
    + rewrite R in H. destruct (write_setup _ _ _ _ E) as ((_ & _ & _ & C1 & _) & W1 & N1). destruct (write_end _ _ _ _ E A) as (A1 & x & D1).
      rewrite wrapu_small in W1 by lia.
      destruct (d_attempt p s1 ts) as [[bs1 s2]|y|] eqn:E2; cbn [bind] in H; [|discriminate..]. injection H as <- <-.
      destruct (IH s1 bs1 s2 A1 ltac:(congruence) ltac:(lia) E2) as (A2 & C2 & W2 & B2 & x2 & D2). cbn [accepted]. rewrite len_cons.
      split; [exact A2|]. split; [exact C2|]. split; [lia|]. split; [exact B2|]. exists (x ++ x2). rewrite D2, D1, app_assoc. reflexivity.
    + destruct R as (ks & R & _). rewrite R in H. destruct (put_all_end ks _ A) as [D1 A1].
      destruct (d_attempt p _ ts) as [[bs1 s2]|y|] eqn:E2; cbn [bind] in H; [|discriminate..]. injection H as <- <-.
      destruct (IH (with_file s (put_all ks (od_file s))) bs1 s2 A1 C W E2) as (A2 & C2 & W2 & B2 & x2 & D2). cbn [accepted].
      split; [exact A2|]. split; [exact C2|]. split; [exact W2|]. split; [exact B2|]. exists (concat ks ++ x2).
      rewrite D2. cbn [with_file od_upd od_file]. rewrite D1, app_assoc. reflexivity.
    + destruct R as (s1 & R). rewrite R in H. discriminate.
Qed.

Lemma len_blocks (bs : list (list Z)) : Forall (fun b => List.length b = 32%nat) bs -> len (concat bs) = 32 * len bs.
Proof.
  induction 1 as [|b bs H F IH]; [reflexivity|]. cbn [concat]. rewrite len_app, len_cons, IH. unfold len at 1. rewrite H. lia.
Qed.
