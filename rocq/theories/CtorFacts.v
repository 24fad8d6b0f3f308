(** Lemmas about constructors of writers that throw (C101, C102). *)
From Coq Require Import String.
From Verif Require Import BaseFacts Platform Bcd Fp TraceHdr SegyTypes SegyCodec ISegy OSegy SegdTypes OSegd StepX BinFacts WriterFacts LayoutFacts OpenFacts
  SegdOpenFacts DRefuseFacts Procs CtorX CtorSpec.
Local Open Scope Z_scope.

(** ** Steps *)
Lemma xbind_ok {S A B} (m : St S A) (k : A -> St S B) s a s1 : m s = (Ok a, s1) -> xbind m k s = k a s1.
Proof. intros H. unfold xbind. rewrite H. reflexivity. Qed.
Lemma bin_run e b f : fpos f = len (fdata f) -> len (fdata f) = 3200 ->
  xf_bin e b f = (Ok tt, fwrite (bin_block e b) f) /\ write_bin_header e b f = Ok (fwrite (bin_block e b) f).
Proof.
  intros A L. destruct f as [d q]. cbn [fpos fdata] in A, L. subst q. rewrite L. unfold xf_bin, write_bin_header.
  rewrite bin_header_bytes_eq. split; reflexivity.
Qed.
Lemma texts_run : forall ts f, at_end f -> Forall (fun t => len t = 3200) ts ->
  xf_texts ts f = (Ok tt, fold_left (fun f t => write_text t f) ts f) /\
  fdata (fold_left (fun f t => write_text t f) ts f) = fdata f ++ concat ts /\ at_end (fold_left (fun f t => write_text t f) ts f).
Proof.
  induction ts as [|t ts IH]; intros f A F; cbn [xf_texts fold_left concat].
  - rewrite app_nil_r. split; [reflexivity|]. split; [reflexivity|exact A].
  - inversion F as [|? ? Lt F']. subst. destruct (fwrite_end (firstn (Z.to_nat TEXT_HEADER_SIZE) t) f A) as [D1 A1].
    destruct (IH (write_text t f) A1 F') as (R & D & A2). split; [exact R|]. split; [|exact A2]. rewrite D. unfold write_text. rewrite D1, <- app_assoc.
    f_equal. f_equal. apply firstn_all2. unfold len in Lt. change TEXT_HEADER_SIZE with 3200. lia.
Qed.
Lemma text_run t : 3200 <= len t ->
  fdata (write_text t empty_file) = firstn (Z.to_nat 3200) t /\ at_end (write_text t empty_file) /\ len (fdata (write_text t empty_file)) = 3200.
Proof.
  intros L. assert (A : at_end empty_file) by reflexivity. destruct (fwrite_end (firstn (Z.to_nat TEXT_HEADER_SIZE) t) empty_file A) as [D1 A1].
  unfold write_text. cbn [fdata empty_file app] in D1. split; [exact D1|]. split; [exact A1|]. rewrite D1. unfold len in *. rewrite firstn_length.
  change TEXT_HEADER_SIZE with 3200. lia.
Qed.

Lemma check_throw b ls e : check_tr_hdr_map b ls = Throw e -> e = ESedaman.
Proof.
  assert (R : forall l a c x, check_rest a c l = Throw x -> x = ESedaman).
  { induction l as [|en l IH]; intros a c x; cbn [check_rest]; [discriminate|]. destruct (_ <? _); [congruence|]. destruct (_ <? _); [congruence|]. apply IH. }
  assert (C : forall nl x, check_layout nl = Throw x -> x = ESedaman).
  { intros [n l] x. unfold check_layout. destruct (negb _); [congruence|]. cbn [snd]. destruct l; [discriminate|]. apply R. }
  unfold check_tr_hdr_map. destruct (_ && _); [congruence|]. induction ls as [|x ls IH]; cbn [mapM]; [discriminate|].
  destruct (check_layout x) as [u|e1|] eqn:Ex; cbn [bind].
  - destruct (mapM check_layout ls) as [l|e2|]; cbn [bind] in *; [discriminate|exact IH|discriminate].
  - intros H. injection H as <-. exact (C _ _ Ex).
  - discriminate.
Qed.
Lemma endian_throw m e : endian_of m = Throw e -> e = ESedaman /\ ~ In m [0; 16909060; 67305985].
Proof.
  unfold endian_of. destruct (Z.eqb_spec m 16909060); [discriminate|]. destruct (Z.eqb_spec m 0); [discriminate|].
  destruct (Z.eqb_spec m 67305985); cbn [orb]; [discriminate|]. intros H. injection H as <-. split; [reflexivity|].
  intros [K|[K|[K|[]]]]; congruence.
Qed.
Lemma endian_def m : endian_of m <> UB.
Proof. unfold endian_of. destruct (_ =? _); [discriminate|]. destruct (_ || _); discriminate. Qed.
Lemma endian_ok m e : endian_of m = Ok e -> In m [0; 16909060; 67305985].
Proof.
  unfold endian_of. destruct (Z.eqb_spec m 16909060) as [->|]; [intros _; right; left; reflexivity|]. destruct (Z.eqb_spec m 0) as [->|]; [intros _; left; reflexivity|].
  destruct (Z.eqb_spec m 67305985) as [->|]; cbn [orb]; [intros _; right; right; left; reflexivity|discriminate].
Qed.
Lemma sample_throw p e fmt x : sample_writer p e fmt = Throw x -> x = ESedaman /\ ~ In fmt [1; 2; 3; 5; 6; 7; 8; 9; 10; 11; 12; 15; 16].
Proof.
  intros H. split.
  - unfold sample_writer in H. repeat match type of H with context [match ?z with _ => _ end] => destruct z; try discriminate H end; congruence.
  - intros K. cbn [In] in K. repeat destruct K as [K|K]; try (subst fmt; discriminate H). destruct K.
Qed.
Lemma sample_def p e fmt : sample_writer p e fmt <> UB.
Proof.
  unfold sample_writer. repeat match goal with |- context [match ?z with _ => _ end] => destruct z; try discriminate end.
Qed.
Lemma resize_throw p n b e : resize_buf p n b = Throw e -> e = EAlloc.
Proof. unfold resize_buf, resize_to. destruct (_ <=? _); cbn [bind]; [discriminate|congruence]. Qed.
Lemma resize_def p n b : resize_buf p n b <> UB.
Proof. unfold resize_buf, resize_to. destruct (_ <=? _); cbn [bind]; discriminate. Qed.
Lemma is_3200_spec t : is_3200 t = true <-> len t = 3200.
Proof. unfold is_3200. change TEXT_HEADER_SIZE with 3200. apply Z.eqb_eq. Qed.
Lemma all_3200 ts : forallb is_3200 ts = true -> Forall (fun t => len t = 3200) ts.
Proof. intros H. apply Forall_forall. intros t Ht. apply is_3200_spec. rewrite forallb_forall in H. exact (H t Ht). Qed.
Lemma some_3200 ts : forallb is_3200 ts = false -> exists t, In t ts /\ len t <> 3200.
Proof.
  induction ts as [|t ts IH]; cbn [forallb]; [discriminate|]. destruct (is_3200 t) eqn:E; cbn [andb].
  - intros H. destruct (IH H) as (t' & I & L). exists t'. split; [right; exact I|exact L].
  - intros _. exists t. split; [left; reflexivity|]. intros K. apply is_3200_spec in K. congruence.
Qed.
Lemma not_sizes (ts : list (list Z)) t : In t ts -> len t <> 3200 -> ~ Forall (fun t => len t = 3200) ts.
Proof. intros I N F. rewrite Forall_forall in F. exact (N (F t I)). Qed.
Lemma len_concat_3200 (ts : list (list Z)) : Forall (fun t => len t = 3200) ts -> len (concat ts) = 3200 * len ts.
Proof.
  induction 1 as [|t ts H _ IH]; [reflexivity|]. cbn [concat]. rewrite len_app, H, IH. unfold len. cbn [List.length]. lia.
Qed.
Lemma len_rev0 : len rev0_default_text = 3220.
Proof. vm_compute. reflexivity. Qed.
Lemma len_rev1 : len rev1_default_text = 3200.
Proof. vm_compute. reflexivity. Qed.
Lemma len_rev2 : len rev2_default_text = 3200.
Proof. vm_compute. reflexivity. Qed.

(** What is to be shown of a construction [m] that OSegy.v describes as [o]. *)
Definition described {A} (r : outcome A * file) (o : outcome A) (fl : A -> file) (bad : exn -> list Z -> Prop) : Prop :=
  fst r = o /\
  match o with
  | Ok s => snd r = fl s
  | Throw e => bad e (fdata (snd r))
  | UB => True
  end.

Lemma rev0_described p txt bh ls : described (x_rev0 p txt bh ls empty_file) (rev0_open p txt bh ls) o_file
  (segy_left bh ls rev0_default_text (match txt with [] => [] | _ => [txt] end) []).
Proof.
  unfold x_rev0, rev0_open. unfold xbind at 1, xlift at 1.
  destruct (check_tr_hdr_map bh ls) as [u|e|] eqn:Ec; cbn [bind].
  2:{ split; [reflexivity|]. pose proof (check_throw _ _ _ Ec) as ->. left. split; [reflexivity|]. split; [reflexivity|left; exact Ec]. }
  2:{ exfalso. exact (check_not_ub _ _ Ec). }
  set (tx := match txt with [] => Ok rev0_default_text | _ => if is_3200 txt then Ok txt else Throw ESedaman end).
  set (gv := match txt with [] => [] | _ => [txt] end).
  assert (T : (exists t, tx = Ok t /\ 3200 <= len t /\ Forall (fun t => len t = 3200) (gv ++ []) /\ match gv with [] => [rev0_default_text] | _ :: _ => gv end = [t])
    \/ (tx = Throw ESedaman /\ exists t, In t gv /\ len t <> 3200)).
  { unfold tx, gv. destruct txt as [|z txt].
    - left. exists rev0_default_text. split; [reflexivity|]. rewrite len_rev0. split; [lia|]. split; [constructor|reflexivity].
    - destruct (is_3200 (z :: txt)) eqn:E.
      + left. apply is_3200_spec in E. exists (z :: txt). split; [reflexivity|]. split; [lia|]. split; [repeat constructor; exact E|reflexivity].
      + right. split; [reflexivity|]. exists (z :: txt). split; [left; reflexivity|]. intros K. apply is_3200_spec in K. congruence. }
  unfold xbind at 1, xlift at 1. destruct T as [(t & -> & Lt & St & Ht)|[-> (t & It & Nt)]]; cbn [bind].
  2:{ split; [reflexivity|]. left. split; [reflexivity|]. split; [reflexivity|]. right. rewrite app_nil_r. exact (not_sizes _ _ It Nt). }
  assert (Nc : check_tr_hdr_map bh ls <> Throw ESedaman) by congruence.
  destruct (text_run t Lt) as (D1 & A1 & L1). unfold xbind at 1. unfold xf_text, xf_write. fold (write_text t empty_file).
  set (f1 := write_text t empty_file) in *. set (b := if bh_format_code bh =? 0 then set_format_code bh 1 else bh).
  assert (Eb : bh_endianness b = bh_endianness bh) by (unfold b; destruct (_ =? _); reflexivity).
  unfold xbind at 1, xlift at 1. destruct (endian_of (bh_endianness b)) as [e|e|] eqn:Ee; cbn [bind].
  2:{ split; [reflexivity|]. rewrite Eb in Ee. apply endian_throw in Ee as [-> Ne]. right. split; [exact Nc|]. split; [exact St|]. left. rewrite Ht. cbn [hd]. split; [exact D1|]. split; [exact L1|]. split; [reflexivity|exact Ne]. }
  2:{ exfalso. exact (endian_def _ Ee). }
  destruct (bin_run e b f1 A1 L1) as [B1 B2]. rewrite (xbind_ok _ _ _ _ _ B1), B2. cbn [bind].
  destruct (fwrite_end (bin_block e b) f1 A1) as [D2 A2]. set (f2 := fwrite (bin_block e b) f1) in *.
  assert (LEFT : forall x, (x = EAlloc \/ x = ESedaman /\ ~ In (bh_format_code bh) [0; 1; 2; 3; 5; 6; 7; 8; 9; 10; 11; 12; 15; 16]) ->
    segy_left bh ls rev0_default_text gv [] x (fdata f2)).
  { intros x Hx. right. split; [exact Nc|]. split; [exact St|]. right. exists (bin_block e b). rewrite Ht. cbn [hd tl concat]. rewrite D2, D1, app_nil_r.
    split; [reflexivity|]. split; [apply len_bin_block|]. split; [|split; [rewrite Eb in Ee; exact (endian_ok _ _ Ee)|exact Hx]]. rewrite len_app, len_bin_block, <- D1, L1; reflexivity. }
  unfold xbind at 1, xget. unfold xbind at 1, xlift at 1. destruct (sample_writer p e (bh_format_code b)) as [w|x|] eqn:Ew; cbn [bind].
  2:{ split; [reflexivity|]. apply LEFT. right. apply sample_throw in Ew as [-> Nw]. split; [reflexivity|]. unfold b in Nw.
      destruct (Z.eqb_spec (bh_format_code bh) 0) as [Z0|Z0]; [exfalso; apply Nw; left; reflexivity|]. intros [K|K]; [congruence|exact (Nw K)]. }
  2:{ exfalso. exact (sample_def _ _ _ Ew). }
  destruct (o_bytes_per_sample (bh_format_code b)) as [bps|]; [|split; [reflexivity|exact I]].
  destruct (same_as p b _); [split; reflexivity|]. unfold xbind, xlift, xret.
  destruct (resize_buf p _ []) as [sb|x|] eqn:Er; cbn [bind].
  - split; reflexivity.
  - split; [reflexivity|]. apply LEFT. left. exact (resize_throw _ _ _ _ Er).
  - split; [reflexivity|exact I].
Qed.

(** The common part of revisions 1 and 2. *)
Definition ran_12 (dflt : list Z) (txts : list (list Z)) (bh : bin_hdr) (r : outcome (list (list Z) * bin_hdr * endian * Z) * file)
  (o : outcome (list (list Z) * bin_hdr * endian * Z * file)) : Prop :=
  let ts := match txts with [] => [dflt] | _ => txts end in
  match o with
  | Ok (ts', b, e, bps, f) => r = (Ok (ts', b, e, bps), f) /\ fdata f = hd [] ts ++ bin_block e (if bh_format_code bh =? 0 then set_format_code bh 5 else bh) ++ concat (tl ts) /\
      Forall (fun t => len t = 3200) ts /\ In (bh_endianness bh) [0; 16909060; 67305985]
  | Throw x => fst r = Throw x /\ forall ls st, check_tr_hdr_map bh ls <> Throw ESedaman -> Forall (fun t => len t = 3200) st ->
      segy_left bh ls dflt txts st x (fdata (snd r))
  | UB => fst r = UB
  end.
Lemma run_12 p dflt txts bh : len dflt = 3200 -> ran_12 dflt txts bh (x_12 p dflt txts bh empty_file) (open_12 p dflt txts bh).
Proof.
  intros Ld. set (ts := match txts with [] => [dflt] | _ => txts end). unfold x_12, open_12.
  assert (T : match txts with [] => Ok [dflt] | _ => if forallb is_3200 txts then Ok txts else Throw ESedaman end
     = (if forallb is_3200 ts then Ok ts else Throw ESedaman)).
  { unfold ts. destruct txts as [|t0 txts]; [|reflexivity]. cbn [forallb]. rewrite (proj2 (is_3200_spec dflt) Ld). reflexivity. }
  rewrite T. clear T. unfold xbind at 1, xlift at 1. destruct (forallb is_3200 ts) eqn:E3; cbn [bind].
  2:{ split; [reflexivity|]. intros ls st Nc Ss. left. split; [reflexivity|]. split; [reflexivity|]. right.
      destruct (some_3200 _ E3) as (t & It & Lt). apply (not_sizes _ t); [|exact Lt]. unfold ts in It. destruct txts as [|t0 txts].
      - destruct It as [<-|[]]. contradiction.
      - apply in_or_app. left. exact It. }
  pose proof (all_3200 _ E3) as F3. assert (Fs : forall st, Forall (fun t => len t = 3200) st -> Forall (fun t => len t = 3200) (txts ++ st)).
  { intros st Fst. apply Forall_app. split; [|exact Fst]. unfold ts in F3. destruct txts; [constructor|exact F3]. }
  assert (Hts : exists t0 more, ts = t0 :: more) by (unfold ts; destruct txts; eauto).
  destruct Hts as (t0 & more & Ets). rewrite Ets in *. inversion F3 as [|? ? L0 Fm]. subst.
  destruct (text_run t0 ltac:(lia)) as (D1 & A1 & L1). assert (D1' : fdata (write_text t0 empty_file) = t0).
  { rewrite D1. apply firstn_all2. unfold len in L0. lia. }
  unfold xbind at 1. unfold xf_text, xf_write. fold (write_text t0 empty_file). set (f1 := write_text t0 empty_file) in *.
  set (b := if bh_format_code bh =? 0 then set_format_code bh 5 else bh).
  assert (Eb : bh_endianness b = bh_endianness bh) by (unfold b; destruct (_ =? _); reflexivity).
  cbv zeta. unfold xbind at 1, xlift at 1. destruct (endian_of (bh_endianness b)) as [e|e|] eqn:Ee; cbn [bind].
  2:{ split; [reflexivity|]. intros ls st Nc Ss. rewrite Eb in Ee. apply endian_throw in Ee as [-> Ne]. right. split; [exact Nc|]. split; [exact (Fs _ Ss)|]. left. fold ts. rewrite Ets. cbn [hd snd].
      split; [exact D1|]. split; [exact L1|]. split; [reflexivity|exact Ne]. }
  2:{ exfalso. exact (endian_def _ Ee). }
  destruct (bin_run e b f1 A1 L1) as [B1 B2]. rewrite (xbind_ok _ _ _ _ _ B1), B2. cbn [bind].
  destruct (fwrite_end (bin_block e b) f1 A1) as [D2 A2]. set (f2 := fwrite (bin_block e b) f1) in *.
  destruct (texts_run more f2 A2 Fm) as (R3 & D3 & A3). rewrite (xbind_ok _ _ _ _ _ R3). unfold write_ext_text. cbn [tl].
  set (f3 := fold_left (fun f t => write_text t f) more f2) in *.
  set (b' := set_ext_text_headers_num b _). assert (Ef : bh_format_code b' = bh_format_code b) by reflexivity.
  assert (D : fdata f3 = t0 ++ bin_block e b ++ concat more) by (rewrite D3, D2, D1', <- app_assoc; reflexivity).
  unfold xbind at 1, xlift at 1. rewrite Ef. destruct (sample_writer p e (bh_format_code b)) as [w|x|] eqn:Ew; cbn [bind].
  2:{ split; [reflexivity|]. intros ls st Nc Ss. right. split; [exact Nc|]. split; [exact (Fs _ Ss)|]. right. exists (bin_block e b). fold ts. rewrite Ets. cbn [hd tl snd]. rewrite D.
      split; [rewrite firstn_all2 by (unfold len in L0; lia); reflexivity|]. split; [apply len_bin_block|]. split.
      - rewrite !len_app, len_bin_block, L0, (len_concat_3200 _ Fm). unfold len. cbn [List.length]. lia.
      - split; [rewrite Eb in Ee; exact (endian_ok _ _ Ee)|]. right. apply sample_throw in Ew as [-> Nw]. split; [reflexivity|]. unfold b in Nw.
        destruct (Z.eqb_spec (bh_format_code bh) 0) as [Z0|Z0]; [exfalso; apply Nw; right; right; right; left; reflexivity|]. intros [K|K]; [congruence|exact (Nw K)]. }
  2:{ exfalso. exact (sample_def _ _ _ Ew). }
  destruct (o_bytes_per_sample (bh_format_code b)) as [bps|]; [|reflexivity].
  split; [reflexivity|]. fold ts. rewrite Ets. split; [exact D|]. split; [exact F3|]. rewrite <- Eb. exact (endian_ok _ _ Ee).
Qed.
Lemma full_left bh ls dflt txts st c blk : len blk = 400 -> let ts := match txts with [] => [dflt] | _ => txts end in
  c = hd [] ts ++ blk ++ concat (tl ts) -> Forall (fun t => len t = 3200) ts ->
  In (bh_endianness bh) [0; 16909060; 67305985] -> check_tr_hdr_map bh ls <> Throw ESedaman -> Forall (fun t => len t = 3200) st -> segy_left bh ls dflt txts st EAlloc c.
Proof.
  intros Lb ts -> F Ei Nc Ss. assert (Hts : exists t0 more, ts = t0 :: more) by (unfold ts; destruct txts; eauto). destruct Hts as (t0 & more & Ets).
  right. split; [exact Nc|]. split; [apply Forall_app; split; [unfold ts in F; destruct txts; [constructor|exact F]|exact Ss]|]. right. exists blk. fold ts. rewrite Ets in *. cbn [hd tl]. inversion F as [|? ? L0 Fm]. subst.
  split; [rewrite firstn_all2 by (unfold len in L0; lia); reflexivity|]. split; [exact Lb|]. split; [|split; [exact Ei|left; reflexivity]].
  rewrite !len_app, Lb, L0, (len_concat_3200 _ Fm). unfold len. cbn [List.length]. lia.
Qed.

Lemma rev1_described p txts bh ls : described (x_rev1 p txts bh ls empty_file) (rev1_open p txts bh ls) o_file (segy_left bh ls rev1_default_text txts []).
Proof.
  unfold x_rev1, rev1_open. unfold xbind at 1, xlift at 1.
  destruct (check_tr_hdr_map bh ls) as [u|e|] eqn:Ec; cbn [bind].
  2:{ split; [reflexivity|]. pose proof (check_throw _ _ _ Ec) as ->. left. split; [reflexivity|]. split; [reflexivity|left; exact Ec]. }
  2:{ exfalso. exact (check_not_ub _ _ Ec). }
  pose proof (run_12 p rev1_default_text txts bh len_rev1) as R. unfold ran_12 in R.
  destruct (open_12 p rev1_default_text txts bh) as [[[[[ts b] e] bps] f]|x|]; cbn [bind].
  - destruct R as (R & D & F & Ei). rewrite !(xbind_ok _ _ _ _ _ R). unfold xbind at 1, xget.
    destruct (same_as p b _); [split; reflexivity|]. destruct (negb _); [|split; reflexivity].
    unfold xbind, xlift, xret. destruct (resize_buf p _ []) as [sb|x|] eqn:Er; cbn [bind].
    + split; reflexivity.
    + split; [reflexivity|]. rewrite (resize_throw _ _ _ _ Er). eapply full_left; [|exact D|exact F|exact Ei|congruence|constructor]. apply len_bin_block.
    + split; [reflexivity|exact I].
  - destruct R as [R1 R2]. unfold xbind. destruct (x_12 p rev1_default_text txts bh empty_file) as [o f]. cbn [fst snd] in R1, R2. subst o.
    split; [reflexivity|apply R2; [congruence|constructor]].
  - unfold xbind. destruct (x_12 p rev1_default_text txts bh empty_file) as [o f]. cbn [fst snd] in R. subst o. split; [reflexivity|exact I].
Qed.
Lemma rev2_described p txts bh st ls : described (x_rev2 p txts bh st ls empty_file) (rev2_open p txts bh st ls) o_file (segy_left bh ls rev2_default_text txts st).
Proof.
  unfold x_rev2, rev2_open. unfold xbind at 1, xlift at 1.
  destruct (check_tr_hdr_map bh ls) as [u|e|] eqn:Ec; cbn [bind].
  2:{ split; [reflexivity|]. pose proof (check_throw _ _ _ Ec) as ->. left. split; [reflexivity|]. split; [reflexivity|left; exact Ec]. }
  2:{ exfalso. exact (check_not_ub _ _ Ec). }
  assert (T : match txts with [] => Ok tt | _ => if forallb is_3200 txts then Ok tt else Throw ESedaman end
     = (if forallb is_3200 txts then Ok tt else Throw ESedaman)) by (destruct txts; reflexivity).
  rewrite !T. clear T. unfold xbind at 1, xlift at 1. destruct (forallb is_3200 txts) eqn:E3; cbn [bind].
  2:{ split; [reflexivity|]. left. split; [reflexivity|]. split; [reflexivity|]. right. destruct (some_3200 _ E3) as (t & It & Lt).
      exact (not_sizes _ t ltac:(apply in_or_app; left; exact It) Lt). }
  unfold xbind at 1, xlift at 1. destruct (forallb is_3200 st) eqn:E4; cbn [bind].
  2:{ split; [reflexivity|]. left. split; [reflexivity|]. split; [reflexivity|]. right. destruct (some_3200 _ E4) as (t & It & Lt).
      exact (not_sizes _ t ltac:(apply in_or_app; right; exact It) Lt). }
  pose proof (run_12 p rev2_default_text txts bh len_rev2) as R. unfold ran_12 in R.
  destruct (open_12 p rev2_default_text txts bh) as [[[[[ts b] e] bps] f]|x|]; cbn [bind].
  - destruct R as (R & D & F & Ei). rewrite !(xbind_ok _ _ _ _ _ R). unfold xbind at 1, xget. cbv zeta.
    destruct (same_as p b _); [split; reflexivity|]. destruct (negb (bh_fixed_tr_length b =? 0)); [|split; reflexivity].
    unfold xbind, xlift, xret. destruct (resize_buf p _ []) as [sb|x|] eqn:Er; cbn [bind].
    + split; reflexivity.
    + split; [reflexivity|]. rewrite (resize_throw _ _ _ _ Er). eapply full_left; [|exact D|exact F|exact Ei|congruence|exact (all_3200 _ E4)]. apply len_bin_block.
    + split; [reflexivity|exact I].
  - destruct R as [R1 R2]. unfold xbind. destruct (x_12 p rev2_default_text txts bh empty_file) as [o f]. cbn [fst snd] in R1, R2. subst o.
    split; [reflexivity|apply R2; [congruence|exact (all_3200 _ E4)]].
  - unfold xbind. destruct (x_12 p rev2_default_text txts bh empty_file) as [o f]. cbn [fst snd] in R. subst o. split; [reflexivity|exact I].
Qed.

(** ** SEG-D *)
Ltac wsizes := repeat match goal with
    | |- wsize (wseq _ _) => apply wsize_seq
    | |- wsize (wlet _ _) => apply wsize_let; intros
    | |- wsize (if ?b then _ else _) => destruct b
    | |- wsize (wput _) => apply wsize_put
    | |- wsize (wmod _) => apply wsize_mod
    | |- wsize (wskip _) => apply wsize_skip
    | |- wsize (to_bcd _ _ _ _) => apply wsize_bcd
    | |- wsize wnil => apply wsize_nil
    end.
Lemma gh1_size p g g2 : wsize (gh1_writer p g g2).
Proof. unfold gh1_writer, w_esc4, w_esc2, wbyte_d, wbyte, w16. wsizes. Qed.
Lemma gh2_size g : wsize (gh2_writer g).
Proof. unfold gh2_writer, wbyte, w16, w24. wsizes. Qed.
Lemma ghN_size p h : wsize (ghN_writer p h).
Proof. unfold ghN_writer, w_source, w16_d, wbyte, w16, w24. wsizes. Qed.
Lemma chset_size p c : wsize (chset_writer p c).
Proof. unfold chset_writer, wbyte, w16. wsizes. Qed.
Lemma wquiet_ub : wquiet (fun _ => UB).
Proof. intros c x. discriminate. Qed.
Lemma wquiet_tail vs st : forall n, wquiet (to_bcd_tail vs st n).
Proof.
  fix IH 1. intros [|[|n]]; cbn [to_bcd_tail]; [apply wquiet_nil|apply wquiet_mod|]. apply wquiet_seq; [apply wquiet_put|apply IH].
Qed.
Lemma wquiet_bcd vs v b n : wquiet (to_bcd vs v b n).
Proof.
  unfold to_bcd. destruct (_ && _); [|apply wquiet_ub]. cbv zeta. destruct b; [|apply wquiet_tail].
  apply wquiet_seq; [apply wquiet_mod|]. apply wquiet_seq; [apply wquiet_skip|apply wquiet_tail].
Qed.
Lemma log2_quiet p w n x : log2_u p w n <> Throw x.
Proof. unfold log2_u. destruct (0 <? n); [discriminate|]. destruct (p_d2u p w None); discriminate. Qed.
Ltac wquiets := repeat match goal with
    | |- wquiet (wseq _ _) => apply wquiet_seq
    | |- wquiet (wlet (d2u _ _ _) _) => apply wquiet_let; [intros ?; apply d2u_quiet|intros ?]
    | |- wquiet (wlet (d2s _ _ _) _) => apply wquiet_let; [intros ?; apply d2s_quiet|intros ?]
    | |- wquiet (wlet (log2_u _ _ _) _) => apply wquiet_let; [intros ?; apply log2_quiet|intros ?]
    | |- wquiet (if ?b then _ else _) => destruct b
    | |- wquiet (wput _) => apply wquiet_put
    | |- wquiet (wmod _) => apply wquiet_mod
    | |- wquiet (wskip _) => apply wquiet_skip
    | |- wquiet (to_bcd _ _ _ _) => apply wquiet_bcd
    | |- wquiet wnil => apply wquiet_nil
    end.
Lemma gh1_quiet p g g2 : wquiet (gh1_writer p g g2).
Proof. unfold gh1_writer, w_esc4, w_esc2, wbyte_d, wbyte, w16. wquiets. Qed.
Lemma gh2_quiet g : wquiet (gh2_writer g).
Proof. unfold gh2_writer, wbyte, w16, w24. wquiets. Qed.
Lemma ghN_quiet p h : wquiet (ghN_writer p h).
Proof. unfold ghN_writer, w_source, w16_d, wbyte, w16, w24. wquiets. Qed.
Lemma chset_quiet p c : wquiet (chset_writer p c).
Proof. unfold chset_writer, wbyte, w16. wquiets. Qed.

(** A step that appends blocks of 32 bytes, at least [n], and throws only if [Q]. *)
Definition grows (Q : Prop) (n : Z) (m : XF unit) (g : file -> outcome file) : Prop := forall f, at_end f ->
  match g f with
  | Ok f' => m f = (Ok tt, f') /\ at_end f' /\ exists k, n <= k /\ len (fdata f') = len (fdata f) + 32 * k
  | Throw e => fst (m f) = Throw e /\ e = ESedaman /\ Q /\ exists k, 0 <= k /\ len (fdata (snd (m f))) = len (fdata f) + 32 * k
  | UB => fst (m f) = UB
  end.
Lemma grows_seq Q n1 n2 m1 m2 g1 g2 : 0 <= n1 -> grows Q n1 m1 g1 -> grows Q n2 m2 g2 ->
  grows Q (n1 + n2) (let! _ := m1 in m2) (fun f => let* f1 := g1 f in g2 f1).
Proof.
  intros P1 H1 H2 f A. specialize (H1 f A). cbv beta. destruct (g1 f) as [f1|e|]; cbn [bind].
  - destruct H1 as (R1 & A1 & k1 & K1 & L1). specialize (H2 f1 A1). rewrite (xbind_ok _ _ _ _ _ R1). destruct (g2 f1) as [f2|e|].
    + destruct H2 as (R2 & A2 & k2 & K2 & L2). split; [exact R2|]. split; [exact A2|]. exists (k1 + k2). split; lia.
    + destruct H2 as (R2 & E2 & Q2 & k2 & K2 & L2). split; [exact R2|]. split; [exact E2|]. split; [exact Q2|]. exists (k1 + k2). split; lia.
    + exact H2.
  - unfold xbind. destruct (m1 f) as [o f1]. cbn [fst snd] in *. destruct H1 as (-> & H1). split; [reflexivity|exact H1].
  - unfold xbind. destruct (m1 f) as [o f1]. cbn [fst snd] in *. subst o. reflexivity.
Qed.
Lemma grows_ret Q : grows Q 0 (xret tt) (fun f => Ok f).
Proof. intros f A. split; [reflexivity|]. split; [exact A|]. exists 0. split; lia. Qed.
Lemma grows_ub Q n : grows Q n (xlift UB) (fun _ => UB).
Proof. intros f A. reflexivity. Qed.
Lemma grows_write Q d : len d = 32 -> grows Q 1 (xf_write d) (fun f => Ok (fwrite d f)).
Proof.
  intros L f A. destruct (fwrite_end d f A) as [D A1]. split; [reflexivity|]. split; [exact A1|]. exists 1. split; [lia|]. rewrite D, len_app, L. lia.
Qed.
Lemma grows_block Q w : wsize w -> wquiet w -> grows Q 1 (xf_block 32 w) (put_block 32 w).
Proof.
  intros S W f A. unfold xf_block, put_block, xbind, xlift. destruct (wrun w (zeros 32)) as [b|e|] eqn:E; cbn [bind fst].
  - apply (grows_write Q b); [|exact A]. unfold len. rewrite (wrun_size _ _ _ S E). reflexivity.
  - exfalso. exact (wrun_quiet _ _ _ W E).
  - reflexivity.
Qed.
Lemma grows_weak (Q Q' : Prop) n n' m g g' : (Q -> Q') -> n' <= n -> (forall f, g' f = g f) -> grows Q n m g -> grows Q' n' m g'.
Proof.
  intros HQ Hn Hg H f A. rewrite Hg. specialize (H f A). destruct (g f) as [f1|e|].
  - destruct H as (R & A1 & k & K & L). split; [exact R|]. split; [exact A1|]. exists k. split; [lia|exact L].
  - destruct H as (R & E & HQ1 & K). split; [exact R|]. split; [exact E|]. split; [exact (HQ HQ1)|exact K].
  - exact H.
Qed.
Lemma grows_gNs Q p : forall m, grows Q 0 (xf_gNs p m) (write_gNs p m).
Proof.
  induction m as [|[k [h|cls nm fs]] m IH]; cbn [xf_gNs write_gNs].
  - apply grows_ret.
  - eapply (grows_weak Q); [tauto| |intros f; reflexivity|apply (grows_seq Q 1 0); [lia|apply (grows_block Q); [apply ghN_size|apply ghN_quiet]|exact IH]]. lia.
  - apply grows_ub.
Qed.
Lemma grows_sets Q p g1 g2 : forall cs, grows Q 0 (xf_ch_sets p g1 g2 cs) (write_ch_sets p g1 g2 cs).
Proof.
  induction cs as [|c cs IH]; cbn [xf_ch_sets write_ch_sets]; [apply grows_ret|].
  eapply (grows_weak Q); [tauto| |intros f; reflexivity|apply (grows_seq Q 1 0); [lia| |exact IH]]; [lia|]. unfold write_ch_set_hdr.
  destruct (_ && _); [apply grows_ub|]. apply (grows_block Q); [apply chset_size|apply chset_quiet].
Qed.
Lemma grows_zeros Q : forall n, grows Q 0 (xf_zeros n) (fun f => Ok (write_zero_blocks n f)).
Proof.
  induction n as [|n IH]; cbn [xf_zeros write_zero_blocks]; [apply grows_ret|].
  eapply (grows_weak Q _ (1 + 0)); [tauto|lia| |apply (grows_seq Q 1 0); [lia|apply (grows_write Q); reflexivity|exact IH]]. reflexivity.
Qed.
Lemma grows_types p g1 g2 : forall sets, grows (exists cs, In cs sets /\ len cs <> o_nsets g1 g2) 0 (xf_scan_types p g1 g2 sets) (write_scan_types p g1 g2 sets).
Proof.
  induction sets as [|cs sets IH]; cbn [xf_scan_types write_scan_types]; [apply grows_ret|].
  destruct (Z.eqb_spec (len cs) (o_nsets g1 g2)) as [E|E]; cbn [negb].
  2:{ intros f A. split; [reflexivity|]. split; [reflexivity|]. split; [exists cs; split; [left; reflexivity|exact E]|]. exists 0. cbn [snd xthrow]. split; lia. }
  assert (IH' : grows (exists cs', In cs' (cs :: sets) /\ len cs' <> o_nsets g1 g2) 0 (xf_scan_types p g1 g2 sets) (write_scan_types p g1 g2 sets)).
  { eapply (grows_weak _ _ 0 0); [|lia|reflexivity|exact IH]. intros (cs' & I & L). exists cs'. split; [right; exact I|exact L]. }
  eapply (grows_weak _ _ (0 + (0 + 0))); [intros H; exact H|lia| |apply (grows_seq _ 0 (0 + 0)); [lia|apply grows_sets|apply (grows_seq _ 0 0); [lia|apply grows_zeros|exact IH']]].
  intros f. reflexivity.
Qed.
Lemma grows_blks Q : forall n bs, grows Q 0 (xf_blks n bs) (write_blks n bs).
Proof.
  induction n as [|n IH]; intros bs; cbn [xf_blks write_blks]; [apply grows_ret|]. destruct bs as [|b bs]; [apply grows_ub|].
  destruct (Z.ltb_spec (len b) 32) as [L|L]; [apply grows_ub|].
  eapply (grows_weak Q _ (1 + 0)); [tauto|lia| |apply (grows_seq Q 1 0); [lia|apply (grows_write Q)|apply IH]]; [reflexivity|].
  unfold len in *. rewrite firstn_length. lia.
Qed.
Lemma add_quiet : forall bs m x, SegdTypes.add_blocks m bs <> Throw x.
Proof.
  induction bs as [|b bs IH]; intros m x; cbn [SegdTypes.add_blocks]; [discriminate|]. destruct (add_block m b) as [m1|e|] eqn:E; cbn [bind]; [apply IH| |discriminate].
  exfalso. unfold add_block in E. destruct (block_fields _); destruct b; try discriminate; destruct (_ =? _); discriminate.
Qed.
Lemma d_writer_throw p fmt x : d_sample_writer p fmt = Throw x ->
  x = ESedaman /\ ~ In fmt [8015; 8022; 8024; 8036; 8038; 8042; 8044; 8048; 8058; 8080; 9036; 9038; 9058; 9080].
Proof.
  intros H. split.
  - unfold d_sample_writer in H. repeat match type of H with context [match ?z with _ => _ end] => destruct z; try discriminate H end; congruence.
  - intros K. cbn [In] in K. repeat destruct K as [K|K]; try (subst fmt; discriminate H). destruct K.
Qed.

Lemma d_writer_ok p fmt w : d_sample_writer p fmt = Ok w ->
  In fmt [8015; 8022; 8024; 8036; 8038; 8042; 8044; 8048; 8058; 8080; 9036; 9038; 9058; 9080].
Proof.
  intros H. unfold d_sample_writer in H.
  repeat match type of H with match ?z with _ => _ end = _ => destruct z; try discriminate H end; cbn [In]; tauto.
Qed.
Lemma grows_head Q w : wsize w -> wquiet w -> grows Q 1 (xf_block GEN_HDR_SIZE w) (put_block GEN_HDR_SIZE w).
Proof. exact (grows_block Q w). Qed.
(** One step that cannot throw. *)
Ltac step_def p H Ae f1 A1 K1 :=
  let G := fresh "G" in pose proof (H _ Ae) as G;
  match type of G with match ?x with _ => _ end => destruct x as [f1|?e|]; cbn [bind] end;
  [ destruct G as (G & A1 & K1); rewrite (xbind_ok _ _ _ _ _ G); clear G
  | exfalso; destruct G as (_ & _ & [] & _)
  | unfold xbind at 1; match type of G with fst ?x = _ => destruct x as [?o ?f0] end; cbn [fst] in G; subst; split; [reflexivity|exact I] ].

Lemma segd_described p a : described (x_segd p a empty_file) (args_open p a) od_file (segd_left a).
Proof.
  unfold x_segd, args_open, osegd_open. cbv zeta. unfold xbind at 1, xlift at 1. destruct (SegdTypes.add_blocks [] (oa_adds a)) as [m|x|] eqn:Em; cbn [bind].
  2:{ exfalso. exact (add_quiet _ _ _ Em). }
  2:{ split; [reflexivity|exact I]. }
  destruct (Z.eqb_spec (len (oa_sets a)) (wrapu 64 (g1_scan_types (oa_g1 a)))) as [Es|Es]; cbn [negb].
  2:{ split; [reflexivity|]. split; [reflexivity|]. left. split; [reflexivity|]. intros [F _]. exact (Es F). }
  unfold xbind at 1, xlift at 1. destruct (d_sample_writer p (g1_format_code (oa_g1 a))) as [w|x|] eqn:Ew; cbn [bind].
  2:{ apply d_writer_throw in Ew as [-> N]. split; [reflexivity|]. split; [reflexivity|]. left. split; [reflexivity|]. intros [_ F]. exact (N F). }
  2:{ split; [reflexivity|exact I]. }
  step_def p (grows_head False _ (gh1_size p (oa_g1 a) (oa_g2 a)) (gh1_quiet p (oa_g1 a) (oa_g2 a))) (eq_refl : at_end empty_file) f1 B1 K1.
  step_def p (grows_head False _ (gh2_size (oa_g2 a)) (gh2_quiet (oa_g2 a))) B1 f2 B2 K2.
  step_def p (grows_gNs False p m) B2 f3 B3 K3.
  pose proof (grows_types p (oa_g1 a) (oa_g2 a) (oa_sets a) f3 B3) as G.
  destruct (write_scan_types p (oa_g1 a) (oa_g2 a) (oa_sets a) f3) as [f4|e|]; cbn [bind].
  2:{ unfold xbind. destruct (xf_scan_types p (oa_g1 a) (oa_g2 a) (oa_sets a) f3) as [o f4]. cbn [fst snd] in G. destruct G as (-> & -> & (cs & Ics & Lcs) & k & Hk & Lk).
      split; [reflexivity|]. split; [reflexivity|]. right. split; [split; [exact Es|exact (d_writer_ok _ _ _ Ew)]|]. destruct K1 as (k1 & Hk1 & L1). destruct K2 as (k2 & Hk2 & L2). destruct K3 as (k3 & Hk3 & L3).
      exists (k1 + k2 + k3 + k), cs. cbn [snd]. change (len (fdata empty_file)) with 0 in L1. split; [lia|]. split; [lia|]. split; [exact Ics|exact Lcs]. }
  2:{ unfold xbind. destruct (xf_scan_types p (oa_g1 a) (oa_g2 a) (oa_sets a) f3) as [o f4]. cbn [fst snd] in G. subst o. split; [reflexivity|exact I]. }
  destruct G as (R4 & B4 & _). rewrite (xbind_ok _ _ _ _ _ R4). clear R4.
  match goal with |- context [write_blks ?n (oa_extd a) f4] => step_def p (grows_blks False n (oa_extd a)) B4 f5 B5 K5 end.
  match goal with |- context [write_blks ?n (oa_extl a) f5] => step_def p (grows_blks False n (oa_extl a)) B5 f6 B6 K6 end.
  split; reflexivity.
Qed.

(** ** All constructors *)
Lemma construct_described p k : described (construct p k empty_file) (opened p k) file_of (ctor_left k).
Proof.
  assert (L : forall A (m : XF A) (o : outcome A) fl bad (g : A -> osegy + osegd), described (m empty_file) o fl bad -> (forall a, file_of (g a) = fl a) ->
     described ((let! s := m in xret (g s)) empty_file) (let* s := o in Ok (g s)) file_of bad).
  { intros A m o fl bad g [H1 H2] F. unfold described, xbind. destruct (m empty_file) as [o' f]. cbn [fst snd] in *. subst o'.
    destruct o as [x|e|]; cbn [bind fst snd xret]; (split; [reflexivity|]); [rewrite H2, F; reflexivity|exact H2|exact I]. }
  destruct k; cbn [construct opened ctor_left].
  - apply (L _ _ _ o_file); [apply rev0_described|reflexivity].
  - apply (L _ _ _ o_file); [apply rev1_described|reflexivity].
  - apply (L _ _ _ o_file); [apply rev2_described|reflexivity].
  - apply (L _ _ _ od_file); [apply segd_described|reflexivity].
Qed.
