(** Lemmas about several SEG-D writers in one program (C100). *)
From Coq Require Import String.
From Verif Require Import BaseFacts Platform Bcd Fp TraceHdr SegyTypes SegyCodec ISegy OSegy SegdTypes OSegd StepX OSegdX DRefuseFacts Procs ProcSpec.
Local Open Scope Z_scope.

Lemma pend_pend q r s : with_pend q (with_pend r s) = with_pend q s.
Proof. reflexivity. Qed.
Lemma pend_same s : with_pend (od_pend s) s = s.
Proof. destruct s; reflexivity. Qed.

(** ** Steps that do not look at the array, for the formats in [P] *)
Definition blind (P : Z -> Prop) {A} (m : XD A) : Prop := forall s, P (g1_format_code (od_g1 s)) ->
  (forall q, fst (m (with_pend q s)) = fst (m s) /\ (fst (m s) <> UB -> snd (m (with_pend q s)) = with_pend q (snd (m s)))) /\
  (fst (m s) <> UB -> od_pend (snd (m s)) = od_pend s /\ od_g1 (snd (m s)) = od_g1 s).
Lemma blind_bind P {A B} (m : XD A) (k : A -> XD B) : blind P m -> (forall a, blind P (k a)) -> blind P (xbind m k).
Proof.
  intros M K s F. destruct (M s F) as (H1 & H2). unfold xbind.
  destruct (m s) as [o s1] eqn:E. cbn [fst snd] in *. destruct o as [a|e|].
  - destruct (H2 ltac:(discriminate)) as [H3 H4]. destruct (K a s1 ltac:(rewrite H4; exact F)) as (K1 & K2). split.
    + intros q. specialize (H1 q). destruct (m (with_pend q s)) as [o' s1']. cbn [fst snd] in H1. destruct H1 as [-> H1].
      rewrite (H1 ltac:(discriminate)). apply K1.
    + intros U. destruct (K2 U). split; congruence.
  - split; [|intros U; exact (H2 ltac:(discriminate))]. intros q. specialize (H1 q). destruct (m (with_pend q s)) as [o' s1']. cbn [fst snd] in H1.
    destruct H1 as [-> H1]. split; [reflexivity|]. intros U. exact (H1 ltac:(discriminate)).
  - split; [|intros U; exfalso; apply U; reflexivity]. intros q. specialize (H1 q). destruct (m (with_pend q s)) as [o' s1']. cbn [fst snd] in H1.
    destruct H1 as [-> _]. split; [reflexivity|]. intros U. exfalso. apply U. reflexivity.
Qed.
Lemma blind_lift P {A} (o : outcome A) : blind P (xlift o).
Proof. intros s _. split; [intros q; split; reflexivity|]. split; reflexivity. Qed.
Lemma blind_throw P {A} e : blind P (xthrow e : XD A).
Proof. intros s _. split; [intros q; split; reflexivity|]. split; reflexivity. Qed.
Lemma blind_get P {A} (k : osegd -> XD A) : (forall q s, k (with_pend q s) = k s) -> (forall s, blind P (k s)) -> blind P (let! s := xget in k s).
Proof.
  intros E K s F. unfold xbind, xget. destruct (K s s F) as (K1 & K2). split; [|exact K2]. intros q. rewrite E. apply K1.
Qed.
Lemma blind_put P b : blind P (xd_put b).
Proof. intros s _. split; [intros q; split; reflexivity|]. split; reflexivity. Qed.
Lemma blind_buf P b : blind P (xd_buf b).
Proof. intros s _. split; [intros q; split; reflexivity|]. split; reflexivity. Qed.
Lemma blind_exts P p h : forall n i, blind P (xd_exts p h n i).
Proof.
  induction n as [|n IH]; intros i; cbn [xd_exts]; [exact (blind_lift P (Ok tt))|].
  apply blind_get; [reflexivity|]. intros s0. destruct (p_flat_bufs p); [|apply blind_lift].
  apply blind_bind; [apply blind_lift|]. intros buf. apply blind_bind; [apply blind_put|]. intros _. apply IH.
Qed.

(** ** The samples *)
Lemma writer_packed p fmt bits sw : d_sample_writer p fmt = Ok (bits, sw) -> fmt <> 8015 -> sw <> S8015.
Proof.
  unfold d_sample_writer. intros H N ->.
  repeat match type of H with context [match ?x with _ => _ end] => destruct x; try discriminate H end. apply N. reflexivity.
Qed.
Lemma writer_8015 p bits sw : d_sample_writer p 8015 = Ok (bits, sw) -> sw = S8015.
Proof. intros H. injection H as _ <-. reflexivity. Qed.

Lemma smps_blind p sw : sw <> S8015 -> forall vs q r c,
  write_smps p sw q vs c = let* (_, dc) := write_smps p sw r vs c in Ok (q, dc).
Proof.
  intros N. induction vs as [|v vs IH]; intros q r c; cbn [write_smps bind]; [reflexivity|].
  assert (E : exists w, sample_step p sw q v = (let* x := w in Ok (q, x)) /\ sample_step p sw r v = (let* x := w in Ok (r, x))).
  { destruct sw as [f|f|]; [| |contradiction]; cbn [sample_step].
    - exists (let* d := f v in Ok (wput d)). destruct (f v); split; reflexivity.
    - exists (let* b := f v in Ok (wmod (fun _ => b))). destruct (f v); split; reflexivity. }
  destruct E as ([w|e|] & -> & ->); cbn [bind]; [|reflexivity..].
  destruct (w c) as [[d1 c1]|e|]; cbn [bind]; [|reflexivity..].
  rewrite (IH q r c1). destruct (write_smps p sw r vs c1) as [[q2 [d2 c2]]|e|]; reflexivity.
Qed.
Lemma smps_fours p : forall vs q c q' dc, write_smps p S8015 q vs c = Ok (q', dc) -> (List.length q < 4)%nat ->
  (List.length q' < 4)%nat /\ (List.length q' mod 4 = (List.length q + List.length vs) mod 4)%nat.
Proof.
  induction vs as [|v vs IH]; intros q c q' dc H L; cbn [write_smps] in H.
  - injection H as <- _. rewrite Nat.add_0_r. split; [exact L|reflexivity].
  - cbn [sample_step] in H. destruct (Nat.eqb_spec (List.length (q ++ [v])) 4) as [E|E]; rewrite app_length in E; cbn [List.length] in E.
    + destruct (enc_8015 p _) as [d|e|]; cbn [bind] in H; [|discriminate..].
      destruct (wput d c) as [[d1 c1]|e|]; cbn [bind] in H; [|discriminate..].
      destruct (write_smps p S8015 [] vs c1) as [[q2 [d2 c2]]|e|] eqn:E2; cbn [bind] in H; [|discriminate..]. injection H as <- _.
      destruct (IH _ _ _ _ E2 ltac:(cbn; lia)) as [A B]. split; [exact A|]. rewrite B. cbn [List.length].
      replace (List.length q + S (List.length vs))%nat with (0 + List.length vs + 1 * 4)%nat by lia. rewrite Nat.mod_add by lia. reflexivity.
    + cbn [bind] in H. unfold wnil at 1 in H. cbn [bind] in H.
      destruct (write_smps p S8015 (q ++ [v]) vs c) as [[q2 [d2 c2]]|e|] eqn:E2; cbn [bind] in H; [|discriminate..]. injection H as <- _.
      assert (Lq : (List.length (q ++ [v]) = List.length q + 1)%nat) by (rewrite app_length; reflexivity).
      destruct (IH _ _ _ _ E2 ltac:(lia)) as [A B]. split; [exact A|]. rewrite B, Lq. cbn [List.length]. f_equal. lia.
Qed.

(** ** A call *)
Definition unpacked (f : Z) : Prop := f <> 8015.
Lemma blind_samples p t : blind unpacked (xd_samples p t).
Proof.
  intros s F. unfold xd_samples. unfold xbind, xget, xlift, xd_buf, xput.
  change (od_g1 (with_pend ?q s)) with (od_g1 s).
  destruct (d_sample_writer p (g1_format_code (od_g1 s))) as [[bits sw]|e|] eqn:Ew.
  2:{ split; [intros q; split; reflexivity|]. split; reflexivity. }
  2:{ split; [intros q; split; reflexivity|]. split; reflexivity. }
  pose proof (writer_packed _ _ _ _ Ew F) as N.
  assert (Eb : forall q, o_samp_buf p (with_pend q s) (len (t_smp t)) bits = o_samp_buf p s (len (t_smp t)) bits) by reflexivity.
  destruct (o_samp_buf p s (len (t_smp t)) bits) as [buf|e|].
  2:{ split; [intros q; rewrite Eb; split; reflexivity|]. split; reflexivity. }
  2:{ split; [intros q; rewrite Eb; split; reflexivity|]. split; reflexivity. }
  assert (Ec : forall q, o_ch_set (with_pend q s) (t_hdr t) = o_ch_set s (t_hdr t)) by reflexivity.
  destruct (o_ch_set s (t_hdr t)) as [c|e|].
  2:{ split; [intros q; rewrite Eb, Ec; split; reflexivity|]. split; reflexivity. }
  2:{ split; [intros q; rewrite Eb, Ec; split; reflexivity|]. split; reflexivity. }
  set (vs := map _ (t_smp t)). destruct (write_smps p sw (od_pend s) vs buf) as [[q0 dc]|e|] eqn:Em.
  - assert (Q : forall q, write_smps p sw q vs buf = Ok (q, dc)) by (intros q; rewrite (smps_blind p sw N vs q (od_pend s)), Em; reflexivity).
    pose proof (Q (od_pend s)) as Q0. rewrite Q0 in Em. injection Em as E0. split; [|intros _; split; [cbn; congruence|reflexivity]].
    intros q. rewrite Eb, Ec. fold vs. change (od_pend (with_pend q s)) with q. rewrite Q. split; reflexivity.
  - split; [|intros _; split; reflexivity]. intros q. rewrite Eb, Ec. fold vs. change (od_pend (with_pend q s)) with q.
    rewrite (smps_blind p sw N vs q (od_pend s)), Em. split; reflexivity.
  - split; [|intros U; exfalso; apply U; reflexivity]. intros q. rewrite Eb, Ec. fold vs. change (od_pend (with_pend q s)) with q.
    rewrite (smps_blind p sw N vs q (od_pend s)), Em. split; [reflexivity|]. intros U. exfalso. apply U. reflexivity.
Qed.
Lemma blind_write p t : blind unpacked (xd_write_trace p t).
Proof.
  unfold xd_write_trace. apply blind_get; [reflexivity|]. intros s0. destruct (_ =? _); [apply blind_throw|].
  apply blind_bind; [apply blind_bind; [apply blind_lift|intros; apply blind_put]|]. intros _.
  apply blind_bind; [apply blind_lift|]. intros n. apply blind_bind; [apply blind_exts|]. intros _. apply blind_samples.
Qed.

Lemma call_g1 p t s o s' : xd_write_trace p t s = (o, s') -> o <> UB -> od_g1 s' = od_g1 s.
Proof.
  intros H U. pose proof (write_run p t s) as R. destruct (d_write_trace p s t) as [s1|e|] eqn:E.
  - rewrite R in H. injection H as _ <-. exact (proj1 (proj1 (write_setup _ _ _ _ E))).
  - destruct R as (bs & R & _). rewrite R in H. injection H as _ <-. reflexivity.
  - destruct R as (s1 & R). rewrite R in H. injection H as <- _. exfalso. apply U. reflexivity.
Qed.
Lemma call_fours p t s o s' : xd_write_trace p t s = (o, s') -> o <> UB -> packed s -> od_pend s = [] ->
  (4 | len (t_smp t)) -> od_pend s' = [].
Proof.
  intros H U F Q D. pose proof (write_run p t s) as R. destruct (d_write_trace p s t) as [s1|e|] eqn:E.
  - rewrite R in H. injection H as _ <-. unfold d_write_trace in E. destruct (_ =? _); [discriminate|].
    destruct (put_block _ _ _) as [f1|e|]; cbn [bind] in E; [|discriminate..].
    destruct (opt_int _ _) as [n|e|]; cbn [bind] in E; [|discriminate..].
    destruct (write_exts _ _ _ _ _ _ _) as [f2|e|]; cbn [bind] in E; [|discriminate..].
    unfold packed in F. rewrite F in E. cbn [d_sample_writer bind] in E.
    destruct (o_samp_buf _ _ _ _) as [buf|e|]; cbn [bind] in E; [|discriminate..].
    destruct (o_ch_set _ _) as [c|e|]; cbn [bind] in E; [|discriminate..].
    rewrite Q in E. destruct (write_smps p S8015 [] _ buf) as [[q dc]|e|] eqn:Em; cbn [bind] in E; [|discriminate..].
    injection E as <-. destruct (smps_fours _ _ _ _ _ _ Em ltac:(cbn; lia)) as [A B]. cbn [od_upd od_pend].
    rewrite map_length in B. cbn [List.length Nat.add] in B. destruct D as [k D]. unfold len in D.
    assert (M : (List.length (t_smp t) mod 4 = 0)%nat) by (apply Nat.mod_divide; [lia|exists (Z.to_nat k); lia]).
    rewrite M, Nat.mod_small in B by exact A. destruct q; [reflexivity|discriminate B].
  - destruct R as (bs & R & _). rewrite R in H. injection H as _ <-. exact Q.
  - destruct R as (s1 & R). rewrite R in H. injection H as <- _. exfalso. apply U. reflexivity.
Qed.

(** ** Programs *)
Lemma set_nth_length {A} (x : A) : forall l i, List.length (set_nth l i x) = List.length l.
Proof. induction l as [|y l IH]; intros [|i]; cbn [set_nth List.length]; [reflexivity..|]. f_equal. apply IH. Qed.
Lemma set_nth_same {A} (x : A) : forall l i, (i < List.length l)%nat -> nth_error (set_nth l i x) i = Some x.
Proof. induction l as [|y l IH]; intros [|i] H; cbn [set_nth List.length nth_error] in *; [lia..|reflexivity|]. apply IH. lia. Qed.
Lemma set_nth_other {A} (x : A) : forall l i j, i <> j -> nth_error (set_nth l i x) j = nth_error l j.
Proof. induction l as [|y l IH]; intros [|i] [|j] H; cbn [set_nth nth_error]; try reflexivity; [lia|]. apply IH. lia. Qed.
Lemma set_nth_map {A B} (f : A -> B) x : forall l i, set_nth (map f l) i (f x) = map f (set_nth l i x).
Proof. induction l as [|y l IH]; intros [|i]; cbn [set_nth map]; [reflexivity..|]. f_equal. apply IH. Qed.

Lemma open_pend p a s : args_open p a = Ok s -> od_pend s = [].
Proof.
  unfold args_open, osegd_open. intros H.
  destruct (add_blocks _ _); cbn [bind] in H; [|discriminate..]. destruct (negb _); [discriminate|].
  repeat match type of H with bind ?o _ = _ => destruct o; cbn [bind] in H; [|discriminate..] end. injection H as <-. reflexivity.
Qed.

(** The programs of the theorem: [l] are all writers of the program. *)
Definition calm (l : list osegd) (g : list Z) (cs : list cmd) : Prop :=
  ((forall i t s, In (CWrite i t) cs -> nth_error l i = Some s -> packed s -> (4 | len (t_smp t))) /\ g = []) \/
  (forall i j s s', nth_error l i = Some s -> nth_error l j = Some s' -> packed s -> packed s' -> i = j).

(** The array holds what the writers of format 8015 left. *)
Definition shared (g : list Z) (al : list osegd) : Prop :=
  (forall i s, nth_error al i = Some s -> packed s -> od_pend s = g) /\
  (g <> [] -> exists i s, nth_error al i = Some s /\ packed s).

Lemma nth_split {A} (l r : list A) i x : nth_error l i = Some x -> nth_error (l ++ r) i = Some x.
Proof. intros H. rewrite nth_error_app1; [exact H|]. apply nth_error_Some. rewrite H. discriminate. Qed.

Lemma run_alone p : forall cs g al, shared g al -> calm (al ++ writers p cs) g cs ->
  match p_run p (mkProc g (map (with_pend []) al)) cs with
  | Ok (rs, pr) => exists al', pr_objs pr = map (with_pend []) al' /\ List.length al' = List.length (al ++ writers p cs) /\
      forall i s, nth_error (al ++ writers p cs) i = Some s ->
        exists s', nth_error al' i = Some s' /\ d_calls p s (traces_of i cs) = Ok (results_of i cs rs, s')
  | Throw _ => False
  | UB => (exists i s, nth_error (al ++ writers p cs) i = Some s /\ d_calls p s (traces_of i cs) = UB) \/
          ~ scoped p (List.length al) cs \/ exists a, In (CNew a) cs /\ args_open p a = UB
  end.
Proof.
  induction cs as [|c cs IH]; intros g al SH CM.
  { cbn [p_run writers]. exists al. rewrite app_nil_r. split; [reflexivity|]. split; [reflexivity|].
    intros i s H. exists s. split; [exact H|reflexivity]. }
  destruct c as [a|i t]; cbn [p_run p_step pr_objs pr_pend writers traces_of results_of scoped] in *.
  - (* construction *)
    destruct (args_open p a) as [s|e|] eqn:Ea.
    + change [with_pend [] s] with (map (with_pend []) [s]). rewrite <- map_app.
      assert (El : al ++ s :: writers p cs = (al ++ [s]) ++ writers p cs) by (rewrite <- app_assoc; reflexivity). rewrite El in *.
      assert (SH1 : shared g (al ++ [s])).
      { destruct SH as [SH1 SH2]. split.
        - intros j s0 Hj Pj. destruct (Nat.lt_ge_cases j (List.length al)) as [L|L].
          + rewrite nth_error_app1 in Hj by exact L. exact (SH1 j s0 Hj Pj).
          + rewrite nth_error_app2 in Hj by exact L. destruct (j - List.length al)%nat eqn:Ej; [|destruct n; discriminate Hj].
            injection Hj as <-. rewrite (open_pend _ _ _ Ea). destruct g as [|z g]; [reflexivity|]. exfalso.
            destruct CM as [[_ CM]|CM]; [discriminate CM|]. destruct (SH2 ltac:(discriminate)) as (k & s1 & Hk & Pk).
            assert (Lk : (k < List.length al)%nat) by (apply nth_error_Some; rewrite Hk; discriminate).
            assert (X : k = List.length al).
            { apply (CM k (List.length al) s1 s); [| |exact Pk|exact Pj].
              - rewrite <- app_assoc. apply nth_split. exact Hk.
              - apply nth_split. rewrite nth_error_app2, Nat.sub_diag by lia. reflexivity. }
            lia.
        - intros G. destruct (SH2 G) as (k & s1 & Hk & Pk). exists k, s1. split; [|exact Pk]. apply nth_split. exact Hk. }
      assert (CM1 : calm ((al ++ [s]) ++ writers p cs) g cs).
      { destruct CM as [[CM1 CM2]|CM]; [left|right; exact CM]. split; [|exact CM2]. intros j t0 s0 Hi. apply CM1. right. exact Hi. }
      specialize (IH g (al ++ [s]) SH1 CM1). destruct (p_run p _ cs) as [[rs pr]|e|]; cbn [bind].
      * exact IH.
      * exact IH.
      * destruct IH as [IH|[IH|(a0 & I1 & I2)]]; [left; exact IH|right; left|right; right; exists a0; split; [right; exact I1|exact I2]].
        rewrite app_length in IH. cbn [List.length] in IH. rewrite Nat.add_1_r in IH. exact IH.
    + assert (CM1 : calm (al ++ writers p cs) g cs).
      { destruct CM as [[CM1 CM2]|CM]; [left|right; exact CM]. split; [|exact CM2]. intros j t0 s0 Hi. apply CM1. right. exact Hi. }
      specialize (IH g al SH CM1). destruct (p_run p _ cs) as [[rs pr]|e1|]; cbn [bind].
      * exact IH.
      * exact IH.
      * destruct IH as [IH|[IH|(a0 & I1 & I2)]]; [left; exact IH|right; left; exact IH|right; right; exists a0; split; [right; exact I1|exact I2]].
    + right. right. exists a. split; [left; reflexivity|exact Ea].
  - (* a call of write_trace *)
    rewrite nth_error_map. destruct (nth_error al i) as [s|] eqn:Ei; cbn [option_map].
    2:{ right. left. intros [L _]. apply nth_error_Some in L. apply L. exact Ei. }
    assert (Li : (i < List.length al)%nat) by (apply nth_error_Some; rewrite Ei; discriminate).
    rewrite pend_pend. destruct (xd_write_trace p t s) as [o s1] eqn:Ec.
    assert (PR : exists s1', xd_write_trace p t (with_pend g s) = (o, s1') /\
      (o <> UB -> with_pend [] s1' = with_pend [] s1 /\ (packed s -> od_pend s1' = od_pend s1) /\ (~ packed s -> od_pend s1' = g))).
    { destruct (Z.eq_dec (g1_format_code (od_g1 s)) 8015) as [P|P].
      - rewrite <- (proj1 SH i s Ei P), pend_same. exists s1. split; [exact Ec|]. intros _. split; [reflexivity|].
        split; [reflexivity|]. intros N. contradiction.
      - destruct (blind_write p t s P) as [B _]. specialize (B g). rewrite Ec in B. cbn [fst snd] in B.
        destruct (xd_write_trace p t (with_pend g s)) as [o' s1']. cbn [fst snd] in B. destruct B as [-> B]. exists s1'.
        split; [reflexivity|]. intros U. rewrite (B U). split; [reflexivity|]. split; [contradiction|reflexivity]. }
    destruct PR as (s1' & -> & PR).
    destruct (match o with UB => true | _ => false end) eqn:EU.
    { destruct o; try discriminate EU. left. exists i, s. split; [apply nth_split; exact Ei|].
      rewrite Nat.eqb_refl. cbn [d_calls]. rewrite Ec. reflexivity. }
    assert (U : o <> UB) by (intros ->; discriminate EU). destruct (PR U) as (PR1 & PR2 & PR3). clear PR.
    pose proof (call_g1 _ _ _ _ _ Ec U) as G1.
    rewrite PR1, set_nth_map. set (al1 := set_nth al i s1).
    assert (Hal1 : forall j x, nth_error al1 j = Some x -> (j = i /\ x = s1) \/ (j <> i /\ nth_error al j = Some x)).
    { intros j x Hj. unfold al1 in Hj. destruct (Nat.eq_dec j i) as [->|N].
      - left. rewrite set_nth_same in Hj by exact Li. injection Hj as <-. split; reflexivity.
      - right. rewrite set_nth_other in Hj by lia. split; assumption. }
    assert (HT : forall j x, nth_error (al1 ++ writers p cs) j = Some x ->
      exists y, nth_error (al ++ writers p cs) j = Some y /\ (packed x -> packed y)).
    { intros j x Hj. destruct (Nat.lt_ge_cases j (List.length al)) as [L|L].
      - rewrite nth_error_app1 in Hj by (unfold al1; rewrite set_nth_length; exact L). destruct (Hal1 j x Hj) as [[-> ->]|[_ H]].
        + exists s. split; [apply nth_split; exact Ei|]. unfold packed. rewrite G1. intros H. exact H.
        + exists x. split; [apply nth_split; exact H|intros P; exact P].
      - rewrite nth_error_app2 in Hj by (unfold al1; rewrite set_nth_length; exact L). unfold al1 in Hj. rewrite set_nth_length in Hj.
        exists x. split; [rewrite nth_error_app2 by exact L; exact Hj|intros P; exact P]. }
    assert (CM1 : calm (al1 ++ writers p cs) (od_pend s1') cs).
    { destruct CM as [[CM1 CM2]|CM].
      - left. split.
        + intros j t0 s0 Hin Hj P0. destruct (HT j s0 Hj) as (y & Hy & Py). exact (CM1 j t0 y (or_intror Hin) Hy (Py P0)).
        + destruct (Z.eq_dec (g1_format_code (od_g1 s)) 8015) as [P|P].
          * rewrite (PR2 P). apply (call_fours _ _ _ _ _ Ec U P).
            -- rewrite (proj1 SH i s Ei P). exact CM2.
            -- exact (CM1 i t s (or_introl eq_refl) (nth_split _ _ _ _ Ei) P).
          * rewrite (PR3 P). exact CM2.
      - right. intros j k x y Hj Hk Px Py. destruct (HT j x Hj) as (x' & Hx & Qx). destruct (HT k y Hk) as (y' & Hy & Qy).
        exact (CM j k x' y' Hx Hy (Qx Px) (Qy Py)). }
    assert (SH1 : shared (od_pend s1') al1).
    { destruct (Z.eq_dec (g1_format_code (od_g1 s)) 8015) as [P|P].
      - rewrite (PR2 P) in *. split.
        + intros j x Hj Px. destruct (Hal1 j x Hj) as [[-> ->]|[N H]]; [reflexivity|].
          destruct CM1 as [[_ CM1]|CM1].
          * rewrite CM1. rewrite (proj1 SH j x H Px). destruct CM as [[_ CM]|CM]; [exact CM|]. exfalso. apply N.
            exact (CM j i x s (nth_split _ _ _ _ H) (nth_split _ _ _ _ Ei) Px P).
          * exfalso. apply N. apply (CM1 j i x s1); [apply nth_split; exact Hj|apply nth_split; apply set_nth_same; exact Li|exact Px|].
            unfold packed. rewrite G1. exact P.
        + intros _. exists i, s1. split; [apply set_nth_same; exact Li|]. unfold packed. rewrite G1. exact P.
      - rewrite (PR3 P) in *. split.
        + intros j x Hj Px. destruct (Hal1 j x Hj) as [[-> ->]|[N H]]; [|exact (proj1 SH j x H Px)].
          exfalso. apply P. unfold packed in Px. rewrite G1 in Px. exact Px.
        + intros G. destruct (proj2 SH G) as (k & x & Hk & Px). assert (k <> i).
          { intros ->. rewrite Ei in Hk. injection Hk as <-. contradiction. }
          exists k, x. split; [|exact Px]. unfold al1. rewrite set_nth_other by lia. exact Hk. }
    assert (TR : forall j x, nth_error (al ++ writers p cs) j = Some x -> j <> i -> nth_error (al1 ++ writers p cs) j = Some x).
    { intros j x Hj N. destruct (Nat.lt_ge_cases j (List.length al)) as [L|L].
      - rewrite nth_error_app1 in Hj by exact L. apply nth_split. unfold al1. rewrite set_nth_other by lia. exact Hj.
      - rewrite nth_error_app2 in Hj by exact L. rewrite nth_error_app2 by (unfold al1; rewrite set_nth_length; exact L).
        unfold al1. rewrite set_nth_length. exact Hj. }
    assert (TI : nth_error (al1 ++ writers p cs) i = Some s1) by (apply nth_split; apply set_nth_same; exact Li).
    assert (SI : nth_error (al ++ writers p cs) i = Some s) by (apply nth_split; exact Ei).
    specialize (IH (od_pend s1') al1 SH1 CM1).
    assert (LT : List.length (al1 ++ writers p cs) = List.length (al ++ writers p cs)) by (rewrite !app_length; unfold al1; rewrite set_nth_length; reflexivity).
    assert (CALL : forall ts, d_calls p s (t :: ts) = let* (os, s2) := d_calls p s1 ts in Ok (o :: os, s2)).
    { intros ts. cbn [d_calls]. rewrite Ec. destruct o; try reflexivity. discriminate EU. }
    destruct (p_run p (mkProc (od_pend s1') (map (with_pend []) al1)) cs) as [[rs pr]|e1|] eqn:ER.
    + assert (RUN : match o with UB => UB | _ => let* (os, pr2) := Ok (rs, pr) in Ok (o :: os, pr2) end = Ok (o :: rs, pr)) by (destruct o; [reflexivity..|discriminate EU]).
      rewrite RUN. destruct IH as (al' & I1 & I2 & I3). exists al'. split; [exact I1|]. split; [congruence|].
      intros j x Hj. destruct (Nat.eq_dec j i) as [->|N].
      * rewrite SI in Hj. injection Hj as <-. rewrite Nat.eqb_refl. destruct (I3 i s1 TI) as (s2 & J1 & J2). exists s2.
        split; [exact J1|]. rewrite CALL, J2. reflexivity.
      * rewrite (proj2 (Nat.eqb_neq j i) N). exact (I3 j x (TR j x Hj N)).
    + contradiction.
    + assert (RUN : match o with UB => UB | _ => let* (os, pr2) := (UB : outcome (list (outcome unit) * proc)) in Ok (o :: os, pr2) end = UB) by (destruct o; reflexivity).
      rewrite RUN. destruct IH as [(j & x & Hj & Hc)|[IH|(a0 & J1 & J2)]].
      * left. destruct (Nat.eq_dec j i) as [->|N].
        -- exists i, s. split; [exact SI|]. rewrite Nat.eqb_refl, CALL. rewrite TI in Hj. injection Hj as <-. rewrite Hc. reflexivity.
        -- exists j, x. rewrite (proj2 (Nat.eqb_neq j i) N). split; [|exact Hc].
           destruct (Nat.lt_ge_cases j (List.length al)) as [L|L].
           ++ rewrite nth_error_app1 in Hj by (unfold al1; rewrite set_nth_length; exact L). apply nth_split.
              unfold al1 in Hj. rewrite set_nth_other in Hj by lia. exact Hj.
           ++ rewrite nth_error_app2 in Hj by (unfold al1; rewrite set_nth_length; exact L). unfold al1 in Hj. rewrite set_nth_length in Hj.
              rewrite nth_error_app2 by exact L. exact Hj.
      * right. left. intros [_ S]. apply IH. unfold al1. rewrite set_nth_length. exact S.
      * right. right. exists a0. split; [right; exact J1|exact J2].
Qed.

Lemma run_length p : forall cs pr rs pr', p_run p pr cs = Ok (rs, pr') -> List.length rs = List.length cs.
Proof.
  induction cs as [|c cs IH]; intros pr rs pr' H; cbn [p_run] in H; [injection H as <- _; reflexivity|].
  destruct (p_step p c pr) as [o pr1]. destruct o as [u|e|]; [| |discriminate];
    destruct (p_run p pr1 cs) as [[os pr2]|e'|] eqn:E; cbn [bind] in H; try discriminate;
    injection H as <- _; cbn [List.length]; f_equal; exact (IH _ _ _ E).
Qed.
