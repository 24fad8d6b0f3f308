(** Clients of a sorted reader that go on after an exception (C65). *)
From Verif Require Import BaseFacts Platform Fp TraceHdr SegyTypes SegyCodec ISegy OpenFacts ReadSpec ReadFacts Sorted1D StepX ISegyX RereadSpec RereadFacts RereadFacts2.

(** ** Two readers of the same file *)
Lemma like_sym p a b : sound p a -> like p a b -> like p b a.
Proof.
  intros S0 (A1 & A2 & A3 & A4 & A5 & A6 & A7 & A8 & A9 & A10 & A11 & _).
  unfold like. rewrite A1, A2, A3, A4, A5, A6, A7, A8, A9, A10. do 10 (split; [reflexivity|]). split; [|exact S0].
  intros F. symmetry. exact (A11 F).
Qed.

Definition twin (p : platform) {A} (x y : outcome (A * isegy)) : Prop :=
  match x, y with
  | Ok (a, s), Ok (b, t) => a = b /\ sound p s /\ like p s t /\ i_file s = i_file t
  | Throw e, Throw e' => e = e'
  | UB, UB => True
  | _, _ => False
  end.

Lemma twin_ok p {A} (a : A) s t b1 b2 : sound p s -> like p s t -> b1 = b2 -> 0 <= fpos b1 -> fdata b1 = fdata (i_file s) ->
  twin p (Ok (a, i_set s b1 (i_bufsz s))) (Ok (a, i_set t b2 (i_bufsz t))).
Proof.
  intros S0 L <- F D. cbn [twin]. split; [reflexivity|]. change (i_set s b1 (i_bufsz s)) with (i_put s b1 (fpos b1) (i_bufsz s)).
  change (i_set t b1 (i_bufsz t)) with (i_put t b1 (fpos b1) (i_bufsz t)).
  pose proof (like_put p s b1 (fpos b1) S0 D F) as L1. split; [exact (like_sound _ _ _ L1)|].
  split; [|reflexivity]. apply like_trans with s; [apply like_sym; assumption|]. apply like_trans with t; [exact L|]. apply like_put; [exact (like_sound _ _ _ L)| |exact F].
  destruct L as (_ & _ & _ & _ & _ & _ & _ & _ & _ & E & _). congruence.
Qed.

Lemma twin_trace p s t : sound p s -> like p s t -> i_file s = i_file t -> twin p (read_trace p s) (read_trace p t).
Proof.
  intros S0 L F. pose proof (trace_agree p s S0) as G.
  pose proof L as (A1 & A2 & A3 & A4 & A5 & A6 & A7 & A8 & A9 & A10 & A11 & (_ & Bt & _)). pose proof S0 as (_ & Bs & _).
  assert (Q : read_trace p t = read_trace p s).
  { unfold read_trace, read_trc_header, read_smpls. rewrite A1, A2, A5, A6, <- F.
    destruct (sarith 32 _) as [n|x|]; cbn [bind]; try reflexivity. destruct (rd_headers _ _ _ _ _ _) as [[h f]|x|]; cbn [bind]; try reflexivity.
    destruct (is_fixed (i_bh s)) eqn:Fx.
    - rewrite (A11 eq_refl). destruct (fread _ f) as [[b f1]|x|]; cbn [bind]; try reflexivity.
      destruct (sample_reader _ _ _) as [q|x|]; cbn [bind]; try reflexivity. destruct (prep q _ b) as [[smp c]|x|]; cbn [bind]; try reflexivity.
      unfold i_set. rewrite A1, A2, A3, A4, A5, A6, A7, A8, A9. reflexivity.
    - destruct (hidx h "SAMP_NUM") as [v h']. destruct (get_int v) as [k|x|]; cbn [bind]; try reflexivity. cbv zeta.
      assert (Z : forall u, 0 <= i_bufsz u <= p_max_alloc p -> (if i_bufsz u =? wrapu 64 (wrapu 64 k * i_bps s) then Ok (wrapu 64 (wrapu 64 k * i_bps s)) else resize_to p (wrapu 64 (wrapu 64 k * i_bps s))) =
              resize_to p (wrapu 64 (wrapu 64 k * i_bps s))).
      { intros u Bu. destruct (Z.eqb_spec (i_bufsz u) (wrapu 64 (wrapu 64 k * i_bps s))) as [E|E]; [|reflexivity]. unfold resize_to. cbv zeta.
        rewrite (wrapu_small 64 (wrapu 64 _)) by (apply wrapu_bound; lia). rewrite <- E.
        replace (i_bufsz u <=? p_max_alloc p) with true by (symmetry; apply Z.leb_le; lia). reflexivity. }
      rewrite !Z by assumption. destruct (resize_to p _) as [sz|x|]; cbn [bind]; try reflexivity.
      destruct (fread _ f) as [[b f1]|x|]; cbn [bind]; try reflexivity.
      destruct (sample_reader _ _ _) as [q|x|]; cbn [bind]; try reflexivity. destruct (prep q _ b) as [[smp c]|x|]; cbn [bind]; try reflexivity.
      unfold i_set. rewrite A1, A2, A3, A4, A5, A6, A7, A8, A9. reflexivity. }
  rewrite Q. destruct (read_trace p s) as [[a s1]|x|]; cbn [twin agree] in *; auto. destruct G as [_ G].
  split; [reflexivity|]. pose proof (like_sound _ _ _ G). split; [assumption|]. split; [|reflexivity]. apply like_refl. assumption.
Qed.

Lemma twin_header p s t : sound p s -> like p s t -> i_file s = i_file t -> twin p (read_header p s) (read_header p t).
Proof.
  intros S0 L F. pose proof L as (A1 & A2 & A3 & A4 & A5 & A6 & A7 & A8 & A9 & A10 & A11 & _).
  pose proof (trc_header_agree p s S0) as G. unfold read_header. 
  assert (Q : read_trc_header p t = read_trc_header p s) by (unfold read_trc_header; rewrite A1, A2, A5, <- F; reflexivity).
  rewrite Q. destruct (read_trc_header p s) as [[h f]|x|]; cbn [bind twin]; auto. destruct G as (_ & _ & D & P).
  rewrite A1, A6, A7. destruct (is_fixed _).
  - destruct (sarith 32 _) as [off|x|]; cbn [bind twin]; auto. unfold fseek_cur. destruct (fseek _ f) as [f2|x|] eqn:E; cbn [bind]; [|reflexivity..].
    apply fseek_data in E as (D2 & P2 & _). apply twin_ok; auto. congruence.
  - destruct (hidx h "SAMP_NUM") as [v h']. destruct (get_int v) as [k|x|]; cbn [bind twin]; auto.
    unfold fseek_cur. destruct (fseek _ f) as [f2|x|] eqn:E; cbn [bind]; [|reflexivity..].
    apply fseek_data in E as (D2 & P2 & _). apply twin_ok; auto. congruence.
Qed.

(** ** One visit: seek and read *)
Definition pair_ok (p : platform) {A} (rd : isegy -> outcome (A * isegy)) (rdx : R A) : Prop :=
  (forall s, sound p s -> agree p s (rdx (fresh s)) (rd s)) /\
  (forall a b, sound p a -> like p a b -> i_file a = i_file b -> twin p (rd a) (rd b)) /\
  (forall r o r1, dead r -> rdx r = (o, r1) -> dead r1 /\ (o = UB \/ o = Throw EIO)).

Lemma pair_trace p : 0 <= p_max_alloc p -> pair_ok p (read_trace p) (xread_trace p).
Proof.
  intros HA. split; [exact (trace_agree p)|]. split; [exact (twin_trace p)|]. intros r o r1 D E.
  destruct (trace_dead p r o r1 HA D E) as [K H]. split; [exact (kept_dead _ _ K)|exact H].
Qed.
Lemma pair_header p : pair_ok p (read_header p) (xread_header p).
Proof.
  split; [exact (header_agree p)|]. split; [exact (twin_header p)|]. intros r o r1 D E.
  destruct (header_dead p r o r1 D E) as [K H]. split; [exact (kept_dead _ _ K)|exact H].
Qed.

(** [r] is the reader [a] but for the position, or failed. *)
Definition follows (p : platform) (a : isegy) (r : reader) : Prop := dead r \/ exists b, r = fresh b /\ like p a b.

Definition visit {A} (rdx : R A) (pos : Z) : R A := let! _ := seek_to pos in rdx.

Lemma visit_dead {A} (rdx : R A) pos r : dead r -> visit rdx pos r = (Throw EIO, r).
Proof. intros H. unfold visit, xbind, seek_to. rewrite on_file_dead by exact H. reflexivity. Qed.

Lemma seek_data s pos s1 : seek_base s pos = Ok s1 -> i_file s1 = mkFile (fdata (i_file s)) pos.
Proof.
  unfold seek_base, fseek. destruct (_ && _); cbn [bind]; [|discriminate]. intros H. injection H as <-. reflexivity.
Qed.

Lemma visit_ok p {A} (rd : isegy -> outcome (A * isegy)) rdx pos a r : pair_ok p rd rdx -> sound p a -> follows p a r ->
  match visit rdx pos r with
  | (Ok v, r') => exists a1 a2, seek_base a pos = Ok a1 /\ rd a1 = Ok (v, a2) /\ sound p a2 /\ follows p a2 r' /\ x_fail r = false
  | (Throw x, r') => follows p a r' /\ (x = EIO <-> dead r')
  | (UB, _) => True
  end.
Proof.
  intros (P1 & P2 & P3) Sa [D|(b & -> & L)].
  - rewrite visit_dead by exact D. split; [left; exact D|]. split; auto.
  - unfold visit, xbind. pose proof (like_sound _ _ _ L) as Sb. pose proof (seek_agree p pos b Sb) as K. pose proof (seek_agree p pos a Sa) as Ka.
    assert (Dt : fdata (i_file b) = fdata (i_file a)) by (destruct L as (_ & _ & _ & _ & _ & _ & _ & _ & _ & E & _); exact E).
    destruct (seek_base b pos) as [b1|x|] eqn:Eb; [| |destruct K].
    + destruct K as [K Lb]. rewrite K. pose proof (seek_data _ _ _ Eb) as Fb.
      assert (exists a1, seek_base a pos = Ok a1) as (a1 & Ea).
      { unfold seek_base, fseek in Eb |- *. destruct ((0 <=? pos) && (pos <? 2 ^ 63)); cbn [bind] in *; [eauto|discriminate]. }
      rewrite Ea in Ka. destruct Ka as [_ La]. pose proof (seek_data _ _ _ Ea) as Fa. pose proof (like_sound _ _ _ La) as Sa1.
      assert (Lab : like p a1 b1). { apply like_trans with a; [apply like_sym; assumption|]. apply like_trans with b; assumption. }
      pose proof (P2 a1 b1 Sa1 Lab ltac:(congruence)) as T. pose proof (P1 b1 (like_sound _ _ _ Lb)) as G.
      destruct (rd b1) as [[v b2]|x|] eqn:E; cbn [agree] in G.
      * destruct G as [G _]. rewrite G. destruct (rd a1) as [[v' a2]|x|] eqn:E'; cbn [twin] in T; [|destruct T..].
        destruct T as (-> & S2 & L2 & _). exists a1, a2. split; [exact Ea|]. split; [exact E'|]. split; [exact S2|]. split; [|reflexivity].
        right. exists b2. auto.
      * destruct G as (r' & G & L2 & F). rewrite G. split; [|exact F]. destruct r' as [i [|]]; [left; reflexivity|]. right. exists i. split; [reflexivity|].
        apply like_trans with b; [exact L|]. apply like_trans with b1; assumption.
      * destruct (rdx (fresh b1)) as [o r']. cbn [fst] in G. subst o. exact I.
    + destruct K as [-> K]. rewrite K. split; [left; reflexivity|]. split; reflexivity.
Qed.

(** ** The calls of the sorted reader *)
Definition tracks (p : platform) (so : sorted) (xs : xsorted) : Prop :=
  s_map so = xs_map xs /\ s_rest so = xs_rest xs /\ sound p (s_base so) /\ follows p (s_base so) (xs_base xs).

Lemma xs_read_eq {A} (rdx : R A) s : xs_read rdx s =
  match xs_rest s with
  | (_, pos :: _) :: _ =>
    match visit rdx pos (xs_base s) with
    | (Ok a, b) => (Ok a, mkXS b (xs_map s) (advance (xs_rest s)))
    | (Throw x, b) => (Throw x, mkXS b (xs_map s) (xs_rest s))
    | (UB, b) => (UB, mkXS b (xs_map s) (xs_rest s))
    end
  | _ => (UB, s)
  end.
Proof.
  unfold xs_read, visit, xbind, on_base, xadvance, xget, xlift, xret. destruct (xs_rest s) as [|[k [|pos ps]] m] eqn:E; try reflexivity.
  destruct (seek_to pos (xs_base s)) as [[u|x|] b]; cbn [xs_base xs_map xs_rest]; try (rewrite E; reflexivity).
  destruct (rdx b) as [[a|x|] b1]; cbn [xs_base xs_map xs_rest]; rewrite E; reflexivity.
Qed.

Lemma xread_at_eq {A} (rdx : R A) pos ps n s : xread_at rdx (pos :: ps) n s =
  if n =? 0 then (Ok [], s) else
  match visit rdx pos (xs_base s) with
  | (Ok a, b) => match xread_at rdx ps (n - 1) (mkXS b (xs_map s) (xs_rest s)) with
                 | (Ok l, s1) => (Ok (a :: l), s1)
                 | (Throw x, s1) => (Throw x, s1)
                 | (UB, s1) => (UB, s1)
                 end
  | (Throw x, b) => (Throw x, mkXS b (xs_map s) (xs_rest s))
  | (UB, b) => (UB, mkXS b (xs_map s) (xs_rest s))
  end.
Proof.
  cbn [xread_at]. destruct (n =? 0); [reflexivity|]. unfold visit, xbind, on_base, xret.
  destruct (seek_to pos (xs_base s)) as [[u|x|] b]; cbn [xs_base xs_map xs_rest]; try reflexivity.
  destruct (rdx b) as [[a|x|] b1]; cbn [xs_base xs_map xs_rest]; try reflexivity.
Qed.

(** What one call of the failure-aware reader tells about the reader of
    Sorted1D.v that made only the calls that returned. *)
Definition step_ok (p : platform) {A} (so : sorted) (xs : xsorted) (res : outcome A * xsorted) (o : outcome (A * sorted)) (nothing : A -> Prop) : Prop :=
  match res with
  | (Ok v, xs') => (exists so', o = Ok (v, so') /\ tracks p so' xs') /\ (dead (xs_base xs) -> nothing v /\ dead (xs_base xs'))
  | (Throw x, xs') => tracks p so xs' /\ (x = EIO <-> dead (xs_base xs')) /\ (dead (xs_base xs) -> x = EIO)
  | (UB, _) => True
  end.

Lemma s_read_ok p {A} (rd : isegy -> outcome (A * isegy)) rdx so xs : pair_ok p rd rdx -> tracks p so xs ->
  step_ok p so xs (xs_read rdx xs) (s_read rd so) (fun _ => False).
Proof.
  intros P0 (T1 & T2 & T3 & T4). rewrite xs_read_eq. unfold s_read. rewrite T2. destruct (xs_rest xs) as [|[k [|pos ps]] m] eqn:E; try exact I.
  pose proof (visit_ok p rd rdx pos (s_base so) (xs_base xs) P0 T3 T4) as V.
  assert (Dd : forall v b, visit rdx pos (xs_base xs) = (v, b) -> dead (xs_base xs) -> v = Throw EIO)
    by (intros v b Hv Hd; rewrite (visit_dead rdx pos _ Hd) in Hv; congruence).
  destruct (visit rdx pos (xs_base xs)) as [[v|x|] b]; cbn [step_ok]; [| |exact I].
  - destruct V as (a1 & a2 & V1 & V2 & V3 & V4 & V5). rewrite V1. cbn [bind]. rewrite V2. cbn [bind]. split.
    + eexists. split; [reflexivity|]. unfold tracks. cbn [s_map s_rest s_base xs_map xs_rest xs_base]. auto.
    + intros D. specialize (Dd _ _ eq_refl D). discriminate.
  - destruct V as [V1 V2]. unfold tracks. cbn [s_map s_rest s_base xs_map xs_rest xs_base]. split; [|split].
    + split; [exact T1|]. split; [congruence|]. auto.
    + exact V2.
    + intros D. specialize (Dd _ _ eq_refl D). congruence.
Qed.

Lemma read_at_ok p {A} (rd : isegy -> outcome (A * isegy)) rdx : pair_ok p rd rdx -> forall ps n a xs,
  sound p a -> follows p a (xs_base xs) ->
  match xread_at rdx ps n xs with
  | (Ok l, xs') => (exists a', read_at rd ps n a = Ok (l, a') /\ sound p a' /\ follows p a' (xs_base xs')) /\
                   xs_map xs' = xs_map xs /\ xs_rest xs' = xs_rest xs /\ (dead (xs_base xs) -> l = [] /\ dead (xs_base xs'))
  | (Throw x, xs') => follows p a (xs_base xs') /\ xs_map xs' = xs_map xs /\ xs_rest xs' = xs_rest xs /\ (x = EIO <-> dead (xs_base xs')) /\ (dead (xs_base xs) -> x = EIO)
  | (UB, _) => True
  end.
Proof.
  intros P0. induction ps as [|pos ps IH]; intros n a xs Sa Fo.
  - cbn [xread_at read_at xret]. split; [|auto]. exists a. auto.
  - rewrite xread_at_eq. cbn [read_at]. destruct (n =? 0); [split; [|auto]; exists a; auto|].
    pose proof (visit_ok p rd rdx pos a (xs_base xs) P0 Sa Fo) as V.
    assert (Dd : forall v b, visit rdx pos (xs_base xs) = (v, b) -> dead (xs_base xs) -> v = Throw EIO)
      by (intros v b Hv Hd; rewrite (visit_dead rdx pos _ Hd) in Hv; congruence).
    destruct (visit rdx pos (xs_base xs)) as [[v|x|] b]; [| |exact I].
    + destruct V as (a1 & a2 & V1 & V2 & V3 & V4 & V5). rewrite V1. cbn [bind]. rewrite V2. cbn [bind].
      specialize (IH (n - 1) a2 (mkXS b (xs_map xs) (xs_rest xs)) V3 V4).
      assert (La : like p a a2).
      { pose proof (seek_agree p pos a Sa) as K. rewrite V1 in K. destruct K as [_ K]. destruct P0 as (P1 & _). 
        pose proof (P1 a1 (like_sound _ _ _ K)) as G. rewrite V2 in G. cbn [agree] in G. destruct G as [_ G]. exact (like_trans _ _ _ _ K G). }
      destruct (xread_at rdx ps (n - 1) _) as [[l|x|] xs']; cbn [xs_map xs_rest xs_base] in IH; [| |exact I].
      * destruct IH as ((a' & E & S' & F') & M & Rr & Dr). rewrite E. cbn [bind]. split; [exists a'; auto|]. split; [exact M|]. split; [exact Rr|].
        intros D. specialize (Dd _ _ eq_refl D). discriminate.
      * destruct IH as (F' & M & Rr & Dx & Dy). split; [|split; [exact M|]; split; [exact Rr|]; split; [exact Dx|]].
        -- destruct F' as [F'|(b' & E' & L')]; [left; exact F'|right]. exists b'. split; [exact E'|]. exact (like_trans _ _ _ _ La L').
        -- intros D. specialize (Dd _ _ eq_refl D). discriminate.
    + destruct V as [V1 V2]. cbn [xs_map xs_rest xs_base]. split; [exact V1|]. split; [reflexivity|]. split; [reflexivity|]. split; [exact V2|].
      intros D. specialize (Dd _ _ eq_refl D). congruence.
Qed.

Lemma get_by_ok p {A} (rd : isegy -> outcome (A * isegy)) rdx so xs v n : pair_ok p rd rdx -> tracks p so xs ->
  step_ok p so xs (xget_by rdx v n xs) (get_by rd so v n) (fun l => l = []).
Proof.
  intros P0 T. pose proof T as (T1 & T2 & T3 & T4). unfold xget_by, get_by. cbn [xbind xget]. unfold xbind. cbn [xget]. rewrite T1.
  destruct (kfind (xs_map xs) v) as [ps|]; cbn [xret step_ok].
  - pose proof (read_at_ok p rd rdx P0 ps n (s_base so) xs T3 T4) as K.
    destruct (xread_at rdx ps n xs) as [[l|x|] xs']; cbn [step_ok]; [| |exact I].
    + destruct K as ((a' & E & S' & F') & M & Rr & D). rewrite E. cbn [bind]. split; [|exact D].
      eexists. split; [reflexivity|]. unfold tracks. cbn [s_map s_rest s_base]. split; [congruence|]. split; [congruence|]. auto.
    + destruct K as (F' & M & Rr & D1 & D2). split; [|auto]. unfold tracks. split; [congruence|]. split; [congruence|]. auto.
  - split; [eexists; split; [reflexivity|exact T]|]. auto.
Qed.

Definition nothing (r : sresult) : Prop := r = SManyT [] \/ r = SManyH [].

Lemma scall_ok p c so xs : 0 <= p_max_alloc p -> tracks p so xs ->
  step_ok p so xs (xsrd_call p c xs) (srd_call p c so) nothing.
Proof.
  intros HA T. destruct c as [[|]|v n|v n]; cbn [xsrd_call srd_call]; unfold xbind.
  - pose proof (s_read_ok p _ _ so xs (pair_trace p HA) T) as K. unfold s_read_trace.
    destruct (xs_read (xread_trace p) xs) as [[a|x|] xs']; cbn [step_ok xret] in *; [|exact K|exact I].
    destruct K as [(so' & -> & K) D]. cbn [bind]. split; [eauto|]. intros H. destruct (D H) as [[] _].
  - pose proof (s_read_ok p _ _ so xs (pair_header p) T) as K. unfold s_read_header.
    destruct (xs_read (xread_header p) xs) as [[a|x|] xs']; cbn [step_ok xret] in *; [|exact K|exact I].
    destruct K as [(so' & -> & K) D]. cbn [bind]. split; [eauto|]. intros H. destruct (D H) as [[] _].
  - pose proof (get_by_ok p _ _ so xs v n (pair_trace p HA) T) as K. unfold get_traces.
    destruct (xget_by (xread_trace p) v n xs) as [[a|x|] xs']; cbn [step_ok xret] in *; [|exact K|exact I].
    destruct K as [(so' & -> & K) D]. cbn [bind]. split; [eauto|]. intros H. destruct (D H) as [-> D']. split; [left; reflexivity|exact D'].
  - pose proof (get_by_ok p _ _ so xs v n (pair_header p) T) as K. unfold get_headers.
    destruct (xget_by (xread_header p) v n xs) as [[a|x|] xs']; cbn [step_ok xret] in *; [|exact K|exact I].
    destruct K as [(so' & -> & K) D]. cbn [bind]. split; [eauto|]. intros H. destruct (D H) as [-> D']. split; [right; reflexivity|exact D'].
Qed.

Lemma go_on_sorted p : 0 <= p_max_alloc p -> forall cs so xs rs xs', tracks p so xs -> go_on (xsrd_call p) xs cs = Ok (rs, xs') ->
  exists so', run (srd_call p) so (returned cs rs) = Ok (results rs, so') /\ tracks p so' xs'.
Proof.
  intros HA. induction cs as [|c cs IH]; intros so xs rs xs' T K; cbn [go_on] in K.
  - injection K as <- <-. exists so. split; [reflexivity|exact T].
  - pose proof (scall_ok p c so xs HA T) as S0. destruct (xsrd_call p c xs) as [[v|x|] xs1]; cbn [step_ok] in S0; [| |discriminate].
    + destruct S0 as [(so1 & E & T1) _]. destruct (go_on (xsrd_call p) xs1 cs) as [[rs' xs2]|y|] eqn:E2; cbn [bind] in K; [|discriminate..].
      injection K as <- <-. destruct (IH so1 xs1 rs' xs2 T1 E2) as (so' & Q & T2). exists so'. split; [|exact T2].
      cbn [returned results run]. rewrite E. cbn [bind]. rewrite Q. reflexivity.
    + destruct S0 as (T1 & _). destruct (go_on (xsrd_call p) xs1 cs) as [[rs' xs2]|y|] eqn:E2; cbn [bind] in K; [|discriminate..].
      injection K as <- <-. destruct (IH so xs1 rs' xs2 T1 E2) as (so' & Q & T2). exists so'. auto.
Qed.

Lemma scan_like p name : forall n s m m' s', sound p s -> scan p n name s m = Ok (m', s') -> like p s s'.
Proof.
  induction n as [|n IH]; intros s m m' s' S0 H; cbn [scan] in H; (destruct (has_trace s); [|injection H as <- <-; apply like_refl; exact S0]); [discriminate|].
  pose proof (header_agree p s S0) as K. destruct (read_header p s) as [[h s1]|x|]; cbn [bind agree] in *; [|discriminate..].
  destruct (hget h name) as [v|]; [|discriminate]. destruct (key_ok v); [|discriminate]. destruct K as [_ L].
  apply like_trans with s1; [exact L|]. exact (IH _ _ _ _ (like_sound _ _ _ L) H).
Qed.

Lemma sorted_tracks p content maps s n name so : opened p content maps s -> sorted_open p n name s = Ok so -> tracks p so (fresh_sorted so).
Proof.
  intros H O. apply opened_sound in H. unfold sorted_open in O. destruct (scan p n name s []) as [[m s1]|x|] eqn:E; cbn [bind] in O; [|discriminate..].
  pose proof (scan_like _ _ _ _ _ _ _ H E) as L. apply like_sound in L. destruct m as [|e m]; [discriminate|]. injection O as <-.
  unfold tracks. cbn [fresh_sorted s_map s_rest s_base xs_map xs_rest xs_base]. split; [reflexivity|]. split; [reflexivity|]. split; [exact L|].
  right. exists s1. split; [reflexivity|]. apply like_refl. exact L.
Qed.
