(** Clients of a reader that go on after an exception (C64, C65). *)
From Verif Require Import BaseFacts Platform Fp TraceHdr SegyTypes SegyCodec ISegy OpenFacts ReadSpec ReadFacts Sorted1D StepX ISegyX RereadSpec RereadFacts.

Lemma opened_sound p content maps s : opened p content maps s -> sound p s.
Proof.
  intros [H|(bh & H)]; unfold isegy_open, isegy_open_bh in H; pose proof (open_alloc _ _ _ _ _ _ H) as B;
    apply i_open_inv in H as (R & _ & _ & _ & _ & P & _ & _ & _ & Z & F & _); (split; [lia|]; split; [exact B|exact R]).
Qed.

Lemma call_agree p c s : sound p s -> agree p s (xrd_call p c (fresh s)) (rd_call p c s).
Proof.
  intros S0. destruct c; cbn [xrd_call rd_call]; unfold xbind; [pose proof (trace_agree p s S0) as K; destruct (read_trace p s) as [[a s1]|x|] |
    pose proof (header_agree p s S0) as K; destruct (read_header p s) as [[a s1]|x|]]; cbn [agree bind] in *.
  1, 4: destruct K as [K L]; rewrite K; split; [reflexivity|exact L].
  1, 3: destruct K as (r & K & L); rewrite K; exists r; split; [reflexivity|exact L].
  - destruct (xread_trace p (fresh s)) as [[a|x|] r]; try discriminate K; reflexivity.
  - destruct (xread_header p (fresh s)) as [[a|x|] r]; try discriminate K; reflexivity.
Qed.

Lemma call_dead p c r o r1 : 0 <= p_max_alloc p -> dead r -> xrd_call p c r = (o, r1) -> kept r r1 /\ (o = UB \/ o = Throw EIO).
Proof.
  intros HA H. destruct c; cbn [xrd_call]; unfold xbind.
  - destruct (xread_trace p r) as [o1 r2] eqn:E. destruct (trace_dead p r _ _ HA H E) as [K [-> | ->]];
      intros Q; injection Q as <- <-; auto.
  - destruct (xread_header p r) as [o1 r2] eqn:E. destruct (header_dead p r _ _ H E) as [K [-> | ->]];
      intros Q; injection Q as <- <-; auto.
Qed.

Lemma kept_dead r r1 : kept r r1 -> dead r1.
Proof. intros (H & _). exact H. Qed.

(** A failed reader answers every call with the same exception. *)
Lemma go_on_dead p : 0 <= p_max_alloc p -> forall cs r rs r1, dead r -> go_on (xrd_call p) r cs = Ok (rs, r1) ->
  rs = repeat (Throw EIO) (length cs) /\ kept r r1.
Proof.
  intros HA. induction cs as [|c cs IH]; intros r rs r1 H K; cbn [go_on] in K.
  - injection K as <- <-. split; [reflexivity|]. repeat split; auto.
  - destruct (xrd_call p c r) as [o r2] eqn:E. destruct (call_dead p c r _ _ HA H E) as [D [-> | ->]]; [discriminate|].
    destruct (go_on (xrd_call p) r2 cs) as [[rs' r3]|x|] eqn:E2; cbn [bind] in K; [|discriminate..]. injection K as <- <-.
    destruct (IH _ _ _ (kept_dead _ _ D) E2) as [-> (D1 & D2 & D3)]. split; [reflexivity|]. destruct D as (_ & K2 & K3).
    split; [exact D1|]. split; congruence.
Qed.

Lemma go_on_reader p : 0 <= p_max_alloc p -> forall cs s rs r, sound p s -> go_on (xrd_call p) (fresh s) cs = Ok (rs, r) ->
  (forall x, In (Throw x) rs -> x = EIO) ->
  exists res k s1, rs = map Ok res ++ repeat (Throw EIO) k /\ run (rd_call p) s (firstn (length res) cs) = Ok (res, s1) /\
    (k = 0%nat -> r = fresh s1) /\ (k <> 0%nat -> exists c, nth_error cs (length res) = Some c /\ rd_call p c s1 = Throw EIO).
Proof.
  intros HA. induction cs as [|c cs IH]; intros s rs r S0 K Hx; cbn [go_on] in K.
  - injection K as <- <-. exists [], 0%nat, s. repeat split; congruence.
  - pose proof (call_agree p c s S0) as A. destruct (rd_call p c s) as [[a s1]|x|] eqn:E; cbn [agree] in A.
    + destruct A as [A L]. rewrite A in K. destruct (go_on (xrd_call p) (fresh s1) cs) as [[rs' r']|x|] eqn:E2; cbn [bind] in K; [|discriminate..].
      injection K as <- <-. destruct (IH s1 rs' r' (like_sound _ _ _ L) E2) as (res & k & s2 & -> & R & K0 & K1); [intros x Hin; apply Hx; right; exact Hin|].
      exists (a :: res), k, s2. cbn [map length firstn run app nth_error]. rewrite E. cbn [bind]. rewrite R. cbn [bind]. auto.
    + destruct A as (r' & A & L & F). rewrite A in K. destruct (go_on (xrd_call p) r' cs) as [[rs' r2]|y|] eqn:E2; cbn [bind] in K; [|discriminate..].
      injection K as <- <-. assert (x = EIO) as -> by (apply Hx; left; reflexivity).
      destruct (go_on_dead p HA cs r' rs' r2 (proj1 F eq_refl) E2) as [-> _].
      exists [], (S (length cs)), s. cbn [map length firstn run app nth_error repeat]. repeat split; try discriminate.
      intros _. exists c. auto.
    + destruct (xrd_call p c (fresh s)) as [o r']. cbn [fst] in A. subst o. discriminate.
Qed.

Lemma fixed_throw p s c x : sound p s -> is_fixed (i_bh s) = true -> rd_call p c s = Throw x -> x = EIO.
Proof.
  intros S0 F. pose proof (trc_header_agree p s S0) as K. destruct S0 as (_ & _ & q & Eq).
  destruct c; cbn [rd_call]; unfold read_trace, read_header; destruct (read_trc_header p s) as [[h f]|y|]; cbn [bind]; try discriminate;
    try (destruct K as [-> _]; congruence); rewrite F.
  - unfold read_smpls. destruct (fread (i_bufsz s) f) as [[b f1]|y|] eqn:E; cbn [bind]; try discriminate.
    + rewrite Eq. cbn [bind]. destruct (prep q _ b) as [[smp c]|y|] eqn:Ep; cbn [bind]; try discriminate.
      exfalso. exact (quiet_prep q _ (quiet_sample _ _ _ _ Eq) _ _ Ep).
    + apply fread_throw in E as ->. congruence.
  - destruct (sarith 32 _) as [off|y|] eqn:E; cbn [bind]; try discriminate.
    + unfold fseek_cur. destruct (fseek _ f) as [f1|y|] eqn:E1; cbn [bind]; try discriminate. apply fseek_throw in E1 as ->. congruence.
    + unfold sarith in E. destruct (in_i 32 _); discriminate.
Qed.

Lemma like_bh p a b : like p a b -> i_bh b = i_bh a.
Proof. intros (H & _). exact H. Qed.

Lemma go_on_fixed p : 0 <= p_max_alloc p -> forall cs s rs r, sound p s -> is_fixed (i_bh s) = true ->
  go_on (xrd_call p) (fresh s) cs = Ok (rs, r) -> forall x, In (Throw x) rs -> x = EIO.
Proof.
  intros HA. induction cs as [|c cs IH]; intros s rs r S0 Fx K x Hx; cbn [go_on] in K.
  - injection K as <- <-. destruct Hx.
  - pose proof (call_agree p c s S0) as A. destruct (rd_call p c s) as [[a s1]|y|] eqn:E; cbn [agree] in A.
    + destruct A as [A L]. rewrite A in K. destruct (go_on (xrd_call p) (fresh s1) cs) as [[rs' r']|y|] eqn:E2; cbn [bind] in K; [|discriminate..].
      injection K as <- <-. destruct Hx as [Hx|Hx]; [discriminate|].
      refine (IH s1 rs' r' (like_sound _ _ _ L) _ E2 x Hx). rewrite (like_bh _ _ _ L). exact Fx.
    + destruct A as (r' & A & L & F). rewrite A in K. destruct (go_on (xrd_call p) r' cs) as [[rs' r2]|z|] eqn:E2; cbn [bind] in K; [|discriminate..].
      injection K as <- <-. pose proof (fixed_throw _ _ _ _ S0 Fx E) as ->. destruct Hx as [Hx|Hx]; [congruence|].
      destruct (go_on_dead p HA cs r' rs' r2 (proj1 F eq_refl) E2) as [-> _]. apply repeat_spec in Hx. congruence.
    + destruct (xrd_call p c (fresh s)) as [o r']. cbn [fst] in A. subst o. discriminate.
Qed.

(** For every file: after the exception of a failed stream comes nothing else.
    A state is reachable if it is failed or sound. *)
Definition alive (p : platform) (r : reader) : Prop := dead r \/ sound p (x_i r).

Lemma alive_case p r : alive p r -> dead r \/ (r = fresh (x_i r) /\ sound p (x_i r)).
Proof. intros [H|H]; [auto|]. destruct r as [i [|]]; [left; reflexivity|right; split; [reflexivity|exact H]]. Qed.

Lemma call_alive p c r o r1 : 0 <= p_max_alloc p -> alive p r -> xrd_call p c r = (o, r1) -> o <> UB ->
  alive p r1 /\ (o = Throw EIO -> dead r1).
Proof.
  intros HA H E N. destruct (alive_case p r H) as [D|[Er S0]].
  - destruct (call_dead p c r _ _ HA D E) as [K _]. split; [left|intros _]; exact (kept_dead _ _ K).
  - pose proof (call_agree p c (x_i r) S0) as A. rewrite <- Er, E in A. destruct (rd_call p c (x_i r)) as [[a s1]|x|]; cbn [agree] in A.
    + destruct A as [A L]. injection A as -> ->. split; [right; exact (like_sound _ _ _ L)|discriminate].
    + destruct A as (r' & A & L & F). injection A as -> ->. split; [right; exact (like_sound _ _ _ L)|]. intros Q. injection Q as ->. exact (proj1 F eq_refl).
    + contradiction.
Qed.

Lemma go_on_stop p : 0 <= p_max_alloc p -> forall cs r rs r1, alive p r -> go_on (xrd_call p) r cs = Ok (rs, r1) ->
  forall i j x, nth_error rs i = Some (Throw EIO) -> (i <= j)%nat -> nth_error rs j = Some x -> x = Throw EIO.
Proof.
  intros HA. induction cs as [|c cs IH]; intros r rs r1 H K i j x Hi Hij Hj; cbn [go_on] in K.
  - injection K as <- <-. destruct i; discriminate.
  - destruct (xrd_call p c r) as [o r2] eqn:E.
    assert (N : o <> UB) by (destruct o; [discriminate..|discriminate K]).
    destruct (call_alive p c r o r2 HA H E N) as [H2 D].
    assert (Q : exists rs' r3, go_on (xrd_call p) r2 cs = Ok (rs', r3) /\ rs = o :: rs' /\ r3 = r1).
    { destruct o as [a|y|]; [| |congruence]; (destruct (go_on (xrd_call p) r2 cs) as [[rs' r3]|z|]; cbn [bind] in K; [|discriminate..];
        injection K as <- <-; exists rs', r3; auto). }
    destruct Q as (rs' & r3 & E2 & -> & ->). destruct i as [|i].
    + cbn [nth_error] in Hi. injection Hi as ->. destruct (go_on_dead p HA cs r2 rs' r1 (D eq_refl) E2) as [-> _].
      destruct j as [|j]; cbn [nth_error] in Hj; [congruence|]. apply nth_error_In in Hj. exact (repeat_spec _ _ _ Hj).
    + destruct j as [|j]; [lia|]. cbn [nth_error] in Hi, Hj. refine (IH r2 rs' r1 H2 E2 i j x Hi _ Hj). lia.
Qed.
