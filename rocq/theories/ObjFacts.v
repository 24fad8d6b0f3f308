(** Lemmas for C35: every reachable memory represents a store of values. *)
From Verif Require Import BaseFacts TraceHdr Objects ObjSpec.

Lemma load_lt : forall A (l : list (option A)) a v, load l a = Ok v -> (a < List.length l)%nat.
Proof.
  intros A l a v H. unfold load in H. destruct (nth_error l a) eqn:E; [|discriminate].
  apply nth_error_Some. rewrite E. discriminate.
Qed.

Lemma load_store : forall A (l : list (option A)) a v b, (a < List.length l)%nat ->
  load (store l a v) b = if Nat.eqb a b then match v with Some w => Ok w | None => UB end else load l b.
Proof.
  intros A l a v b L. unfold load, store.
  assert (Lf : List.length (firstn a l) = a) by (rewrite firstn_length; lia).
  destruct (Nat.eqb_spec a b) as [->|N].
  - rewrite nth_error_app2 by lia. rewrite Lf, Nat.sub_diag. cbn. destruct v; reflexivity.
  - destruct (Nat.lt_ge_cases b a) as [H|H].
    + rewrite nth_error_app1 by lia.
      rewrite <- (firstn_skipn a l) at 2. rewrite nth_error_app1 by lia. reflexivity.
    + rewrite nth_error_app2 by lia. rewrite Lf. destruct (b - a)%nat as [|k] eqn:Ek; [lia|]. cbn [nth_error].
      replace b with (S a + k)%nat by lia.
      rewrite <- (firstn_skipn (S a) l) at 2.
      rewrite nth_error_app2 by (rewrite firstn_length; lia).
      replace (S a + k - List.length (firstn (S a) l))%nat with k by (rewrite firstn_length; lia). reflexivity.
Qed.

Lemma load_app : forall A (l : list (option A)) a v x, load l a = Ok v -> load (l ++ x) a = Ok v.
Proof.
  intros A l a v x H. unfold load in *. rewrite nth_error_app1; [exact H|].
  apply nth_error_Some. destruct (nth_error l a); discriminate.
Qed.

Lemma load_new : forall A (l : list (option A)) v, load (l ++ [Some v]) (List.length l) = Ok v.
Proof. intros. unfold load. rewrite nth_error_app2, Nat.sub_diag by lia. reflexivity. Qed.

Lemma store_length : forall A (l : list (option A)) a v, (a < List.length l)%nat ->
  List.length (store l a v) = List.length l.
Proof.
  intros A l a v L. unfold store. rewrite app_length, firstn_length. cbn [List.length]. rewrite skipn_length. lia.
Qed.

(** Everything allocated in [h] is unchanged in [h']. *)
Definition extends (h h' : heap) : Prop :=
  (forall a v, ld_h h a = Ok v -> ld_h h' a = Ok v) /\ (forall a v, ld_t h a = Ok v -> ld_t h' a = Ok v).
Definition fresh {A} (l : list (option A)) (a : addr) : Prop := (List.length l <= a)%nat.

Lemma fresh_not : forall A (l : list (option A)) a v, fresh l a -> load l a <> Ok v.
Proof. intros A l a v F H. apply load_lt in H. unfold fresh in F. lia. Qed.

Definition inv (s : mem) (st : vstore) : Prop :=
  (forall r r' a, resolve s r = Ok a -> resolve s r' = Ok a -> r = r') /\
  (forall x y a, trace_of s x = Ok a -> trace_of s y = Ok a -> x = y) /\
  (forall x, match st x with
             | None => env_get (m_env s) x = None
             | Some (v, None) => exists a, env_get (m_env s) x = Some (OHeader a) /\ ld_h (m_heap s) a = Ok v
             | Some (v, Some smp) => exists a ha, env_get (m_env s) x = Some (OTrace a) /\
                 ld_t (m_heap s) a = Ok (ha, smp) /\ ld_h (m_heap s) ha = Ok v
             end).

Lemma inv_ext : forall s st st', inv s st -> (forall x, st x = st' x) -> inv s st'.
Proof.
  intros s st st' (A & B & C) E. split; [exact A|]. split; [exact B|]. intros x. rewrite <- E. apply C.
Qed.

Lemma inv_href : forall s st r v, inv s st -> vhdr st r = Some v ->
  exists a, resolve s r = Ok a /\ ld_h (m_heap s) a = Ok v.
Proof.
  intros s st r v (_ & _ & C) H. destruct r as [x|x]; cbn [vhdr resolve] in *; specialize (C x);
    destruct (st x) as [[w [smp|]]|]; try discriminate; injection H as <-.
  - destruct C as (a & E & L). exists a. rewrite E. auto.
  - destruct C as (a & ha & E & L & L2). exists ha. rewrite E, L. auto.
Qed.

Lemma inv_alive : forall s st r a, inv s st -> resolve s r = Ok a -> exists v, ld_h (m_heap s) a = Ok v /\ vhdr st r = Some v.
Proof.
  intros s st r a (_ & _ & C) H. destruct r as [x|x]; cbn [resolve vhdr] in *; specialize (C x).
  - destruct (env_get (m_env s) x) as [[b|b]|]; try discriminate. injection H as ->.
    destruct (st x) as [[w [smp|]]|].
    + destruct C as (? & ? & C & _). discriminate.
    + destruct C as (b & C & L). injection C as <-. eauto.
    + discriminate.
  - destruct (env_get (m_env s) x) as [[b|b]|]; try discriminate.
    destruct (st x) as [[w [smp|]]|].
    + destruct C as (c & hc & C & L & L2). injection C as <-. rewrite L in H. cbn [bind] in H. injection H as <-. eauto.
    + destruct C as (? & C & _). discriminate.
    + discriminate.
Qed.

Lemma inv_trace : forall s st x v smp, inv s st -> st x = Some (v, Some smp) ->
  exists a ha, trace_of s x = Ok a /\ ld_t (m_heap s) a = Ok (ha, smp) /\ ld_h (m_heap s) ha = Ok v /\
    resolve s (ROf x) = Ok ha.
Proof.
  intros s st x v smp (_ & _ & C) H. specialize (C x). rewrite H in C. destruct C as (a & ha & E & L & L2).
  exists a, ha. unfold trace_of. cbn [resolve]. rewrite E, L. auto.
Qed.

(** Replacing the contents of the header a reference denotes. *)
Lemma write_header : forall s st r a v, inv s st -> resolve s r = Ok a ->
  inv (with_heap s (st_h (m_heap s) a v)) (vput st r v).
Proof.
  intros s st r a v I R. pose proof I as (A & B & C).
  destruct (inv_alive _ _ _ _ I R) as (w & L & Hw).
  assert (La : (a < List.length (hcells (m_heap s)))%nat) by exact (load_lt _ _ _ _ L).
  split; [exact A|]. split; [exact B|]. intros x. cbn [m_env m_heap with_heap].
  assert (Old : forall b, b <> a -> ld_h (st_h (m_heap s) a v) b = ld_h (m_heap s) b).
  { intros b N. unfold ld_h, st_h. cbn [hcells]. rewrite load_store by exact La.
    destruct (Nat.eqb_spec a b); [congruence|reflexivity]. }
  assert (New : ld_h (st_h (m_heap s) a v) a = Ok v).
  { unfold ld_h, st_h. cbn [hcells]. rewrite load_store by exact La. rewrite Nat.eqb_refl. reflexivity. }
  unfold vput. destruct (st (rname r)) as [[w0 sm]|] eqn:Er.
  2: { destruct r; cbn [vhdr rname] in *; rewrite Er in Hw; discriminate. }
  unfold vset. destruct (Nat.eqb_spec (rname r) x) as [<-|N].
  - specialize (C (rname r)). rewrite Er in C. destruct r as [x|x]; cbn [rname vhdr resolve] in *; rewrite Er in Hw.
    + destruct sm; [discriminate|]. destruct C as (b & E & Lb). rewrite E in R. injection R as ->. exists a. auto.
    + destruct sm as [sm|]; [|discriminate]. destruct C as (b & hb & E & Lt & Lb). rewrite E, Lt in R. cbn [bind] in R.
      injection R as ->. exists b, a. auto.
  - specialize (C x). destruct (st x) as [[u [smp|]]|] eqn:Ex; [| |exact C].
    + destruct C as (b & hb & E & Lt & Lb). exists b, hb. split; [exact E|]. split; [exact Lt|].
      rewrite Old; [exact Lb|]. intros ->. apply N.
      assert (R2 : resolve s (ROf x) = Ok a) by (cbn [resolve]; rewrite E, Lt; reflexivity).
      rewrite (A _ _ _ R R2). reflexivity.
    + destruct C as (b & E & Lb). exists b. split; [exact E|]. rewrite Old; [exact Lb|]. intros ->. apply N.
      assert (R2 : resolve s (RVar x) = Ok a) by (cbn [resolve]; rewrite E; reflexivity).
      rewrite (A _ _ _ R R2). reflexivity.
Qed.

(** Replacing the samples of a trace. *)
Lemma write_samples : forall s st x a ha smp0 v smp, inv s st -> trace_of s x = Ok a ->
  ld_t (m_heap s) a = Ok (ha, smp0) -> st x = Some (v, Some smp0) ->
  inv (with_heap s (st_t (m_heap s) a (ha, smp))) (vset st x (Some (v, Some smp))).
Proof.
  intros s st x a ha smp0 v smp I T L Ex. pose proof I as (A & B & C).
  assert (La : (a < List.length (tcells (m_heap s)))%nat) by exact (load_lt _ _ _ _ L).
  assert (Ld : forall b, ld_t (st_t (m_heap s) a (ha, smp)) b = if Nat.eqb a b then Ok (ha, smp) else ld_t (m_heap s) b).
  { intros b. unfold ld_t, st_t. cbn [tcells]. rewrite load_store by exact La. reflexivity. }
  assert (Rs : forall r, resolve (with_heap s (st_t (m_heap s) a (ha, smp))) r = resolve s r).
  { intros [y|y]; cbn [resolve with_heap m_env m_heap]; [reflexivity|].
    destruct (env_get (m_env s) y) as [[b|b]|]; try reflexivity. rewrite Ld.
    destruct (Nat.eqb_spec a b) as [<-|N]; [|reflexivity]. rewrite L. reflexivity. }
  split; [intros r r' b; rewrite !Rs; apply A|]. split; [exact B|].
  intros y. cbn [m_env m_heap with_heap]. unfold vset. destruct (Nat.eqb_spec x y) as [<-|N].
  - specialize (C x). rewrite Ex in C. destruct C as (b & hb & E & Lt & Lb). unfold trace_of in T. rewrite E in T.
    injection T as ->. rewrite L in Lt. injection Lt as <-. exists a, ha. rewrite Ld, Nat.eqb_refl. auto.
  - specialize (C y). destruct (st y) as [[u [sm|]]|] eqn:Ey; [|exact C|exact C].
    destruct C as (b & hb & E & Lt & Lb). exists b, hb. split; [exact E|]. rewrite Ld.
    destruct (Nat.eqb_spec a b) as [<-|Nb]; [|auto]. exfalso. apply N. apply (B x y a T). unfold trace_of. rewrite E. reflexivity.
Qed.

Lemma resolve_ext : forall s h x o r, extends (m_heap s) h -> rname r <> x ->
  forall a, resolve s r = Ok a -> resolve (mkMem h ((x, o) :: m_env s)) r = Ok a.
Proof.
  intros s h x o r [X Y] N a R. destruct r as [y|y]; cbn [resolve rname m_env m_heap env_get] in *;
    (destruct (Nat.eqb_spec y x); [contradiction|]).
  - exact R.
  - destruct (env_get (m_env s) y) as [[b|b]|]; try discriminate.
    destruct (ld_t (m_heap s) b) as [[hb sm]| |] eqn:E; try discriminate. rewrite (Y _ _ E). exact R.
Qed.

Lemma resolve_back : forall s st h x o r a, inv s st -> extends (m_heap s) h -> rname r <> x ->
  resolve (mkMem h ((x, o) :: m_env s)) r = Ok a -> resolve s r = Ok a.
Proof.
  intros s st h x o r a (_ & _ & C) [X Y] N R. destruct r as [y|y]; cbn [resolve rname m_env m_heap env_get] in *;
    (destruct (Nat.eqb_spec y x); [contradiction|]).
  - exact R.
  - specialize (C y). destruct (env_get (m_env s) y) as [[b|b]|]; try discriminate.
    destruct (st y) as [[u [sm|]]|]; [|destruct C as (? & C & _); discriminate|discriminate].
    destruct C as (c & hc & E & Lt & _). injection E as <-. rewrite Lt. rewrite (Y _ _ Lt) in R. exact R.
Qed.

(** A new object with its own implementation. *)
Lemma declare_ok : forall s st x h o v, inv s st -> st x = None -> extends (m_heap s) h ->
  (match o with
   | OHeader a => snd v = None /\ fresh (hcells (m_heap s)) a /\ ld_h h a = Ok (fst v)
   | OTrace a => exists ha smp, snd v = Some smp /\ fresh (hcells (m_heap s)) ha /\ fresh (tcells (m_heap s)) a /\
       ld_t h a = Ok (ha, smp) /\ ld_h h ha = Ok (fst v)
   end) ->
  exists s', declare s x h o = Ok s' /\ inv s' (vset st x (Some v)).
Proof.
  intros s st x h o v I Nx X O. pose proof I as (A & B & C).
  unfold declare. pose proof (C x) as Cx. rewrite Nx in Cx. rewrite Cx. eexists. split; [reflexivity|].
  set (s' := mkMem h ((x, o) :: m_env s)).
  assert (Old : forall r a, rname r <> x -> resolve s' r = Ok a -> resolve s r = Ok a)
    by (intros r a N R; exact (resolve_back _ _ _ _ _ _ _ I X N R)).
  assert (Own : forall r a, rname r = x -> resolve s' r = Ok a ->
            fresh (hcells (m_heap s)) a /\ r = match o with OHeader _ => RVar x | OTrace _ => ROf x end).
  { intros r a N R. destruct r as [y|y]; cbn [rname] in N; subst y; cbn [resolve s' m_env m_heap env_get] in R; rewrite Nat.eqb_refl in R;
      destruct o as [b|b]; try discriminate.
    - injection R as <-. split; [apply O|reflexivity].
    - destruct O as (ha & smp & _ & Fh & _ & Lt & _). rewrite Lt in R. injection R as <-. split; [exact Fh|reflexivity]. }
  assert (Ndj : forall r a, rname r <> x -> resolve s' r = Ok a -> fresh (hcells (m_heap s)) a -> False).
  { intros r a N R F. apply (Old _ _ N) in R. destruct (inv_alive _ _ _ _ I R) as (w & L & _). exact (fresh_not _ _ _ _ F L). }
  split; [|split].
  - intros r r' a R R'. destruct (Nat.eq_dec (rname r) x) as [E|E], (Nat.eq_dec (rname r') x) as [E'|E'].
    + destruct (Own _ _ E R) as [_ ->], (Own _ _ E' R') as [_ ->]. reflexivity.
    + exfalso. apply (Ndj _ _ E' R'). apply (Own _ _ E R).
    + exfalso. apply (Ndj _ _ E R). apply (Own _ _ E' R').
    + exact (A _ _ _ (Old _ _ E R) (Old _ _ E' R')).
  - assert (Tf : forall y a, y <> x -> trace_of s' y = Ok a -> trace_of s y = Ok a /\ ~ fresh (tcells (m_heap s)) a).
    { intros y a N T. unfold trace_of in *. cbn [s' m_env env_get] in T. destruct (Nat.eqb_spec y x); [contradiction|].
      split; [exact T|]. specialize (C y). destruct (env_get (m_env s) y) as [[b|b]|]; try discriminate. injection T as ->.
      destruct (st y) as [[u [sm|]]|]; [|destruct C as (? & C & _); discriminate|discriminate].
      destruct C as (c & hc & E & Lt & _). injection E as <-. intros F. exact (fresh_not _ _ _ _ F Lt). }
    assert (Tx : forall a, trace_of s' x = Ok a -> fresh (tcells (m_heap s)) a).
    { intros a T. unfold trace_of in T. cbn [s' m_env env_get] in T. rewrite Nat.eqb_refl in T. destruct o as [b|b]; [discriminate|].
      injection T as ->. destruct O as (ha & smp & _ & _ & F & _). exact F. }
    intros y z a Y Z. destruct (Nat.eq_dec y x) as [->|Ny], (Nat.eq_dec z x) as [->|Nz].
    + reflexivity.
    + exfalso. apply (Tf _ _ Nz Z). apply Tx, Y.
    + exfalso. apply (Tf _ _ Ny Y). apply Tx, Z.
    + apply (B _ _ a); [apply Tf|apply Tf]; assumption.
  - intros y. cbn [s' m_env m_heap env_get]. unfold vset. rewrite (Nat.eqb_sym y x). destruct (Nat.eqb_spec x y) as [<-|N].
    + destruct v as [v sm]. cbn [fst snd] in O. destruct o as [b|b].
      * destruct O as (-> & _ & L). exists b. auto.
      * destruct O as (ha & smp & -> & _ & _ & Lt & L). exists b, ha. auto.
    + specialize (C y). destruct X as [X Y]. destruct (st y) as [[u [sm|]]|]; [| |exact C].
      * destruct C as (b & hb & E & Lt & Lb). exists b, hb. auto.
      * destruct C as (b & E & Lb). exists b. auto.
Qed.

Lemma new_h_ext : forall h v, extends h (snd (new_h h v)) /\ fresh (hcells h) (fst (new_h h v)) /\ ld_h (snd (new_h h v)) (fst (new_h h v)) = Ok v.
Proof.
  intros [hc tc] v. unfold new_h, extends, ld_h, ld_t, fresh. cbn [fst snd hcells tcells]. split; [|split; [lia|apply load_new]].
  split; [|auto]. intros a w. apply load_app.
Qed.

Lemma trace_new_ext : forall h v smp, exists b h' ha, trace_new h v smp = (b, h') /\ extends h h' /\
  fresh (hcells h) ha /\ fresh (tcells h) b /\ ld_t h' b = Ok (ha, smp) /\ ld_h h' ha = Ok v.
Proof.
  intros [hc tc] v smp. unfold trace_new, new_h, new_t. cbn [hcells tcells].
  do 3 eexists. split; [reflexivity|]. unfold extends, ld_h, ld_t, fresh. cbn [hcells tcells].
  split; [split; intros a w; apply load_app|]. split; [apply le_n|]. split; [apply le_n|]. split; apply load_new.
Qed.

Lemma trace_impl_ext : forall m h v smp, exists b h' ha,
  trace_impl m (snd (new_h h v)) (fst (new_h h v)) smp = Ok (b, h') /\ extends h h' /\
  fresh (hcells h) ha /\ fresh (tcells h) b /\ ld_t h' b = Ok (ha, smp) /\ ld_h h' ha = Ok v.
Proof.
  intros m [hc tc] v smp. unfold new_h. cbn [fst snd hcells tcells].
  unfold trace_impl, header_move, ld_h. cbn [hcells]. rewrite load_new. cbn [bind].
  assert (L1 : (List.length hc < List.length (hc ++ [Some v]))%nat) by (rewrite app_length; cbn; lia).
  unfold st_h, new_h, free_h, new_t. cbn [hcells tcells].
  do 2 eexists. exists (S (List.length hc)). split; [reflexivity|]. unfold extends, ld_h, ld_t, fresh. cbn [hcells tcells].
  set (hc1 := store (hc ++ [Some v]) (List.length hc) (Some (left_map m [] v))).
  assert (L2 : List.length hc1 = S (List.length hc)).
  { unfold hc1. rewrite store_length by exact L1. rewrite app_length. cbn. lia. }
  assert (L3 : (List.length hc < List.length (hc1 ++ [Some v]))%nat) by (rewrite app_length; lia).
  split; [split|split; [|split; [|split]]].
  - intros a w H. rewrite load_store by exact L3. pose proof (load_lt _ _ _ _ H).
    destruct (Nat.eqb_spec (List.length hc) a); [lia|]. apply load_app. unfold hc1. rewrite load_store by exact L1.
    destruct (Nat.eqb_spec (List.length hc) a); [lia|]. apply load_app, H.
  - intros a w H. apply load_app, H.
  - lia.
  - apply le_n.
  - rewrite <- L2. apply load_new.
  - rewrite load_store by exact L3. destruct (Nat.eqb_spec (List.length hc) (S (List.length hc))); [lia|].
    rewrite <- L2. apply load_new.
Qed.

Lemma href_eqb_spec : forall a b, reflect (a = b) (href_eqb a b).
Proof.
  intros [x|x] [y|y]; cbn [href_eqb]; try (constructor; congruence);
    (destruct (Nat.eqb_spec x y); constructor; congruence).
Qed.

Lemma vhdr_put : forall st r v r', r <> r' -> vhdr (vput st r' v) r = vhdr st r \/ vhdr st r' = None.
Proof.
  intros st r v r' N. unfold vput. destruct (st (rname r')) as [[w sm]|] eqn:E; [|right; destruct r'; cbn in *; rewrite E; reflexivity].
  destruct r as [x|x], r' as [y|y]; cbn [vhdr rname] in *; unfold vset; try rewrite E; destruct (Nat.eqb_spec y x) as [->|]; auto; try congruence;
    rewrite E; destruct sm; auto.
Qed.

Lemma vhdr_some : forall st r v, vhdr st r = Some v -> exists sm, st (rname r) = Some (v, sm).
Proof.
  intros st [x|x] v H; cbn [vhdr rname] in *; destruct (st x) as [[w [sm|]]|]; try discriminate; injection H as <-; eauto.
Qed.

Lemma vset_set : forall st x a b y, vset (vset st x a) x b y = vset st x b y.
Proof. intros. unfold vset. destruct (Nat.eqb x y); reflexivity. Qed.

(** Assigning the samples and the header of one trace. *)
Lemma write_trace_cells : forall s st x a ha v0 smp0 v smp, inv s st -> st x = Some (v0, Some smp0) -> trace_of s x = Ok a ->
  ld_t (m_heap s) a = Ok (ha, smp0) -> resolve s (ROf x) = Ok ha ->
  inv (with_heap s (st_t (st_h (m_heap s) ha v) a (ha, smp))) (vset st x (Some (v, Some smp))).
Proof.
  intros s st x a ha v0 smp0 v smp I E T L R.
  pose proof (write_header _ _ _ _ v I R) as I1. unfold vput in I1. cbn [rname] in I1. rewrite E in I1.
  assert (E1 : vset st x (Some (v, Some smp0)) x = Some (v, Some smp0)) by (unfold vset; rewrite Nat.eqb_refl; reflexivity).
  pose proof (write_samples _ _ x a ha smp0 v smp I1 T L E1) as I2.
  apply (inv_ext _ _ _ I2). intros y. apply vset_set.
Qed.

Lemma st_h_same : forall h a v, ld_h h a = Ok v -> st_h h a v = h.
Proof.
  intros [hc tc] a v H. unfold ld_h, st_h, load, store in *. cbn [hcells tcells] in *. f_equal.
  revert a H. induction hc as [|c hc IH]; intros [|a] H; cbn in *; try discriminate.
  - destruct c; [|discriminate]. congruence.
  - f_equal. apply IH, H.
Qed.

Lemma env_drop_get : forall e x y, env_get (env_drop e x) y = if Nat.eqb x y then None else env_get e y.
Proof.
  induction e as [|[z o] e IH]; intros x y; [cbn; destruct (Nat.eqb x y); reflexivity|].
  cbn [env_drop filter fst]. change (filter (fun b => negb (Nat.eqb x (fst b))) e) with (env_drop e x).
  destruct (Nat.eqb_spec x z) as [<-|N]; cbn [negb env_get].
  - rewrite IH. destruct (Nat.eqb_spec x y) as [<-|M]; [reflexivity|]. destruct (Nat.eqb_spec y x); [congruence|reflexivity].
  - rewrite IH. destruct (Nat.eqb_spec y z) as [->|M]; [|reflexivity]. destruct (Nat.eqb_spec x z); [congruence|reflexivity].
Qed.

Lemma destroy_ok : forall m s st x v, inv s st -> st x = Some v ->
  exists s', exec m s (Destroy x) = Ok s' /\ inv s' (vset st x None).
Proof.
  intros m s st x [v sm] I Ex. pose proof I as (A & B & C). cbn [exec].
  (* the cells of the other objects survive *)
  assert (K : forall h', (forall r a w, rname r <> x -> resolve s r = Ok a -> ld_h (m_heap s) a = Ok w -> ld_h h' a = Ok w) ->
            (forall y a w, y <> x -> trace_of s y = Ok a -> ld_t (m_heap s) a = Ok w -> ld_t h' a = Ok w) ->
            inv (mkMem h' (env_drop (m_env s) x)) (vset st x None)).
  { intros h' Kh Kt.
    assert (G : forall y, y <> x -> env_get (env_drop (m_env s) x) y = env_get (m_env s) y).
    { intros y N. rewrite env_drop_get. destruct (Nat.eqb_spec x y); [congruence|reflexivity]. }
    assert (Rs : forall r a, resolve (mkMem h' (env_drop (m_env s) x)) r = Ok a -> rname r <> x /\ resolve s r = Ok a).
    { intros r a R. destruct (Nat.eq_dec (rname r) x) as [E|N].
      - destruct r as [y|y]; cbn [rname] in E; subst y; cbn [resolve m_env] in R; rewrite env_drop_get, Nat.eqb_refl in R; discriminate.
      - split; [exact N|]. destruct r as [y|y]; cbn [rname resolve m_env m_heap] in *; rewrite G in R by exact N; [exact R|].
        pose proof (C y) as Cy. pose proof (Kt y) as Ky. unfold trace_of in Ky.
        destruct (env_get (m_env s) y) as [[b|b]|]; try discriminate.
        destruct (st y) as [[u [sy|]]|]; [|destruct Cy as (? & Cy & _); discriminate|discriminate].
        destruct Cy as (c & hc & Ec & Lt & _). injection Ec as <-. rewrite (Ky b _ N eq_refl Lt) in R. rewrite Lt. exact R. }
    assert (Ts : forall y a, trace_of (mkMem h' (env_drop (m_env s) x)) y = Ok a -> trace_of s y = Ok a).
    { intros y a. unfold trace_of. cbn [m_env]. rewrite env_drop_get. destruct (Nat.eqb x y); [discriminate|auto]. }
    split; [|split].
    - intros r r' a R R'. apply Rs in R, R'. eapply A; [apply R|apply R'].
    - intros y z a Y Z. eapply B; [apply Ts, Y|apply Ts, Z].
    - intros y. cbn [m_env m_heap]. unfold vset. rewrite env_drop_get. destruct (Nat.eqb_spec x y) as [<-|N]; [reflexivity|].
      pose proof (C y) as Cy. destruct (st y) as [[u [sy|]]|]; [| |exact Cy].
      + destruct Cy as (b & hb & E & Lt & Lb). exists b, hb. split; [exact E|]. split.
        * apply (Kt y); auto. unfold trace_of. rewrite E. reflexivity.
        * apply (Kh (ROf y)); cbn [rname]; auto. cbn [resolve]. rewrite E, Lt. reflexivity.
      + destruct Cy as (b & E & Lb). exists b. split; [exact E|]. apply (Kh (RVar y)); cbn [rname]; auto. cbn [resolve]. rewrite E. reflexivity. }
  pose proof (C x) as Cx. rewrite Ex in Cx. destruct sm as [smp|].
  - destruct Cx as (a & ha & E & Lt & Lh). rewrite E, Lt. cbn [bind]. rewrite Lh. cbn [bind]. eexists. split; [reflexivity|].
    apply K.
    + intros r b w N R L. unfold ld_h, free_t, free_h. cbn [hcells]. rewrite load_store by exact (load_lt _ _ _ _ Lh).
      destruct (Nat.eqb_spec ha b) as [<-|]; [|exact L]. exfalso. apply N.
      assert (R2 : resolve s (ROf x) = Ok ha) by (cbn [resolve]; rewrite E, Lt; reflexivity).
      rewrite (A _ _ _ R R2). reflexivity.
    + intros y b w N T L. unfold ld_t, free_t, free_h. cbn [tcells]. rewrite load_store by exact (load_lt _ _ _ _ Lt).
      destruct (Nat.eqb_spec a b) as [<-|]; [|exact L]. exfalso. apply N. apply (B _ _ a T). unfold trace_of. rewrite E. reflexivity.
  - destruct Cx as (a & E & Lh). rewrite E, Lh. cbn [bind]. eexists. split; [reflexivity|]. apply K.
    + intros r b w N R L. unfold ld_h, free_h. cbn [hcells]. rewrite load_store by exact (load_lt _ _ _ _ Lh).
      destruct (Nat.eqb_spec a b) as [<-|]; [|exact L]. exfalso. apply N.
      assert (R2 : resolve s (RVar x) = Ok a) by (cbn [resolve]; rewrite E; reflexivity).
      rewrite (A _ _ _ R R2). reflexivity.
    + intros y b w N T L. exact L.
Qed.

Lemma step_ok : forall m s st c st', inv s st -> vstep m st c = Some st' ->
  exists s', exec m s c = Ok s' /\ inv s' st'.
Proof.
  intros m s st c st' I V. destruct c; cbn [vstep] in V; unfold vdecl in V.
  - (* NewHeader *)
    destruct (st x) eqn:Ex; [discriminate|]. injection V as <-. cbn [exec].
    destruct (new_h_ext (m_heap s) v) as (X & F & L). destruct (new_h (m_heap s) v) as [a h]. cbn [fst snd] in *.
    apply (declare_ok s st x h (OHeader a) (v, None) I Ex X). cbn [fst snd]. auto.
  - (* CopyHeader *)
    destruct (vhdr st r) as [v|] eqn:Er; [|discriminate]. destruct (st x) eqn:Ex; [discriminate|]. injection V as <-. cbn [exec].
    destruct (inv_href _ _ _ _ I Er) as (a & R & L). rewrite R. cbn [bind]. unfold header_copy. rewrite L. cbn [bind].
    destruct (new_h_ext (m_heap s) v) as (X & F & L2). destruct (new_h (m_heap s) v) as [b h]. cbn [fst snd] in *.
    apply (declare_ok s st x h (OHeader b) (v, None) I Ex X). cbn [fst snd]. auto.
  - (* MoveHeader *)
    destruct (vhdr st r) as [v|] eqn:Er; [|discriminate].
    destruct (vput st r (left_map m [] v) x) eqn:Ex; [discriminate|]. injection V as <-. cbn [exec].
    destruct (inv_href _ _ _ _ I Er) as (a & R & L). rewrite R. cbn [bind]. unfold header_move. rewrite L. cbn [bind].
    pose proof (write_header _ _ _ _ (left_map m [] v) I R) as I1.
    set (h1 := st_h (m_heap s) a (left_map m [] v)) in *.
    destruct (new_h_ext h1 v) as (X & F & L2). destruct (new_h h1 v) as [b h]. cbn [fst snd] in *.
    apply (declare_ok (with_heap s h1) _ x h (OHeader b) (v, None) I1 Ex X). cbn [fst snd]. auto.
  - (* AssignHeader *)
    destruct (vhdr st d) as [w|] eqn:Ed; [|discriminate]. destruct (vhdr st s0) as [v|] eqn:Er; [|discriminate]. injection V as <-.
    destruct (inv_href _ _ _ _ I Ed) as (a & R & L), (inv_href _ _ _ _ I Er) as (b & R2 & L2).
    cbn [exec]. rewrite R, R2. cbn [bind]. unfold header_assign. destruct (href_eqb_spec d s0) as [<-|N]; cbn [bind].
    + eexists. split; [reflexivity|].
      assert (w = v) by congruence. subst v. destruct s as [h e]. unfold with_heap. cbn [m_heap m_env] in *.
      apply (inv_ext _ _ _ I). intros x. destruct (vhdr_some _ _ _ Ed) as (sm & E). unfold vput. rewrite E. unfold vset.
      destruct (Nat.eqb_spec (rname d) x) as [<-|]; [exact E|reflexivity].
    + rewrite L2. cbn [bind]. rewrite L. cbn [bind]. eexists. split; [reflexivity|]. apply write_header; assumption.
  - (* MoveAssignHeader *)
    destruct (vhdr st d) as [w|] eqn:Ed; [|discriminate]. destruct (vhdr st s0) as [v|] eqn:Er; [|discriminate].
    destruct (inv_href _ _ _ _ I Ed) as (a & R & L), (inv_href _ _ _ _ I Er) as (b & R2 & L2).
    cbn [exec]. rewrite R, R2. cbn [bind]. unfold header_move_assign. destruct (href_eqb_spec d s0) as [<-|N]; cbn [bind]; injection V as <-.
    + eexists. split; [reflexivity|]. destruct s. exact I.
    + rewrite L2. cbn [bind]. rewrite L. cbn [bind]. eexists. split; [reflexivity|].
      pose proof (write_header _ _ _ _ (left_map m w v) I R2) as I1.
      exact (write_header (with_heap s (st_h (m_heap s) b (left_map m w v))) _ d a v I1 R).
  - (* SetHeader *)
    destruct (vhdr st r) as [w|] eqn:Er; [|discriminate]. injection V as <-.
    destruct (inv_href _ _ _ _ I Er) as (a & R & L). cbn [exec]. rewrite R. cbn [bind]. rewrite L. cbn [bind].
    eexists. split; [reflexivity|]. apply write_header; assumption.
  - (* NewTrace *)
    destruct (st x) eqn:Ex; [discriminate|]. injection V as <-. cbn [exec].
    destruct (trace_new_ext (m_heap s) v smp) as (b & h & ha & E & X & F & F2 & Lt & Lh). rewrite E.
    apply (declare_ok s st x h (OTrace b) (v, Some smp) I Ex X). cbn [fst snd]. exists ha, smp. auto.
  - (* CopyTrace *)
    destruct (st y) as [[v [smp|]]|] eqn:Ey; try discriminate. destruct (st x) eqn:Ex; [discriminate|]. injection V as <-.
    destruct (inv_trace _ _ _ _ _ I Ey) as (a & ha & T & Lt & Lh & R). cbn [exec]. rewrite T. cbn [bind].
    unfold trace_copy. rewrite Lt. cbn [bind]. unfold header_copy. rewrite Lh. cbn [bind].
    destruct (trace_impl_ext m (m_heap s) v smp) as (b & h & hb & E & X & F & F2 & Lt2 & Lh2).
    destruct (new_h (m_heap s) v) as [tmp h1]. cbn [fst snd] in E. rewrite E. cbn [bind].
    apply (declare_ok s st x h (OTrace b) (v, Some smp) I Ex X). cbn [fst snd]. exists hb, smp. auto.
  - (* MoveTrace *)
    destruct (st y) as [[v [smp|]]|] eqn:Ey; try discriminate.
    destruct (vset st y (Some (left_map m [] v, Some (left_vec m [] smp))) x) eqn:Ex; [discriminate|]. injection V as <-.
    destruct (inv_trace _ _ _ _ _ I Ey) as (a & ha & T & Lt & Lh & R). cbn [exec]. rewrite T. cbn [bind].
    unfold trace_move. rewrite Lt. cbn [bind]. unfold header_move. rewrite Lh. cbn [bind].
    pose proof (write_trace_cells s st y a ha v smp (left_map m [] v) (left_vec m [] smp) I Ey T Lt R) as I1.
    set (h1 := st_t (st_h (m_heap s) ha (left_map m [] v)) a (ha, left_vec m [] smp)) in *.
    destruct (trace_impl_ext m h1 v smp) as (b & h & hb & E & X & F & F2 & Lt2 & Lh2).
    change (new_h (st_h (m_heap s) ha (left_map m [] v)) v) with
      (fst (new_h h1 v), mkHeap (hcells (snd (new_h h1 v))) (tcells (st_h (m_heap s) ha (left_map m [] v)))).
    cbn iota beta.
    change (st_t (mkHeap (hcells (snd (new_h h1 v))) (tcells (st_h (m_heap s) ha (left_map m [] v)))) a (ha, left_vec m [] smp))
      with (snd (new_h h1 v)).
    rewrite E. cbn [bind].
    apply (declare_ok (with_heap s h1) _ x h (OTrace b) (v, Some smp) I1 Ex X). cbn [fst snd]. exists hb, smp. auto.
  - (* AssignTrace *)
    destruct (st x) as [[w [old|]]|] eqn:Ex; try discriminate. destruct (st y) as [[v [smp|]]|] eqn:Ey; try discriminate. injection V as <-.
    destruct (inv_trace _ _ _ _ _ I Ex) as (a & ha & T & Lt & Lh & R), (inv_trace _ _ _ _ _ I Ey) as (b & hb & T2 & Lt2 & Lh2 & R2).
    cbn [exec]. rewrite T, T2. cbn [bind]. unfold trace_assign. destruct (Nat.eqb_spec x y) as [<-|N]; cbn [bind].
    + eexists. split; [reflexivity|]. assert (v = w /\ smp = old) as [-> ->] by (split; congruence).
      destruct s as [h e]. apply (inv_ext _ _ _ I). intros z. unfold vset. destruct (Nat.eqb_spec x z) as [<-|]; [exact Ex|reflexivity].
    + rewrite Lt2. cbn [bind]. rewrite Lt. cbn [bind]. unfold header_assign. rewrite Lh2. cbn [bind]. rewrite Lh. cbn [bind].
      eexists. split; [reflexivity|]. exact (write_trace_cells s st x a ha w old v smp I Ex T Lt R).
  - (* MoveAssignTrace *)
    destruct (st x) as [[w [old|]]|] eqn:Ex; try discriminate. destruct (st y) as [[v [smp|]]|] eqn:Ey; try discriminate.
    destruct (inv_trace _ _ _ _ _ I Ex) as (a & ha & T & Lt & Lh & R), (inv_trace _ _ _ _ _ I Ey) as (b & hb & T2 & Lt2 & Lh2 & R2).
    cbn [exec]. rewrite T, T2. cbn [bind]. unfold trace_move_assign. destruct (Nat.eqb_spec x y) as [<-|N]; cbn [bind]; injection V as <-.
    + eexists. split; [reflexivity|]. destruct s. exact I.
    + rewrite Lt2. cbn [bind]. rewrite Lt. cbn [bind]. unfold header_move_assign. rewrite Lh2. cbn [bind]. rewrite Lh. cbn [bind].
      eexists. split; [reflexivity|].
      pose proof (write_trace_cells s st y b hb v smp (left_map m w v) (left_vec m old smp) I Ey T2 Lt2 R2) as I1.
      set (st1 := vset st y (Some (left_map m w v, Some (left_vec m old smp)))) in *.
      assert (Ex1 : st1 x = Some (w, Some old)) by (unfold st1, vset; destruct (Nat.eqb_spec y x); [congruence|exact Ex]).
      assert (Nab : a <> b) by (intros ->; apply N; pose proof I as (_ & B & _); exact (B _ _ _ T T2)).
      set (s1 := with_heap s (st_t (st_h (m_heap s) hb (left_map m w v)) b (hb, left_vec m old smp))) in *.
      assert (Lt1 : ld_t (m_heap s1) a = Ok (ha, old)).
      { unfold s1, ld_t, st_t, st_h. cbn [with_heap m_heap tcells hcells]. rewrite load_store by exact (load_lt _ _ _ _ Lt2).
        destruct (Nat.eqb_spec b a); [congruence|exact Lt]. }
      assert (R1 : resolve s1 (ROf x) = Ok ha).
      { cbn [resolve]. assert (E : env_get (m_env s) x = Some (OTrace a)).
        { unfold trace_of in T. destruct (env_get (m_env s) x) as [[?|c]|]; try discriminate. congruence. }
        unfold s1 at 1. cbn [with_heap m_env]. rewrite E. rewrite Lt1. reflexivity. }
      exact (write_trace_cells s1 st1 x a ha w old v smp I1 Ex1 T Lt1 R1).
  - (* Destroy *)
    destruct (st x) as [v|] eqn:Ex; [|discriminate]. injection V as <-. exact (destroy_ok m s st x v I Ex).
Qed.

Lemma run_ok : forall m cs s st st', inv s st -> vrun m st cs = Some st' ->
  exists s', exec_all m s cs = Ok s' /\ inv s' st'.
Proof.
  induction cs as [|c cs IH]; intros s st st' I V; cbn [vrun exec_all] in *.
  - injection V as <-. eauto.
  - destruct (vstep m st c) as [st1|] eqn:E; [|discriminate]. destruct (step_ok _ _ _ _ _ I E) as (s1 & E1 & I1).
    rewrite E1. cbn [bind]. eapply IH; eassumption.
Qed.

Lemma inv_view : forall s st x, inv s st -> match st x with Some v => view s x = Ok v | None => env_get (m_env s) x = None end.
Proof.
  intros s st x (_ & _ & C). specialize (C x). unfold view. destruct (st x) as [[v [smp|]]|]; [| |exact C].
  - destruct C as (a & ha & -> & -> & L). cbn [bind]. rewrite L. reflexivity.
  - destruct C as (a & -> & ->). reflexivity.
Qed.

Lemma inv0 : inv mem0 (fun _ => None).
Proof. split; [|split]; [intros [x|x] r' a H; discriminate|intros x y a H; discriminate|reflexivity]. Qed.
