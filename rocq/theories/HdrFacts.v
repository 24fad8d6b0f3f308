(** Lemmas about trace headers as maps (C34). *)
From Verif Require Import BaseFacts TraceHdr.

Lemma hget_hset_same h k v : hget (hset h k v) k = Some v.
Proof.
  induction h as [|[k' v'] h IH]; cbn [hset hget].
  - rewrite String.eqb_refl. reflexivity.
  - destruct (String.eqb_spec k k') as [E|E]; cbn [hget].
    + subst. rewrite String.eqb_refl. reflexivity.
    + apply String.eqb_neq in E. rewrite E. exact IH.
Qed.

Lemma hget_hset_other h k k2 v : k2 <> k -> hget (hset h k v) k2 = hget h k2.
Proof.
  intros N. induction h as [|[k' v'] h IH]; cbn [hset hget].
  - apply String.eqb_neq in N. rewrite N. reflexivity.
  - destruct (String.eqb_spec k k') as [E|E]; cbn [hget].
    + subst. apply String.eqb_neq in N. rewrite N. reflexivity.
    + destruct (String.eqb k2 k'); [reflexivity|exact IH].
Qed.

Lemma hkeys_hset h k v : hkeys (hset h k v) = hkeys h \/
  (hkeys (hset h k v) = hkeys h ++ [k] /\ ~ In k (hkeys h)).
Proof.
  induction h as [|[k' v'] h IH]; cbn [hset hkeys map fst].
  - right. split; [reflexivity|intros []].
  - destruct (String.eqb_spec k k') as [E|E]; cbn [hkeys map fst]; [left; reflexivity|].
    destruct IH as [IH|[IH1 IH2]]; fold (hkeys (hset h k v)); fold (hkeys h).
    + left. rewrite IH. reflexivity.
    + right. rewrite IH1. split; [reflexivity|]. intros [K|K]; [congruence|apply IH2, K].
Qed.

Lemma hkeys_nodup h k v : NoDup (hkeys h) -> NoDup (hkeys (hset h k v)).
Proof.
  intros H. destruct (hkeys_hset h k v) as [E|[E N]]; rewrite E; [exact H|].
  clear E. induction (hkeys h) as [|x l IH]; cbn [app].
  - constructor; [intros []|constructor].
  - inversion H; subst. constructor.
    + rewrite in_app_iff. intros [K|[K|[]]]; [contradiction|]. subst. apply N. left; reflexivity.
    + apply IH; auto. intros K. apply N. right; exact K.
Qed.

Lemma hkeys_get h k : In k (hkeys h) <-> exists v, hget h k = Some v.
Proof.
  induction h as [|[k' v'] h IH]; cbn [hkeys map fst hget].
  - split; [intros []|intros (v & H); discriminate].
  - fold (hkeys h). destruct (String.eqb_spec k k') as [E|E].
    + subst. split; [intros _; eexists; reflexivity|intros _; left; reflexivity].
    + rewrite <- IH. cbn [In]. split; [intros [K|K]; [congruence|exact K]|intros K; right; exact K].
Qed.
