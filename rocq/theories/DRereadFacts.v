(** Lemmas about a SEG-D reader that goes on after an exception (C97). *)
From Coq Require Import String.
From Verif Require Import BaseFacts Platform Bcd Fp TraceHdr SegyTypes SegyCodec ISegy SegdTypes ISegd StepX ISegdX DRefuseSpec HdrFacts SegdTrcFacts RereadFacts DRereadSpec.
Local Open Scope string_scope.
Local Open Scope list_scope.
Local Open Scope Z_scope.

(** ** What never throws *)
Lemma quiet_skip n : quietp (pskip n).
Proof. intros c x. unfold pskip. destruct (Nat.leb _ _); discriminate. Qed.
Lemma quiet_peek : quietp rpeek.
Proof. intros [|b c] x; discriminate. Qed.
Lemma quiet_bcd_loop : forall n i acc, (i <= n)%nat -> quietp (from_bcd_loop i acc).
Proof.
  induction n as [|n IH]; intros i acc L.
  - destruct i; [apply quiet_ret|lia].
  - destruct i as [|[|i]]; [apply quiet_ret..|]. cbn [from_bcd_loop]. apply quiet_bind; [apply quiet_read|]. intros b. apply IH. lia.
Qed.
Lemma quiet_bcd b n : quietp (from_bcd b n).
Proof.
  intros c x. unfold from_bcd. destruct n as [|n]; [discriminate|].
  destruct (pread 1 c) as [[b0 c0]|e|] eqn:E0; [|exfalso; exact (quiet_read _ _ _ E0)|discriminate]. cbn [bind].
  match goal with |- context [from_bcd_loop ?i ?a c0] => destruct (from_bcd_loop i a c0) as [[[r i2] c1]|e|] eqn:E1 end;
    [|exfalso; exact (quiet_bcd_loop _ _ _ (le_n _) _ _ E1)|discriminate]. cbn [bind].
  assert (K : forall y, (if Nat.eqb i2 0 then Ok r else let* (b1, _) := pread 1 c1 in Ok (r * 10 + hi b1)) <> Throw y).
  { intros y. destruct (Nat.eqb i2 0); [discriminate|]. destruct (pread 1 c1) as [[b1 c2]|e|] eqn:E2; cbn [bind];
      [discriminate|exfalso; exact (quiet_read _ _ _ E2)|discriminate]. }
  destruct (if Nat.eqb i2 0 then _ else _) as [v|e|] eqn:E3; [|exfalso; exact (K _ eq_refl)|discriminate]. cbn [bind].
  match goal with |- context [pskip ?m c] => destruct (pskip m c) as [[[] c3]|e|] eqn:E4 end; cbn [bind];
    [discriminate|exfalso; exact (quiet_skip _ _ _ E4)|discriminate].
Qed.
Ltac quiet := repeat first
  [ apply quiet_ret | apply quiet_bcd | apply quiet_skip | apply quiet_peek | apply quiet_take
  | apply quiet_rd_u24 | apply quiet_rd_i24 | apply quiet_rd_u | apply quiet_rd_i
  | (apply quiet_bind; [|intros ?]) | apply quiet_map ].
Lemma quiet_gh1 : quietp rd_gh1.
Proof. unfold rd_gh1, r8. quiet. Qed.
Lemma quiet_rev : quietp rd_rev.
Proof. unfold rd_rev, r8. quiet. Qed.
Lemma quiet_gh2_rev2 p a b o : quietp (rd_gh2_rev2 p a b o).
Proof. unfold rd_gh2_rev2, r24, r16. quiet. Qed.
Lemma quiet_ghN p : quietp (rd_ghN p).
Proof. unfold rd_ghN, r24, r16, r8. quiet. Qed.
Lemma quiet_gh2_rev3 p a b o : quietp (rd_gh2_rev3 p a b o).
Proof. unfold rd_gh2_rev3, r24, r16, r32. quiet. Qed.
Lemma quiet_gh3 : quietp rd_gh3.
Proof. unfold rd_gh3, r64, r32, r8. quiet. Qed.
Lemma quiet_chset p : quietp (rd_chset p).
Proof. unfold rd_chset, r16, r8. quiet. Qed.
Lemma quiet_chset_r3 p : quietp (rd_chset_r3 p).
Proof. unfold rd_chset_r3, r32, r24, r16, r8. quiet. Qed.
Lemma quiet_bfields p : forall bs, quietp (rd_bfields p bs).
Proof.
  induction bs as [|b bs IH]; cbn [rd_bfields]; [apply quiet_ret|]. apply quiet_bind.
  - destruct b; cbn [rd_bfield]; unfold r16, r24; quiet.
  - intros v. apply quiet_bind; [exact IH|]. intros vs. apply quiet_ret.
Qed.
Lemma quiet_r3_block p m buf x : rd_r3_block p m buf <> Throw x.
Proof.
  unfold rd_r3_block, at_off. destruct (_ && _); [|discriminate]. cbn [bind].
  match goal with |- context [rpeek ?c] => destruct (rpeek c) as [[t c1]|e|] eqn:E1 end;
    [|exfalso; exact (quiet_peek _ _ E1)|discriminate]. cbn [bind].
  destruct (block_fields _) as [fs|]; [|discriminate].
  destruct (rd_bfields p fs buf) as [[vs c2]|e|] eqn:E2; [|exfalso; exact (quiet_bfields _ _ _ _ E2)|discriminate]. cbn [bind].
  destruct (rpeek c2) as [[b c3]|e|] eqn:E3; [|exfalso; exact (quiet_peek _ _ E3)|discriminate]. discriminate.
Qed.
Lemma quiet_trace_header p : quietp (rd_trace_header p).
Proof. unfold rd_trace_header, r24, r16, r8. quiet. Qed.

(** ** A call on a living reader has the outcome of the reader of ISegd.v *)
Definition kept (V : Prop) (e : exn) (r : dreader) : Prop :=
  (e = EIO /\ y_fail r = true) \/
  (y_fail r = false /\ ((e = ESedaman /\ d_chans (y_d r) = d_read (y_d r)) \/ e = EAlloc \/ (e = EVariant /\ V))).
Definition runs (V : Prop) {A} (m : Y A) (s : isegd) (o : outcome (A * isegd)) : Prop :=
  match o with
  | Ok (a, s') => m (y_fresh s) = (Ok a, y_fresh s')
  | Throw e => exists r, m (y_fresh s) = (Throw e, r) /\ kept V e r
  | UB => fst (m (y_fresh s)) = UB
  end.

Lemma bind_assoc {A B C} (o : outcome A) (f : A -> outcome B) (g : B -> outcome C) :
  bind (bind o f) g = bind o (fun a => bind (f a) g).
Proof. destruct o; reflexivity. Qed.

Lemma runs_fill {V : Prop} {A} n (k : list Z -> Y A) s ko :
  (forall b f, fread n (d_file s) = Ok (b, f) -> runs V (k b) (d_at s f) (ko (b, f))) ->
  runs V (xbind (y_fill n) k) s (bind (fread n (d_file s)) ko).
Proof.
  intros H. unfold runs, xbind, y_fill, y_file. cbn [y_fresh y_fail y_d].
  destruct (fread n (d_file s)) as [[b f]|e|] eqn:E; cbn [bind].
  - exact (H b f eq_refl).
  - exists (mkDR s true). split; [reflexivity|]. left. split; [exact (fread_throw _ _ _ E)|reflexivity].
  - reflexivity.
Qed.
Lemma runs_skip {V : Prop} {A} n (k : unit -> Y A) s ko :
  (forall f, fseek_cur n (d_file s) = Ok f -> runs V (k tt) (d_at s f) (ko f)) ->
  runs V (xbind (y_skip n) k) s (bind (fseek_cur n (d_file s)) ko).
Proof.
  intros H. unfold runs, xbind, y_skip, y_file. cbn [y_fresh y_fail y_d].
  destruct (fseek_cur n (d_file s)) as [f|e|] eqn:E; cbn [bind].
  - exact (H f eq_refl).
  - exists (mkDR s true). split; [reflexivity|]. left. split; [exact (fseek_throw _ _ _ E)|reflexivity].
  - reflexivity.
Qed.
Lemma runs_lift {V : Prop} {A B} (o : outcome A) (k : A -> Y B) s ko :
  (forall e, o = Throw e -> kept V e (y_fresh s)) -> (forall a, o = Ok a -> runs V (k a) s (ko a)) ->
  runs V (xbind (xlift o) k) s (bind o ko).
Proof.
  intros Q H. unfold runs, xbind, xlift. destruct o as [a|e|] eqn:E; cbn [bind].
  - exact (H a eq_refl).
  - exists (y_fresh s). split; [reflexivity|]. exact (Q e eq_refl).
  - reflexivity.
Qed.
Lemma runs_mod {V : Prop} {A} g (k : unit -> Y A) s o : runs V (k tt) (g s) o -> runs V (xbind (y_mod g) k) s o.
Proof. intros H. exact H. Qed.
Lemma runs_get {V : Prop} {A} (k : dreader -> Y A) s o : runs V (k (y_fresh s)) s o -> runs V (xbind xget k) s o.
Proof. intros H. exact H. Qed.
Lemma runs_ret {V : Prop} {A} (a : A) s : runs V (xret a) s (Ok (a, s)).
Proof. reflexivity. Qed.
Lemma runs_sub {V : Prop} {A B C} (m : Y A) (k : A -> Y B) s (X : outcome C) (h : C -> A * isegd) ko :
  runs V m s (bind X (fun x => Ok (h x))) ->
  (forall x, X = Ok x -> runs V (k (fst (h x))) (snd (h x)) (ko x)) -> runs V (xbind m k) s (bind X ko).
Proof.
  intros M H. unfold runs, xbind in *. destruct X as [x|e|]; cbn [bind] in *.
  - destruct (h x) as [a s'] eqn:E. specialize (H x eq_refl). rewrite E in H. rewrite M. exact H.
  - destruct M as (r & M & K). rewrite M. exists r. auto.
  - destruct (m (y_fresh s)) as [[a|e|] r]; cbn [fst] in M; [discriminate..|reflexivity].
Qed.
Lemma runs_end {V : Prop} {A C} (m : Y A) s (X : outcome C) (h : C -> A * isegd) ko :
  runs V m s (bind X (fun x => Ok (h x))) -> (forall x, X = Ok x -> ko x = Ok (h x)) -> runs V m s (bind X ko).
Proof. intros M H. destruct X as [x|e|]; cbn [bind] in *; [rewrite (H x eq_refl)|..]; exact M. Qed.

Ltac silent := let e := fresh in let K := fresh in intros e K; exfalso;
  first [ exact (quiet_gh1 _ _ K) | exact (quiet_rev _ _ K) | exact (quiet_gh2_rev2 _ _ _ _ _ _ K) | exact (quiet_ghN _ _ _ K)
        | exact (quiet_gh2_rev3 _ _ _ _ _ _ K) | exact (quiet_gh3 _ _ K) | exact (quiet_chset _ _ _ K) | exact (quiet_chset_r3 _ _ _ K)
        | exact (quiet_r3_block _ _ _ _ K) | exact (quiet_trace_header _ _ _ K) ].

Definition bk_file (x : blkmap * file) (s : isegd) : isegd := with_blocks (fst x) (d_at s (snd x)).

Lemma gN_blocks_run {V : Prop} p : forall n s,
  runs V (y_gN_blocks p n) s (let* x := rd_gN_blocks p n (d_file s) (d_blocks s) in Ok (tt, bk_file x s)).
Proof.
  induction n as [|n IH]; intros s; cbn [y_gN_blocks rd_gN_blocks].
  - destruct s; reflexivity.
  - rewrite bind_assoc. apply runs_fill. intros b f _. rewrite bind_assoc.
    apply runs_lift; [silent|]. intros [h c] _. apply runs_mod. exact (IH _).
Qed.
Lemma r3_blocks_run {V : Prop} p : forall n s,
  runs V (y_r3_blocks p n) s (let* x := rd_r3_blocks p n (d_file s) (d_blocks s) in Ok (tt, bk_file x s)).
Proof.
  induction n as [|n IH]; intros s; cbn [y_r3_blocks rd_r3_blocks].
  - destruct s; reflexivity.
  - rewrite bind_assoc. apply runs_fill. intros b f _. apply runs_get. rewrite bind_assoc.
    apply runs_lift; [silent|]. intros m _. apply runs_mod. exact (IH _).
Qed.

Definition gen_set (x : gh1 * gh2 * gh3 * blkmap * file) (s : isegd) : isegd :=
  let '(g1, g2, g3, m, f) := x in
  mkD f g1 g2 g3 m (d_sets s) (d_extd s) (d_extl s) (d_layouts s) (d_eod s) (d_chans s) (d_read s).
Lemma general_run {V : Prop} p s : runs V (y_general_headers p) s (let* x := read_general_headers p s in Ok (tt, gen_set x s)).
Proof.
  unfold y_general_headers, read_general_headers. rewrite bind_assoc. apply runs_fill. intros b f _.
  rewrite bind_assoc. apply runs_lift; [silent|]. intros [g1 c] _. apply runs_mod.
  destruct (g1_add_blocks g1 =? 0); [reflexivity|]. rewrite bind_assoc.
  apply (runs_fill _ _ (with_g1 g1 (d_at s f)) _). intros b2 f2 _. rewrite bind_assoc. apply runs_lift; [silent|].
  intros [[major minor] c2] _. apply runs_get. destruct (major <? 3).
  - rewrite bind_assoc. apply runs_lift; [silent|]. intros [g2 c3] _. apply runs_mod. rewrite bind_assoc.
    eapply runs_end; [exact (gN_blocks_run p _ _)|]. intros [m f3] _. reflexivity.
  - rewrite bind_assoc. apply runs_lift; [silent|]. intros [g2 c3] _. apply runs_mod. rewrite bind_assoc.
    apply (runs_fill _ _ (with_g2 g2 (d_at (with_g1 g1 (d_at s f)) f2)) _). intros b3 f3 _. rewrite bind_assoc. apply runs_lift; [silent|].
    intros [g3 c4] _. apply runs_mod. rewrite bind_assoc. eapply runs_end; [exact (r3_blocks_run p _ _)|]. intros [m f4] _. reflexivity.
Qed.

(** ** Channel sets *)
Definition sum_ch (cs : list chset) : Z := fold_right Z.add 0 (map c_channels cs).
(** [cs] is added to the last scan type. *)
Definition cs_set (x : list chset * file) (s : isegd) : isegd :=
  d_set s (snd x) (removelast (d_sets s) ++ [last (d_sets s) [] ++ fst x]) (d_chans s + sum_ch (fst x)) (d_read s).

Lemma ch_sets_run {V : Prop} p r3 : forall n s, d_sets s <> [] ->
  runs V (y_ch_sets p r3 n) s (let* x := read_ch_sets p r3 n (d_file s) in Ok (tt, cs_set x s)).
Proof.
  induction n as [|n IH]; intros s N; cbn [y_ch_sets read_ch_sets].
  - cbn [bind]. unfold cs_set, sum_ch. cbn [fst snd map fold_right]. rewrite app_nil_r, <- (app_removelast_last [] N), Z.add_0_r. destruct s; reflexivity.
  - unfold read_ch_set_hdr. rewrite !bind_assoc. apply runs_fill. intros b f _. rewrite !bind_assoc.
    apply runs_lift; [destruct r3; silent|]. intros [c b1] _. apply runs_mod. cbn [bind]. rewrite bind_assoc.
    eapply runs_end; [apply IH; cbn [new_set d_at d_set d_sets]; intros K; apply app_eq_nil in K as [_ K]; discriminate K|].
    intros [cs f1] _. cbn [bind]. f_equal. f_equal. unfold cs_set, new_set, d_at, d_set.
    cbn [fst snd d_sets d_chans d_read d_g1 d_g2 d_g3 d_blocks d_extd d_extl d_layouts d_eod].
    rewrite removelast_last, last_last, <- app_assoc. unfold sum_ch. cbn [map fold_right]. f_equal. lia.
Qed.

Definition st_set (x : list (list chset) * file) (s : isegd) : isegd :=
  d_set s (snd x) (d_sets s ++ fst x) (d_chans s + sum_channels (fst x)) (d_read s).
Lemma sum_ch_app a b : sum_ch (a ++ b) = sum_ch a + sum_ch b.
Proof. unfold sum_ch. rewrite map_app. induction (map c_channels a) as [|x l IH]; cbn [fold_right app]; lia. Qed.

Lemma scan_types_run {V : Prop} p r3 nsets skew : forall n s,
  runs V (y_scan_types p r3 nsets skew n) s (let* x := read_scan_types p r3 nsets skew n (d_file s) in Ok (tt, st_set x s)).
Proof.
  induction n as [|n IH]; intros s; cbn [y_scan_types read_scan_types].
  - cbn [bind]. unfold st_set. cbn [fst snd]. rewrite app_nil_r. change (sum_channels []) with 0. rewrite Z.add_0_r. destruct s; reflexivity.
  - apply runs_mod. rewrite bind_assoc. eapply runs_sub.
    + apply (ch_sets_run p r3 nsets (new_scan s)). cbn [new_scan d_set d_sets]. intros K. apply app_eq_nil in K as [_ K]. discriminate K.
    + intros [cs f1] _. cbn [fst snd]. rewrite bind_assoc. apply (runs_skip _ _ (cs_set (cs, f1) (new_scan s)) _). intros f2 _. rewrite bind_assoc.
      eapply runs_end; [apply IH|]. intros [rest f3] _. cbn [bind]. f_equal. f_equal.
      unfold st_set, cs_set, new_scan, d_at, d_set. cbn [fst snd d_sets d_chans d_read d_g1 d_g2 d_g3 d_blocks d_extd d_extl d_layouts d_eod].
      rewrite removelast_last, last_last, app_nil_l, <- app_assoc. f_equal.
      change (sum_channels (cs :: rest)) with (sum_ch (cs ++ concat rest)). change (sum_channels rest) with (sum_ch (concat rest)).
      rewrite sum_ch_app. lia.
Qed.

Lemma blks_run {V : Prop} : forall n s, runs V (y_blks n) s (let* x := read_blks n (d_file s) in Ok (fst x, d_at s (snd x))).
Proof.
  induction n as [|n IH]; intros s; cbn [y_blks read_blks].
  - destruct s; reflexivity.
  - rewrite bind_assoc. apply runs_fill. intros b f _. rewrite bind_assoc. eapply runs_sub; [apply IH|]. intros [bs f1] _. reflexivity.
Qed.

Lemma resize_throw p n e : resize_to p n = Throw e -> e = EAlloc.
Proof. unfold resize_to. destruct (_ <=? _); [discriminate|congruence]. Qed.
Lemma kept_alloc {V : Prop} p n s e : resize_to p n = Throw e -> kept V e (y_fresh s).
Proof. intros H. apply resize_throw in H as ->. right. split; [reflexivity|]. auto. Qed.
Lemma format_throw p fmt e : d_sample_reader p fmt = Throw e -> e = ESedaman.
Proof.
  unfold d_sample_reader. repeat match goal with |- context [match ?x with _ => _ end] => destruct x; try discriminate end; congruence.
Qed.

Lemma headers_run {V : Prop} p s : d_sets s = [] -> d_chans s = 0 -> d_read s = 0 ->
  runs V (y_headers p) s (let* s' := read_headers_before_traces p s in Ok (tt, s')).
Proof.
  intros N C R. unfold y_headers, read_headers_before_traces. rewrite bind_assoc. eapply runs_sub; [apply general_run|].
  intros [[[[g1 g2] g3] m] f1] _. cbn [fst snd]. apply runs_get. cbn [y_fresh y_d gen_set d_g1 d_g2]. rewrite bind_assoc.
  apply runs_lift.
  { intros e K. apply format_throw in K as ->. right. split; [reflexivity|]. left. split; [reflexivity|].
    cbn [y_fresh y_d gen_set d_chans d_read]. congruence. }
  intros q _. rewrite bind_assoc. eapply runs_sub; [apply scan_types_run|]. intros [sets f2] _. cbn [fst snd]. rewrite bind_assoc.
  apply runs_lift; [intros e K; exact (kept_alloc _ _ _ _ K)|]. intros z1 _. rewrite bind_assoc. eapply runs_sub; [apply blks_run|].
  intros [extd f3] _. cbn [fst snd]. apply runs_mod. rewrite bind_assoc.
  apply runs_lift; [intros e K; exact (kept_alloc _ _ _ _ K)|]. intros z2 _. rewrite bind_assoc. eapply runs_sub; [apply blks_run|].
  intros [extl f4] _. cbn [fst snd bind]. unfold runs, y_mod. cbn [y_fresh y_d y_fail]. f_equal. unfold y_fresh. f_equal.
  unfold with_extl, with_extd, d_at, st_set, d_set, gen_set. cbn [fst snd d_file d_sets d_chans d_read d_g1 d_g2 d_g3 d_blocks d_extd d_extl d_layouts d_eod].
  rewrite N, C, R. cbn [app]. rewrite Z.add_0_l. reflexivity.
Qed.

(** ** Traces *)
Lemma get_int_throw v e : get_int v = Throw e -> e = EVariant.
Proof. destruct v; cbn [get_int]; [discriminate|congruence]. Qed.
Lemma quiet_ext_fields p x block : forall l c h, rd_ext_fields p block l c h <> Throw x.
Proof.
  induction l as [|en l IH]; intros c h; cbn [rd_ext_fields]; [discriminate|].
  assert (K : forall t, (let* pos := at_off block (e_off en) in let* (v, _) := rd_field p Swapped t pos in
    rd_ext_fields p block l c (hset h (e_name en) v)) <> Throw x).
  { intros t. unfold at_off. destruct (_ && _); [|discriminate]. cbn [bind].
    destruct (rd_field p Swapped t _) as [[v c1]|y|] eqn:E; cbn [bind]; [apply IH|exfalso; exact (quiet_field _ _ _ _ _ E)|discriminate]. }
  destruct (e_type en); try (apply K). unfold at_off. destruct (_ && _); [|discriminate]. cbn [bind].
  destruct (rd_i Swapped 8 c) as [[v c1]|y|] eqn:E; cbn [bind]; [apply IH|exfalso; exact (quiet_rd_i _ _ _ _ E)|discriminate].
Qed.

(** ** Words that stay integers *)
Definition needed (k : string) : Prop := In k ["SCAN_TYPE_NUM"; "CH_SET_NUM"; "SAMP_NUM"].
Definition intw (h : hdr) : Prop := forall k d, needed k -> hget h k <> Some (VDbl d).
Lemma intw_int h k z : intw h -> intw (hset h k (VInt z)).
Proof. intros H k' d N. rewrite hget_hset. destruct (String.eqb k' k); [discriminate|exact (H k' d N)]. Qed.
Lemma intw_other h k v : intw h -> ~ needed k -> intw (hset h k v).
Proof. intros H Nk k' d N. rewrite hget_hset. destruct (String.eqb_spec k' k) as [->|_]; [contradiction|exact (H k' d N)]. Qed.
Lemma intw_nonzero h k i f : intw h -> ~ needed k -> intw (set_nonzero h k i f).
Proof. intros H Nk. unfold set_nonzero. destruct (_ && _); [exact H|apply intw_other; assumption]. Qed.

Definition ppost {A} (q : P A) (Q : A -> Prop) : Prop := forall c a c', q c = Ok (a, c') -> Q a.
Lemma ppost_ret {A} (a : A) (Q : A -> Prop) : Q a -> ppost (pret a) Q.
Proof. intros H c a' c' E. injection E as <- _. exact H. Qed.
Lemma ppost_bind {A B} (q : P A) (k : A -> P B) (R : A -> Prop) (Q : B -> Prop) :
  ppost q R -> (forall a, R a -> ppost (k a) Q) -> ppost (pbind q k) Q.
Proof.
  intros H K c b c' E. unfold pbind in E. destruct (q c) as [[a c1]|e|] eqn:Eq; [|discriminate..]. exact (K a (H _ _ _ Eq) _ _ _ E).
Qed.
Lemma ppost_any {A B} (q : P A) (k : A -> P B) (Q : B -> Prop) : (forall a, ppost (k a) Q) -> ppost (pbind q k) Q.
Proof. intros H. apply (ppost_bind q k (fun _ => True)); [intros ? ? ? ?; exact I|]. intros a _. apply H. Qed.
Ltac not_needed := let K := fresh in intros K; unfold needed in K; cbn [In] in K; intuition discriminate.

Lemma header_intw p : ppost (rd_trace_header p) (fun h => intw h /\ hget h "TRACE_NUMBER" = None /\ exists z, hget h "TR_HDR_EXT" = Some (VInt z)).
Proof.
  unfold rd_trace_header. repeat (apply ppost_any; intros ?). apply ppost_ret.
  match goal with |- context [if ?b then ?h else hset ?h "CH_SET_NUM" _] => set (base := h) end.
  assert (B : intw base /\ hget base "TRACE_NUMBER" = None /\ exists z, hget base "TR_HDR_EXT" = Some (VInt z)).
  { split; [|split; [reflexivity|eexists; reflexivity]]. intros k d [<-|[<-|[<-|[]]]]; discriminate. }
  clearbody base. destruct B as (B1 & B2 & B3).
  repeat match goal with |- context [if ?b then _ else _] => destruct b end;
    (split; [repeat apply intw_int; exact B1|]); rewrite ?hget_hset; cbn [String.eqb Ascii.eqb Bool.eqb]; auto.
Qed.

Lemma std_intw p major h : intw h -> ppost (rd_ext_std p major h) (fun o => forall h', o = Ok h' -> intw h').
Proof.
  intros H. unfold rd_ext_std. do 3 (apply ppost_any; intros ?).
  eapply (ppost_bind _ _ intw).
  { destruct (major <? 3); repeat (apply ppost_any; intros ?); apply ppost_ret; repeat apply intw_int; exact H. }
  intros h2 H2. eapply (ppost_bind _ _ intw).
  { destruct (1 <? major); [|apply ppost_ret; exact H2]. repeat (apply ppost_any; intros ?). apply ppost_ret.
    apply intw_int. repeat (apply intw_nonzero; [|not_needed]). exact H2. }
  intros h3 H3. destruct (2 <? major); [|apply ppost_ret; intros h' E; injection E as <-; exact H3].
  repeat (apply ppost_any; intros ?). unfold hidx. destruct (hget h3 "TRACE_NUMBER") as [[z|d]|]; apply ppost_ret; intros h' E; cbn [get_int bind] in E;
    [|discriminate E|]; injection E as <-; try match goal with |- context [if ?b then _ else _] => destruct b end; repeat apply intw_int; exact H3.
Qed.
Lemma std_number p major h : hget h "TRACE_NUMBER" = None -> ppost (rd_ext_std p major h) (fun o => forall e, o <> Throw e).
Proof.
  intros H. unfold rd_ext_std. do 3 (apply ppost_any; intros ?).
  eapply (ppost_bind _ _ (fun h => hget h "TRACE_NUMBER" = None)).
  { destruct (major <? 3); repeat (apply ppost_any; intros ?); apply ppost_ret; rewrite !hget_hset; exact H. }
  intros h2 H2. eapply (ppost_bind _ _ (fun h => hget h "TRACE_NUMBER" = None)).
  { destruct (1 <? major); [|apply ppost_ret; exact H2]. repeat (apply ppost_any; intros ?). apply ppost_ret.
    rewrite hget_hset. unfold set_nonzero. repeat match goal with |- context [if (_ && _)%bool then _ else _] => destruct (_ && _)%bool end;
      rewrite ?hget_hset; exact H2. }
  intros h3 H3. destruct (2 <? major); [|apply ppost_ret; discriminate].
  repeat (apply ppost_any; intros ?). unfold hidx. rewrite H3. apply ppost_ret. discriminate.
Qed.
Lemma std_throw p major h : ppost (rd_ext_std p major h) (fun o => forall e, o = Throw e -> e = EVariant).
Proof.
  unfold rd_ext_std. do 3 (apply ppost_any; intros ?). apply ppost_any. intros h2. apply ppost_any. intros h3.
  destruct (2 <? major); [|apply ppost_ret; discriminate]. repeat (apply ppost_any; intros ?).
  destruct (hidx h3 "TRACE_NUMBER") as [[z|d] h4]; apply ppost_ret; cbn [get_int bind]; [discriminate|congruence].
Qed.
Lemma quiet_std p major h : quietp (rd_ext_std p major h).
Proof.
  unfold rd_ext_std, r24, r16, r8, r32. quiet; repeat match goal with |- quietp (if ?b then _ else _) => destruct b end; quiet.
  destruct (hidx _ _). apply quiet_ret.
Qed.

(** The new header of one block. *)
Definition ext_step (p : platform) (major : Z) (ls : ext_layouts) (i : nat) (block : list Z) (h : hdr) : outcome hdr :=
  match ls with
  | [] => match i with O => let* (o, _) := rd_ext_std p major h block in o | S _ => Ok h end
  | _ => match nth_error ls i with Some l => rd_ext_fields p block l block h | None => UB end
  end.
Lemma ext_step_throw p major ls i block h e : ext_step p major ls i block h = Throw e ->
  e = EVariant /\ ls = [] /\ i = 0%nat /\ hget h "TRACE_NUMBER" <> None.
Proof.
  unfold ext_step. destruct ls as [|l ls].
  - destruct i as [|i]; [|discriminate]. destruct (rd_ext_std p major h block) as [[o c]|x|] eqn:E; cbn [bind];
      [|exfalso; exact (quiet_std _ _ _ _ _ E)|discriminate].
    intros ->. split; [exact (std_throw _ _ _ _ _ _ E e eq_refl)|]. split; [reflexivity|]. split; [reflexivity|].
    intros K. exact (std_number _ _ _ K _ _ _ E e eq_refl).
  - destruct (nth_error (l :: ls) i) as [l'|]; [|discriminate]. intros K. exfalso. exact (quiet_ext_fields _ _ _ _ _ _ K).
Qed.
Lemma exts_step_eq p major ls n i f h : rd_exts p major ls (S n) i f h =
  let* (block, f1) := fread TRACE_HEADER_EXT_SIZE f in let* h1 := ext_step p major ls i block h in rd_exts p major ls n (S i) f1 h1.
Proof. reflexivity. Qed.

Lemma kept_variant {V : Prop} s : V -> kept V EVariant (y_fresh s).
Proof. right. split; [reflexivity|]. auto. Qed.
Lemma exts_run {V : Prop} (v : V) p : forall n i s h,
  runs V (y_exts p n i h) s (let* x := rd_exts p (g2_major (d_g2 s)) (d_layouts s) n i (d_file s) h in Ok (fst x, d_at s (snd x))).
Proof.
  induction n as [|n IH]; intros i s h.
  - cbn. destruct s; reflexivity.
  - rewrite exts_step_eq. cbn [y_exts]. rewrite bind_assoc. apply runs_fill. intros b f _. apply runs_get. rewrite bind_assoc.
    cbn [y_fresh y_d d_at d_set d_layouts d_g2].
    apply (runs_lift (ext_step p (g2_major (d_g2 s)) (d_layouts s) i b h)).
    { intros e K. apply ext_step_throw in K as [-> _]. apply (kept_variant _ v). }
    intros h1 _. exact (IH (S i) (d_at s f) h1).
Qed.

Lemma ext_run {V : Prop} (v : V) p h s : runs V (y_trace_ext p h) s (let* x := read_trace_header_ext p s h (d_file s) in Ok (fst x, d_at s (snd x))).
Proof.
  unfold y_trace_ext, read_trace_header_ext. destruct (hidx h "TR_HDR_EXT") as [x h1]. rewrite bind_assoc. apply runs_lift.
  - intros e K. apply get_int_throw in K as ->. apply (kept_variant _ v).
  - intros n _. apply (exts_run v).
Qed.

Definition ready (p : platform) (s : isegd) : Prop := exists q, d_sample_reader p (g1_format_code (d_g1 s)) = Ok q.

Lemma quiet_d_sample p fmt bits q : d_sample_reader p fmt = Ok (bits, q) -> quietp q.
Proof.
  unfold d_sample_reader.
  repeat match goal with |- context [match ?x with _ => _ end] => destruct x; try discriminate end; intros H; injection H as _ <-;
    unfold rd_f32, rd_f64; first [intros c x; discriminate|quiet|idtac].
  all: first [destruct a; quiet|idtac].
  all: try (unfold rd_16_8; destruct (p_left_first p); repeat first [apply quiet_read|apply quiet_ret|apply quiet_bind; [|intros ?]]).
Qed.
Lemma ch_set_throw s h e : curr_ch_set s h = Throw e -> e = EVariant.
Proof.
  unfold curr_ch_set. destruct (get_int (fst (hidx h "SCAN_TYPE_NUM"))) as [i|x|] eqn:E1; cbn [bind];
    [|intros K; injection K as <-; exact (get_int_throw _ _ E1)|discriminate].
  destruct (get_int (fst (hidx h "CH_SET_NUM"))) as [j|x|] eqn:E2; cbn [bind];
    [|intros K; injection K as <-; exact (get_int_throw _ _ E2)|discriminate].
  unfold nth_1. destruct (_ && _); [|discriminate]. destruct (nth_error _ _) as [cs|]; [|discriminate]. cbn [bind].
  destruct (_ && _); [|discriminate]. destruct (nth_error cs _); discriminate.
Qed.
Lemma samp_num_throw h c e : samp_num_of h c = Throw e -> e = EVariant.
Proof.
  unfold samp_num_of. destruct (hget h "SAMP_NUM") as [v|].
  - destruct (get_int v) as [n|x|] eqn:E; cbn [bind]; [discriminate|intros K; injection K as <-; exact (get_int_throw _ _ E)|discriminate].
  - destruct (c_number_of_samples c); discriminate.
Qed.

Lemma samples_run {V : Prop} (v : V) p h s : ready p s ->
  runs V (y_samples p h) s (let* x := read_trace_samples p s h (d_file s) in Ok (fst x, d_at s (snd x))).
Proof.
  intros [q Hq]. unfold y_samples, read_trace_samples. apply runs_get. cbn [y_fresh y_d]. rewrite bind_assoc.
  apply runs_lift; [intros e K; apply ch_set_throw in K as ->; apply (kept_variant _ v)|]. intros c _. rewrite bind_assoc.
  apply runs_lift; [intros e K; apply samp_num_throw in K as ->; apply (kept_variant _ v)|]. intros n _. rewrite bind_assoc.
  apply runs_lift; [intros e K; congruence|]. intros [bits rs] Er. rewrite bind_assoc.
  apply runs_lift; [intros e K; exact (kept_alloc _ _ _ _ K)|]. intros z _. rewrite bind_assoc.
  apply runs_fill. intros b f _. rewrite bind_assoc.
  apply runs_lift; [intros e K; exact (kept_alloc _ _ _ _ K)|]. intros z2 _. rewrite bind_assoc.
  apply runs_lift; [|intros [smp c'] _; reflexivity].
  intros e K. exfalso. exact (quiet_prep _ _ (quiet_map _ _ (quiet_d_sample _ _ _ _ Er)) _ _ K).
Qed.

Lemma trace_run {V : Prop} (v : V) p s : ready p s -> runs V (y_read_trace p) s (d_read_trace p s).
Proof.
  intros Rd. unfold y_read_trace, d_read_trace. apply runs_fill. intros b f _. apply runs_lift; [silent|]. intros [h0 c] _.
  eapply runs_sub; [exact (ext_run v p h0 (d_at s f))|]. intros [h f2] _. cbn [fst snd].
  eapply runs_sub; [exact (samples_run v p h (d_at (d_at s f) f2) Rd)|]. intros [smp f3] _. cbn [fst snd].
  apply runs_mod, runs_get. cbn [y_fresh y_d d_at d_set d_chans d_read].
  destruct (d_chans s =? wrapu 64 (d_read s + 1)); [|reflexivity].
  apply runs_mod, runs_get. cbn [y_fresh y_d d_at d_set]. change (has_record _) with (has_record (d_set s f3 [] 0 0)) at 1.
  destruct (has_record (d_set s f3 [] 0 0)); [|reflexivity].
  eapply runs_sub; [apply (headers_run p (d_set s f3 [] 0 0)); reflexivity|]. intros s' _. reflexivity.
Qed.

Lemma headers_ready p s s' : read_headers_before_traces p s = Ok s' -> ready p s'.
Proof.
  unfold read_headers_before_traces. intros H.
  destruct (read_general_headers p s) as [[[[[g1 g2] g3] m] f]|e|]; cbn [bind] in H; [|discriminate..].
  destruct (d_sample_reader p (g1_format_code g1)) as [q|e|] eqn:E; cbn [bind] in H; [|discriminate..].
  destruct (read_scan_types _ _ _ _ _ _) as [[sets f2]|e|]; cbn [bind] in H; [|discriminate..].
  destruct (resize_to p (24 * extended_of g1 g2)); cbn [bind] in H; [|discriminate..].
  destruct (read_blks _ _) as [[extd f3]|e|]; cbn [bind] in H; [|discriminate..].
  destruct (resize_to p (24 * external_of g1 g2)); cbn [bind] in H; [|discriminate..].
  destruct (read_blks _ _) as [[extl f4]|e|]; cbn [bind] in H; [|discriminate..]. injection H as <-. exists q. exact E.
Qed.
Lemma headers_layouts p s s' : read_headers_before_traces p s = Ok s' -> d_layouts s' = d_layouts s.
Proof.
  unfold read_headers_before_traces. intros H.
  destruct (read_general_headers p s) as [[[[[g1 g2] g3] m] f]|e|]; cbn [bind] in H; [|discriminate..].
  destruct (d_sample_reader p (g1_format_code g1)) as [q|e|] eqn:E; cbn [bind] in H; [|discriminate..].
  destruct (read_scan_types _ _ _ _ _ _) as [[sets f2]|e|]; cbn [bind] in H; [|discriminate..].
  destruct (resize_to p (24 * extended_of g1 g2)); cbn [bind] in H; [|discriminate..].
  destruct (read_blks _ _) as [[extd f3]|e|]; cbn [bind] in H; [|discriminate..].
  destruct (resize_to p (24 * external_of g1 g2)); cbn [bind] in H; [|discriminate..].
  destruct (read_blks _ _) as [[extl f4]|e|]; cbn [bind] in H; [|discriminate..]. injection H as <-. reflexivity.
Qed.
Lemma read_ready p s t s' : d_read_trace p s = Ok (t, s') -> ready p s -> ready p s' /\ d_layouts s' = d_layouts s.
Proof.
  unfold d_read_trace. intros H Rd. destruct (fread _ _) as [[b f]|e|]; cbn [bind] in H; [|discriminate..].
  destruct (rd_trace_header p b) as [[h0 c]|e|]; cbn [bind] in H; [|discriminate..].
  destruct (read_trace_header_ext p s h0 f) as [[h f2]|e|]; cbn [bind] in H; [|discriminate..].
  destruct (read_trace_samples p s h f2) as [[smp f3]|e|]; cbn [bind] in H; [|discriminate..].
  destruct (_ =? _); [|injection H as _ <-; split; [exact Rd|reflexivity]].
  destruct (has_record _); [|injection H as _ <-; split; [exact Rd|reflexivity]].
  destruct (read_headers_before_traces p _) as [s2|e|] eqn:E; cbn [bind] in H; [|discriminate..]. injection H as _ <-.
  split; [exact (headers_ready _ _ _ E)|exact (headers_layouts _ _ _ E)].
Qed.

(** ** Exceptions *)
Lemma headers_throw p s e : d_sets s = [] -> d_chans s = 0 -> d_read s = 0 ->
  read_headers_before_traces p s = Throw e -> e <> EVariant.
Proof.
  intros A B C H. pose proof (@headers_run False p s A B C) as K. rewrite H in K. cbn [bind runs] in K.
  destruct K as (r & _ & [[-> _]|[_ [[-> _]|[->|[_ []]]]]]); discriminate.
Qed.

Lemma field_kind p e t : ppost (rd_field p e t) (fun v => real_value v = real_field t).
Proof. destruct t; cbn [rd_field]; unfold pmap; (apply ppost_any; intros ?; apply ppost_ret; reflexivity). Qed.
Lemma intw_fields p block : forall l c h h',
  (forall en, In en l -> real_field (e_type en) = true -> ~ needed (e_name en)) ->
  intw h -> rd_ext_fields p block l c h = Ok h' -> intw h'.
Proof.
  induction l as [|en l IH]; intros c h h' Hl H E; cbn [rd_ext_fields] in E; [injection E as <-; exact H|].
  assert (Hl' : forall en0, In en0 l -> real_field (e_type en0) = true -> ~ needed (e_name en0)) by (intros en0 I0; apply Hl; right; exact I0).
  assert (K : (let* pos := at_off block (e_off en) in let* (v, _) := rd_field p Swapped (e_type en) pos in
     rd_ext_fields p block l c (hset h (e_name en) v)) = Ok h' -> intw h').
  { unfold at_off. destruct (_ && _); [|discriminate]. cbn [bind].
    destruct (rd_field p Swapped (e_type en) _) as [[v c1]|y|] eqn:F; cbn [bind]; [|discriminate..]. intros E1.
    apply field_kind in F. refine (IH _ _ _ Hl' _ E1). destruct v as [z|d]; [apply intw_int; exact H|].
    apply intw_other; [exact H|]. apply Hl; [left; reflexivity|]. symmetry. exact F. }
  destruct (e_type en); try (exact (K E)). unfold at_off in E. destruct (_ && _); [|discriminate E]. cbn [bind] in E.
  destruct (rd_i Swapped 8 c) as [[v c1]|y|]; cbn [bind] in E; [|discriminate E..]. refine (IH _ _ _ Hl' _ E). apply intw_int. exact H.
Qed.

Lemma intw_step p major ls i block h h' : int_words ls -> intw h -> ext_step p major ls i block h = Ok h' -> intw h'.
Proof.
  intros W H. unfold ext_step. destruct ls as [|l ls].
  - destruct i as [|i]; [|intros E; injection E as <-; exact H].
    destruct (rd_ext_std p major h block) as [[o c]|x|] eqn:E; cbn [bind]; [|discriminate..]. exact (std_intw _ _ _ H _ _ _ E h').
  - destruct (nth_error (l :: ls) i) as [l'|] eqn:E; [|discriminate]. apply nth_error_In in E. apply intw_fields; [|exact H].
    intros en I R N. destruct (W l' en E I R) as (A & B & C). destruct N as [N|[N|[N|[]]]]; congruence.
Qed.
Lemma intw_exts p major ls : int_words ls -> forall n i f h,
  intw h -> (ls = [] -> i = 0%nat -> hget h "TRACE_NUMBER" = None) ->
  rd_exts p major ls n i f h <> Throw EVariant /\ forall h' f', rd_exts p major ls n i f h = Ok (h', f') -> intw h'.
Proof.
  intros W. induction n as [|n IH]; intros i f h H N.
  - split; [discriminate|]. intros h' f' E. injection E as <- _. exact H.
  - rewrite exts_step_eq. destruct (fread TRACE_HEADER_EXT_SIZE f) as [[b f1]|e|] eqn:E; cbn [bind];
      [|apply fread_throw in E as ->; split; discriminate|split; discriminate].
    destruct (ext_step p major ls i b h) as [h1|e|] eqn:E1; cbn [bind];
      [|exfalso; apply ext_step_throw in E1 as (_ & A & B & C); exact (C (N A B))|split; discriminate].
    apply IH; [exact (intw_step _ _ _ _ _ _ _ W H E1)|]. discriminate.
Qed.

Lemma get_intw h k e : intw h -> needed k -> get_int (fst (hidx h k)) <> Throw e.
Proof.
  intros H N. unfold hidx. destruct (hget h k) as [[z|d]|] eqn:E; cbn [fst get_int]; [discriminate| |discriminate].
  exfalso. exact (H k d N E).
Qed.
Lemma samples_calm p s h f : ready p s -> intw h -> read_trace_samples p s h f <> Throw EVariant.
Proof.
  intros [q Hq] H. unfold read_trace_samples.
  assert (C : forall e, curr_ch_set s h <> Throw e).
  { intros e. unfold curr_ch_set. destruct (get_int (fst (hidx h "SCAN_TYPE_NUM"))) as [i|x|] eqn:E1; cbn [bind];
      [|exfalso; refine (get_intw h _ x H _ E1); cbn; auto|discriminate].
    destruct (get_int (fst (hidx h "CH_SET_NUM"))) as [j|x|] eqn:E2; cbn [bind];
      [|exfalso; refine (get_intw h _ x H _ E2); cbn; auto|discriminate].
    unfold nth_1. destruct (_ && _); [|discriminate]. destruct (nth_error _ _) as [cs|]; [|discriminate]. cbn [bind].
    destruct (_ && _); [|discriminate]. destruct (nth_error cs _); discriminate. }
  destruct (curr_ch_set s h) as [c|e|]; cbn [bind]; [|exfalso; exact (C e eq_refl)|discriminate].
  assert (N : forall e, samp_num_of h c <> Throw e).
  { intros e. unfold samp_num_of. destruct (hget h "SAMP_NUM") as [[z|d]|] eqn:E; cbn [get_int bind];
      [discriminate|exfalso; refine (H "SAMP_NUM" d _ E); cbn; auto|]. destruct (c_number_of_samples c); discriminate. }
  destruct (samp_num_of h c) as [n|e|]; cbn [bind]; [|exfalso; exact (N e eq_refl)|discriminate]. rewrite Hq. cbn [bind]. destruct q as [bits rs].
  destruct (resize_to p (wrapu 32 (n * bits) / 8)) as [z|e|] eqn:Ez; cbn [bind]; [|apply resize_throw in Ez as ->; discriminate|discriminate].
  destruct (fread _ f) as [[b f1]|e|] eqn:Ef; cbn [bind]; [|apply fread_throw in Ef as ->; discriminate|discriminate].
  destruct (resize_to p (8 * n)) as [z1|e|] eqn:Ez1; cbn [bind]; [|apply resize_throw in Ez1 as ->; discriminate|discriminate].
  destruct (prep _ (Z.to_nat n) b) as [[smp c']|e|] eqn:Ep; cbn [bind]; [discriminate| |discriminate].
  exfalso. exact (quiet_prep _ _ (quiet_map _ _ (quiet_d_sample _ _ _ _ Hq)) _ _ Ep).
Qed.

Lemma read_calm p s : ready p s -> int_words (d_layouts s) -> d_read_trace p s <> Throw EVariant.
Proof.
  intros Rd W. unfold d_read_trace. destruct (fread _ (d_file s)) as [[b f]|e|] eqn:E0; cbn [bind];
    [|apply fread_throw in E0 as ->; discriminate|discriminate].
  destruct (rd_trace_header p b) as [[h0 c]|e|] eqn:E1; cbn [bind]; [|exfalso; exact (quiet_trace_header _ _ _ E1)|discriminate].
  destruct (header_intw p _ _ _ E1) as (H1 & H2 & z & H3). unfold read_trace_header_ext, hidx. rewrite H3. cbn [get_int bind].
  destruct (intw_exts p (g2_major (d_g2 s)) (d_layouts s) W (Z.to_nat (wraps 32 z)) 0 f h0 H1 ltac:(auto)) as [N H].
  destruct (rd_exts _ _ _ _ _ _ _) as [[h f2]|e|]; cbn [bind]; [|congruence|discriminate]. specialize (H h f2 eq_refl).
  destruct (read_trace_samples p s h f2) as [[smp f3]|e|] eqn:E2; cbn [bind];
    [|pose proof (samples_calm p s h f2 Rd H); congruence|discriminate].
  destruct (_ =? _); [|discriminate]. destruct (has_record _); [|discriminate].
  destruct (read_headers_before_traces p _) as [s2|e|] eqn:E3; cbn [bind]; [discriminate| |discriminate].
  apply headers_throw in E3; [congruence|reflexivity..].
Qed.

(** ** Clients *)
Lemma dead_call p r : y_fail r = true -> y_read_trace p r = (Throw EIO, r).
Proof. intros F. unfold y_read_trace, xbind at 1, y_fill, y_file. rewrite F. reflexivity. Qed.

Lemma persist_dead p : forall n r, y_fail r = true ->
  persist p n r = Ok (repeat (Throw EIO) (if y_has_trace r then n else 0), r).
Proof.
  induction n as [|n IH]; intros r F; cbn [persist]; [destruct (y_has_trace r); reflexivity|].
  destruct (y_has_trace r) eqn:E; [|reflexivity]. rewrite (dead_call p r F), (IH r F), E. reflexivity.
Qed.

Lemma run_cases p s : ready p s -> int_words (d_layouts s) ->
  match d_read_trace p s with
  | Ok (t, s') => y_read_trace p (y_fresh s) = (Ok t, y_fresh s')
  | Throw e => exists r, y_read_trace p (y_fresh s) = (Throw e, r) /\
      ((e = EIO /\ y_fail r = true) \/ (e = ESedaman /\ y_has_trace r = false) \/ e = EAlloc)
  | UB => fst (y_read_trace p (y_fresh s)) = UB
  end.
Proof.
  intros Rd W. pose proof (@trace_run True I p s Rd) as K. pose proof (read_calm p s Rd W) as N.
  destruct (d_read_trace p s) as [[t s']|e|]; cbn [runs] in K; [exact K| |exact K]. destruct K as (r & K & C). exists r. split; [exact K|].
  destruct C as [C|[_ [[-> C]|[->|[-> _]]]]]; [left; exact C| |right; right; reflexivity|congruence].
  right. left. split; [reflexivity|]. unfold y_has_trace, d_has_trace. rewrite C, Z.eqb_refl. reflexivity.
Qed.

Lemma persist_shape p : forall n s os r, ready p s -> int_words (d_layouts s) ->
  persist p n (y_fresh s) = Ok (os, r) -> ~ In (Throw EAlloc) os ->
  exists ts s1 k x, os = map Ok ts ++ repeat (Throw x) k /\ d_take p (List.length ts) s = Ok (ts, s1) /\
    (k = 0%nat -> r = y_fresh s1) /\ (k <> 0%nat -> d_read_trace p s1 = Throw x).
Proof.
  induction n as [|n IH]; intros s os r Rd W H NA; cbn [persist] in H.
  - injection H as <- <-. exists [], s, 0%nat, EIO. do 2 (split; [reflexivity|]). split; [reflexivity|]. intros K; exfalso; exact (K eq_refl).
  - destruct (y_has_trace (y_fresh s)) eqn:Ht.
    2:{ injection H as <- <-. exists [], s, 0%nat, EIO. do 2 (split; [reflexivity|]). split; [reflexivity|]. intros K; exfalso; exact (K eq_refl). }
    pose proof (run_cases p s Rd W) as K. destruct (d_read_trace p s) as [[t s']|e|] eqn:E.
    + rewrite K in H. destruct (persist p n (y_fresh s')) as [[os1 r1]|x|] eqn:E1; cbn [bind] in H; [|discriminate..]. injection H as <- <-.
      destruct (read_ready p s t s' E Rd) as [Rd' L]. rewrite <- L in W.
      destruct (IH s' os1 r1 Rd' W E1) as (ts & s1 & k & x & -> & T & B & C).
      { intros I. apply NA. right. exact I. }
      exists (t :: ts), s1, k, x. split; [reflexivity|]. split; [|auto]. cbn [List.length d_take]. rewrite E. cbn [bind]. rewrite T. reflexivity.
    + destruct K as (r' & K & C). rewrite K in H. destruct (persist p n r') as [[os1 r1]|x|] eqn:E1; cbn [bind] in H; [|discriminate..]. injection H as <- <-.
      destruct C as [[-> F]|[[-> F]| ->]].
      * rewrite (persist_dead p n r' F) in E1. injection E1 as <- <-.
        exists [], s, (S (if y_has_trace r' then n else 0)), EIO. split; [reflexivity|]. split; [reflexivity|]. split; [discriminate|]. intros _. exact E.
      * assert (os1 = []) by (destruct n; cbn [persist] in E1; [|rewrite F in E1]; congruence). subst os1.
        exists [], s, 1%nat, ESedaman. split; [reflexivity|]. split; [reflexivity|]. split; [discriminate|]. intros _. exact E.
      * exfalso. apply NA. left. reflexivity.
    + destruct (y_read_trace p (y_fresh s)) as [o r0]. cbn [fst] in K. subst o. discriminate H.
Qed.

Lemma persist_ub p : forall n s, ready p s -> int_words (d_layouts s) -> persist p n (y_fresh s) = UB ->
  exists k ts s1, d_take p k s = Ok (ts, s1) /\ (d_read_trace p s1 = UB \/ d_read_trace p s1 = Throw EAlloc).
Proof.
  induction n as [|n IH]; intros s Rd W H; cbn [persist] in H; [discriminate|].
  destruct (y_has_trace (y_fresh s)) eqn:Ht; [|discriminate].
  pose proof (run_cases p s Rd W) as K. destruct (d_read_trace p s) as [[t s']|e|] eqn:E.
  - rewrite K in H. destruct (persist p n (y_fresh s')) as [[os1 r1]|x|] eqn:E1; cbn [bind] in H; [discriminate..|].
    destruct (read_ready p s t s' E Rd) as [Rd' L]. rewrite <- L in W. destruct (IH s' Rd' W E1) as (k & ts & s1 & T & C).
    exists (S k), (t :: ts), s1. split; [cbn [d_take]; rewrite E; cbn [bind]; rewrite T; reflexivity|exact C].
  - destruct K as (r' & K & C). rewrite K in H. destruct C as [[-> F]|[[-> F]| ->]].
    + rewrite (persist_dead p n r' F) in H. discriminate H.
    + assert (N : persist p n r' <> UB) by (destruct n; cbn [persist]; [|rewrite F]; discriminate).
      destruct (persist p n r') as [[os1 r1]|x|]; cbn [bind] in H; [discriminate..|congruence].
    + exists 0%nat, [], s. split; [reflexivity|]. right. exact E.
  - exists 0%nat, [], s. split; [reflexivity|]. left. exact E.
Qed.
Lemma open_ready p b ls s : isegd_open p b ls = Ok s -> ready p s /\ d_layouts s = ls.
Proof. intros H. split; [exact (headers_ready _ _ _ H)|exact (headers_layouts _ _ _ H)]. Qed.

(** ** Every EIO comes from the stream, whatever the object went through *)
Definition io_safe {A} (m : Y A) : Prop := forall r r', m r = (Throw EIO, r') -> y_fail r' = true.
Lemma io_bind {A B} (m : Y A) (k : A -> Y B) : io_safe m -> (forall a, io_safe (k a)) -> io_safe (xbind m k).
Proof.
  intros M K r r' H. unfold xbind in H. destruct (m r) as [[a|e|] r1] eqn:E; [exact (K a r1 r' H)| |discriminate H].
  injection H as -> <-. exact (M r r1 E).
Qed.
Lemma io_get {A} (k : dreader -> Y A) : (forall r, io_safe (k r)) -> io_safe (xbind xget k).
Proof. intros K r r' H. exact (K r r r' H). Qed.
Lemma io_ret {A} (a : A) : io_safe (xret a).
Proof. intros r r' H. discriminate H. Qed.
Lemma io_mod g : io_safe (y_mod g).
Proof. intros r r' H. discriminate H. Qed.
Lemma io_file {A} (op : file -> outcome (A * file)) : io_safe (y_file op).
Proof.
  intros r r' H. unfold y_file in H. destruct (y_fail r) eqn:F; [injection H as <-; exact F|].
  destruct (op _) as [[a f]|e|]; [discriminate H| |discriminate H]. injection H as _ <-. reflexivity.
Qed.
Lemma io_lift {A} (o : outcome A) : o <> Throw EIO -> io_safe (xlift o).
Proof. intros N r r' H. unfold xlift in H. injection H as H _. contradiction. Qed.
Lemma io_lift_bind {A B} (o : outcome A) (k : A -> Y B) : o <> Throw EIO -> (forall a, o = Ok a -> io_safe (k a)) -> io_safe (xbind (xlift o) k).
Proof.
  intros N K r r' H. unfold xbind, xlift in H. destruct o as [a|e|]; [exact (K a eq_refl r r' H)|injection H as -> _; contradiction|discriminate H].
Qed.
Ltac not_io := let K := fresh in intros K;
  first [ exact (quiet_gh1 _ _ K) | exact (quiet_rev _ _ K) | exact (quiet_gh2_rev2 _ _ _ _ _ _ K) | exact (quiet_ghN _ _ _ K)
        | exact (quiet_gh2_rev3 _ _ _ _ _ _ K) | exact (quiet_gh3 _ _ K) | exact (quiet_chset _ _ _ K) | exact (quiet_chset_r3 _ _ _ K)
        | exact (quiet_r3_block _ _ _ _ K) | exact (quiet_trace_header _ _ _ K)
        | apply format_throw in K; discriminate K | apply resize_throw in K; discriminate K | apply get_int_throw in K; discriminate K
        | apply ch_set_throw in K; discriminate K | apply samp_num_throw in K; discriminate K ].

Lemma io_general p : io_safe (y_general_headers p).
Proof.
  assert (N : forall n, io_safe (y_gN_blocks p n)).
  { induction n as [|n IH]; cbn [y_gN_blocks]; unfold y_fill; [apply io_ret|]. apply io_bind; [apply io_file|]. intros b.
    apply io_bind; [apply io_lift; not_io|]. intros [h c]. apply io_bind; [apply io_mod|]. intros _. exact IH. }
  assert (N3 : forall n, io_safe (y_r3_blocks p n)).
  { induction n as [|n IH]; cbn [y_r3_blocks]; unfold y_fill; [apply io_ret|]. apply io_bind; [apply io_file|]. intros b. apply io_get. intros r.
    apply io_bind; [apply io_lift; not_io|]. intros m. apply io_bind; [apply io_mod|]. intros _. exact IH. }
  unfold y_general_headers, y_fill. apply io_bind; [apply io_file|]. intros b. apply io_bind; [apply io_lift; not_io|]. intros [g1 c].
  apply io_bind; [apply io_mod|]. intros _. destruct (_ =? 0); [apply io_ret|]. apply io_bind; [apply io_file|]. intros b2.
  apply io_bind; [apply io_lift; not_io|]. intros [[major minor] c2]. apply io_get. intros r. destruct (major <? 3).
  - apply io_bind; [apply io_lift; not_io|]. intros [g2 c3]. apply io_bind; [apply io_mod|]. intros _. apply N.
  - apply io_bind; [apply io_lift; not_io|]. intros [g2 c3]. apply io_bind; [apply io_mod|]. intros _. apply io_bind; [apply io_file|]. intros b3.
    apply io_bind; [apply io_lift; not_io|]. intros [g3 c4]. apply io_bind; [apply io_mod|]. intros _. apply N3.
Qed.
Lemma io_headers p : io_safe (y_headers p).
Proof.
  assert (S1 : forall r3 n, io_safe (y_ch_sets p r3 n)).
  { intros r3. induction n as [|n IH]; cbn [y_ch_sets]; unfold y_fill; [apply io_ret|]. apply io_bind; [apply io_file|]. intros b.
    apply io_bind; [apply io_lift; destruct r3; not_io|]. intros [h c]. apply io_bind; [apply io_mod|]. intros _. exact IH. }
  assert (S2 : forall r3 ns sk n, io_safe (y_scan_types p r3 ns sk n)).
  { intros r3 ns sk. induction n as [|n IH]; cbn [y_scan_types]; unfold y_skip; [apply io_ret|]. apply io_bind; [apply io_mod|]. intros _.
    apply io_bind; [apply S1|]. intros _. apply io_bind; [apply io_file|]. intros _. exact IH. }
  assert (S3 : forall n, io_safe (y_blks n)).
  { induction n as [|n IH]; cbn [y_blks]; unfold y_fill; [apply io_ret|]. apply io_bind; [apply io_file|]. intros b.
    apply io_bind; [exact IH|]. intros bs. apply io_ret. }
  unfold y_headers. apply io_bind; [apply io_general|]. intros _. apply io_get. intros r. apply io_bind; [apply io_lift; not_io|]. intros q.
  apply io_bind; [apply S2|]. intros _. apply io_bind; [apply io_lift; not_io|]. intros z. apply io_bind; [apply S3|]. intros bs.
  apply io_bind; [apply io_mod|]. intros _. apply io_bind; [apply io_lift; not_io|]. intros z1. apply io_bind; [apply S3|]. intros bs1. apply io_mod.
Qed.
Lemma io_read p : io_safe (y_read_trace p).
Proof.
  assert (E : forall n i h, io_safe (y_exts p n i h)).
  { induction n as [|n IH]; intros i h; cbn [y_exts]; unfold y_fill; [apply io_ret|]. apply io_bind; [apply io_file|]. intros b. apply io_get. intros r.
    apply io_bind; [|intros h1; apply IH]. apply (io_lift (ext_step p (g2_major (d_g2 (y_d r))) (d_layouts (y_d r)) i b h)).
    intros K. apply ext_step_throw in K as [K _]. discriminate K. }
  unfold y_read_trace. apply io_bind; [apply io_file|]. intros b. apply io_bind; [apply io_lift; not_io|]. intros [h0 c].
  apply io_bind.
  { unfold y_trace_ext. destruct (hidx h0 "TR_HDR_EXT") as [v h1]. apply io_bind; [apply io_lift; not_io|]. intros n. apply E. }
  intros h. apply io_bind.
  { unfold y_samples. apply io_get. intros r. apply io_bind; [apply io_lift; not_io|]. intros ch. apply io_bind; [apply io_lift; not_io|]. intros n.
    apply io_lift_bind; [not_io|]. intros [bits rs] Er. apply io_bind; [apply io_lift; not_io|]. intros z.
    apply io_bind; [apply io_file|]. intros bf. apply io_bind; [apply io_lift; not_io|]. intros z1.
    apply io_bind; [apply io_lift|intros [smp c']; apply io_ret].
    intros K. exact (quiet_prep _ _ (quiet_map _ _ (quiet_d_sample _ _ _ _ Er)) _ _ K). }
  intros smp. apply io_bind; [apply io_mod|]. intros _. apply io_get. intros r. destruct (_ =? _); [|apply io_ret].
  apply io_bind; [apply io_mod|]. intros _. apply io_get. intros r1. apply io_bind; [destruct (has_record _); [apply io_headers|apply io_ret]|].
  intros _. apply io_ret.
Qed.
