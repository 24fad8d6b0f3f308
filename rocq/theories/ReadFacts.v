(** Lemmas about reading arbitrary files (C22-C27, C29). *)
From Verif Require Import BaseFacts Platform Fp TraceHdr SegyTypes SegyCodec CodecFacts SampleFacts
     HdrFacts ISegy OSegy OpenFacts CodecSpec LayoutSpec LayoutFacts BinFacts WriterFacts RoundSpec ReaderFacts ReadSpec.

(** ** The invariant of an open reader *)
Definition r_inv (p : platform) (s : isegy) : Prop :=
  fpos (i_file s) = i_cur s /\ 0 <= i_cur s < 2 ^ 63 /\ len (fdata (i_file s)) < 2 ^ 63 /\
  (exists r, sample_reader p (i_endian s) (bh_format_code (i_bh s)) = Ok r) /\
  bytes_per_sample (bh_format_code (i_bh s)) = Some (i_bps s) /\
  in_i 32 (i_spt s * i_bps s) = true /\ 0 <= i_bufsz s <= p_max_alloc p /\
  (is_fixed (i_bh s) = true -> i_bufsz s = i_spt s * i_bps s).

Lemma bps_range p e fmt r b : sample_reader p e fmt = Ok r -> bytes_per_sample fmt = Some b -> 1 <= b <= 8.
Proof.
  intros H B. pose proof (reader_fmt _ _ _ _ H) as Sup.
  unfold supported in Sup. cbn [In] in Sup.
  repeat (destruct Sup as [<-|Sup]); try contradiction; injection B as <-; lia.
Qed.

Lemma open_alloc p content maps ov b0 s : i_open p content maps ov b0 = Ok s ->
  0 <= i_bufsz s <= p_max_alloc p.
Proof.
  intros H. unfold i_open in H. apply bind_ok in H as (u & _ & H).
  apply bind_ok in H as ([t f1] & _ & H). apply bind_ok in H as ([bin f2] & _ & H).
  cbv zeta in H. apply bind_ok in H as (e & _ & H). apply bind_ok in H as (b & _ & H).
  apply bind_ok in H as (r & _ & H).
  destruct (bytes_per_sample (bh_format_code b)) as [bps|]; [|discriminate].
  apply bind_ok in H as ([texts f3] & _ & H). apply bind_ok in H as ([first f4] & _ & H).
  apply bind_ok in H as ([[eod st] f5] & _ & H).
  apply bind_ok in H as (f6 & _ & H). apply bind_ok in H as (n & _ & H).
  apply bind_ok in H as (sz & E12 & H). injection H as <-. cbn [i_bufsz].
  unfold resize_to in E12. cbv zeta in E12. destruct (Z.leb_spec (wrapu 64 n) (p_max_alloc p)); [|discriminate].
  injection E12 as <-. pose proof (wrapu_bound 64 n). lia.
Qed.

Lemma open_r_inv p content maps ov b0 s : i_open p content maps ov b0 = Ok s ->
  p_max_alloc p < 2 ^ 63 -> len content < 2 ^ 63 -> r_inv p s.
Proof.
  intros H A L. pose proof (open_alloc _ _ _ _ _ _ H) as B.
  apply i_open_inv in H as (R & Bp & _ & _ & D & P & C & _ & I & Z & F & _).
  unfold r_inv. rewrite D, P, C. repeat split; auto; try lia.
  intros _. rewrite Z. apply wrapu_small. unfold in_i in I. change (32 - 1) with 31 in I.
  assert (i_spt s * i_bps s < 2 ^ 31) by lia.
  destruct (Z.lt_ge_cases (i_spt s * i_bps s) 0) as [N|N]; [exfalso|lia].
  rewrite Z in B. unfold wrapu in B.
  replace ((i_spt s * i_bps s) mod 2 ^ 64) with (i_spt s * i_bps s + 2 ^ 64) in B; [lia|].
  apply Z.mod_unique with (q := -1); lia.
Qed.

(** ** Positions *)
Lemma fread_inv n f d f' : 0 <= n -> 0 <= fpos f < 2 ^ 63 -> len (fdata f) < 2 ^ 63 -> fread n f = Ok (d, f') ->
  fdata f' = fdata f /\ fpos f' = fpos f + n /\ 0 <= fpos f' < 2 ^ 63 /\ len d = n /\
  (0 < n -> fpos f + n <= len (fdata f)).
Proof.
  intros Hn Hp Hl H. pose proof (fread_ok _ _ _ _ Hn H (proj1 Hp)) as (L & _ & D & P).
  unfold fread in H. destruct (Z.eqb_spec n 0); [repeat split; auto; lia|].
  destruct (Z.leb_spec (fpos f + n) (len (fdata f))); [|discriminate]. repeat split; auto; lia.
Qed.

Lemma rd_headers_inv p e : forall ls n f h h' f', rd_headers p e ls n f h = Ok (h', f') ->
  0 <= fpos f < 2 ^ 63 -> len (fdata f) < 2 ^ 63 ->
  fdata f' = fdata f /\ fpos f' = fpos f + 240 * Z.max 0 n /\ 0 <= fpos f' < 2 ^ 63.
Proof.
  induction ls as [|[nm l] ls IH]; intros n f h h' f' H Hp Hl; cbn [rd_headers] in H;
    (destruct (Z.leb_spec n 0) as [N|N]; [injection H as <- <-; rewrite Z.max_l by lia; repeat split; lia|]).
  - apply bind_ok in H as (f1 & E & H). injection H as <- <-. apply fseek_cur_inv in E as (D & P & R).
    change TR_HEADER_SIZE with 240 in *. rewrite Z.max_r by lia. repeat split; auto; lia.
  - apply bind_ok in H as ([b f1] & E & H). change TR_HEADER_SIZE with 240 in *.
    apply fread_inv in E as (D & P & R & _ & _); [|lia|lia|lia].
    apply bind_ok in H as (h1 & _ & H). apply IH in H as (D2 & P2 & R2); [|lia|rewrite D; lia].
    repeat split; try congruence; try lia.
Qed.

Definition header_bytes (s : isegy) : Z := 240 * Z.max 0 (bh_max_num_add_tr_headers (i_bh s) + 1).

Lemma trc_header_inv p s h f1 : r_inv p s -> read_trc_header p s = Ok (h, f1) ->
  fdata f1 = fdata (i_file s) /\ fpos f1 = i_cur s + header_bytes s /\ 0 <= fpos f1 < 2 ^ 63.
Proof.
  intros (P & C & L & _) H. unfold read_trc_header in H. apply bind_ok in H as (n & E & H).
  unfold sarith in E. destruct (in_i _ _); [|discriminate]. injection E as <-.
  apply rd_headers_inv in H as (D & P1 & R); [|lia|exact L]. rewrite <- P. auto.
Qed.

Lemma smpls_inv p s sz f smp f' : 0 <= sz -> 0 <= fpos f < 2 ^ 63 -> len (fdata f) < 2 ^ 63 ->
  read_smpls p s sz f = Ok (smp, f') ->
  fdata f' = fdata f /\ fpos f' = fpos f + sz /\ 0 <= fpos f' < 2 ^ 63 /\
  (0 < sz -> fpos f + sz <= len (fdata f)).
Proof.
  intros Hs Hp Hl H. unfold read_smpls in H. apply bind_ok in H as ([d f1] & E & H).
  apply bind_ok in H as (r & _ & H). apply bind_ok in H as ([sm c] & _ & H). injection H as <- <-.
  apply fread_inv in E; tauto.
Qed.

(** The size of the samples of the next trace. *)
Lemma buf_want p b want : p_max_alloc p < 2 ^ 63 -> 0 <= b <= p_max_alloc p -> 0 <= want < 2 ^ 64 ->
  (if b =? want then Ok want else resize_to p want)
  = if want <=? p_max_alloc p then Ok want else Throw EAlloc.
Proof.
  intros A B W. unfold resize_to. cbv zeta. rewrite wrapu_small by lia.
  destruct (Z.eqb_spec b want) as [->|_]; [|reflexivity]. replace (want <=? p_max_alloc p) with true by lia. reflexivity.
Qed.

Lemma read_trace_inv p s t s' : p_max_alloc p < 2 ^ 63 -> r_inv p s -> read_trace p s = Ok (t, s') ->
  r_inv p s' /\ same_reader s s' /\ i_cur s' = i_cur s + header_bytes s + i_bufsz s' /\
  s' = i_set s (i_file s') (i_bufsz s') /\ (0 < i_bufsz s' -> i_cur s' <= len (fdata (i_file s))) /\
  read_header p s = Ok (t_hdr t, i_set s (i_file s') (i_bufsz s)).
Proof.
  intros A I H. pose proof I as (P & C & L & R & Bp & I32 & Bf & Fx). unfold read_trace in H.
  apply bind_ok in H as ([h f1] & E & H). pose proof (trc_header_inv _ _ _ _ I E) as (D1 & P1 & R1).
  unfold read_header. rewrite E. cbn [bind].
  destruct (is_fixed (i_bh s)) eqn:FX.
  - apply bind_ok in H as ([smp f2] & E2 & H). injection H as <- <-.
    apply smpls_inv in E2 as (D2 & P2 & R2 & O2); [|lia|exact R1|rewrite D1; exact L].
    specialize (Fx eq_refl).
    rewrite sarith_ok by exact I32. cbn [bind].
    assert (K : fseek_cur (i_spt s * i_bps s) f1 = Ok f2).
    { unfold fseek_cur, fseek. rewrite <- Fx, <- P2. replace (_ && _) with true by lia. rewrite <- D2.
      destruct f2; reflexivity. }
    rewrite K. cbn [bind]. unfold i_set, same_reader, r_inv, is_fixed in *. cbn [i_file i_bh i_maps i_text i_stanzas i_endian i_bps i_spt i_bufsz i_first i_cur i_eod t_hdr t_smp].
    rewrite D2, D1. split; [repeat split; auto; lia|]. split; [repeat split; auto|].
    split; [lia|]. split; [reflexivity|]. split; [|reflexivity].
    intros Hb. specialize (O2 Hb). rewrite D1 in O2. lia.
  - destruct (hidx h "SAMP_NUM") as [v h']. apply bind_ok in H as (n & En & H). cbv zeta in H.
    pose proof (wrapu_bound 64 (wrapu 64 n * i_bps s) ltac:(lia)) as W.
    rewrite (buf_want p (i_bufsz s) _ A Bf W) in H.
    destruct (Z.leb_spec (wrapu 64 (wrapu 64 n * i_bps s)) (p_max_alloc p)) as [Al|Al]; [|discriminate].
    cbn [bind] in H. set (want := wrapu 64 (wrapu 64 n * i_bps s)) in *.
    apply bind_ok in H as ([smp f2] & E2 & H). injection H as <- <-.
    apply smpls_inv in E2 as (D2 & P2 & R2 & O2); [|lia|exact R1|rewrite D1; exact L].
    rewrite En. cbn [bind].
    assert (K : fseek_cur (wraps 64 (wrapu 64 n * i_bps s)) f1 = Ok f2).
    { unfold fseek_cur, fseek. rewrite <- wraps_wrapu. fold want.
      rewrite wraps_id by (try lia; unfold in_i; change (64 - 1) with 63; lia).
      rewrite <- P2. replace (_ && _) with true by lia. rewrite <- D2. destruct f2; reflexivity. }
    rewrite K. cbn [bind]. unfold i_set, same_reader, r_inv, is_fixed in *. cbn [i_file i_bh i_maps i_text i_stanzas i_endian i_bps i_spt i_bufsz i_first i_cur i_eod t_hdr t_smp].
    rewrite D2, D1. split; [repeat split; auto; try lia; intros; congruence|]. split; [repeat split; auto|].
    split; [lia|]. split; [reflexivity|]. split; [|reflexivity].
    intros Hb. specialize (O2 Hb). rewrite D1 in O2. lia.
Qed.

Lemma r_inv_buf p s b : r_inv p s -> 0 <= b <= p_max_alloc p ->
  (is_fixed (i_bh s) = true -> b = i_bufsz s) -> r_inv p (i_set s (i_file s) b).
Proof.
  intros (P & C & L & R & Bp & I32 & Bf & Fx) Hb Hf. unfold r_inv, i_set. cbn [i_file i_bh i_maps i_text i_stanzas i_endian i_bps i_spt i_bufsz i_first i_cur i_eod t_hdr t_smp]. rewrite P.
  repeat split; auto; try lia. all: intros F; rewrite Hf by exact F; auto.
Qed.

(** The size of the sample buffer left by earlier calls does not matter. *)
Lemma read_trace_buf p s b t s' : p_max_alloc p < 2 ^ 63 -> r_inv p s -> 0 <= b <= p_max_alloc p ->
  (is_fixed (i_bh s) = true -> b = i_bufsz s) ->
  read_trace p s = Ok (t, s') -> read_trace p (i_set s (i_file s) b) = Ok (t, s').
Proof.
  intros A I Hb Hf H. pose proof I as (P & C & L & R & Bp & I32 & Bf & Fx). unfold read_trace in *.
  change (read_trc_header p (i_set s (i_file s) b)) with (read_trc_header p s).
  change (i_bh (i_set s (i_file s) b)) with (i_bh s).
  change (i_bps (i_set s (i_file s) b)) with (i_bps s).
  change (i_bufsz (i_set s (i_file s) b)) with b.
  apply bind_ok in H as ([h f1] & E & H). rewrite E. cbn [bind].
  destruct (is_fixed (i_bh s)).
  - rewrite Hf by reflexivity. exact H.
  - destruct (hidx h "SAMP_NUM") as [v h']. apply bind_ok in H as (n & En & H). rewrite En. cbn [bind].
    cbv zeta in *. pose proof (wrapu_bound 64 (wrapu 64 n * i_bps s) ltac:(lia)) as W.
    rewrite (buf_want p (i_bufsz s) _ A Bf W) in H. rewrite (buf_want p b _ A Hb W). exact H.
Qed.

Lemma read_header_inv p s h s' : r_inv p s -> read_header p s = Ok (h, s') ->
  r_inv p s' /\ same_reader s s' /\ i_bufsz s' = i_bufsz s /\ s' = i_set s (i_file s') (i_bufsz s) /\
  (is_fixed (i_bh s) = true -> i_cur s' = i_cur s + header_bytes s + i_bufsz s).
Proof.
  intros I H. pose proof I as (P & C & L & R & Bp & I32 & Bf & Fx). unfold read_header in H.
  apply bind_ok in H as ([h1 f1] & E & H). pose proof (trc_header_inv _ _ _ _ I E) as (D1 & P1 & R1).
  assert (G : forall f2 off, fseek_cur off f1 = Ok f2 ->
     r_inv p (i_set s f2 (i_bufsz s)) /\ same_reader s (i_set s f2 (i_bufsz s)) /\
     fpos f2 = i_cur s + header_bytes s + off).
  { intros f2 off K. apply fseek_cur_inv in K as (D2 & P2 & R2).
    unfold i_set, same_reader, r_inv, is_fixed in *. cbn [i_file i_bh i_maps i_text i_stanzas i_endian i_bps i_spt i_bufsz i_first i_cur i_eod t_hdr t_smp]. rewrite D2, D1.
    split; [repeat split; auto; lia|]. split; [repeat split|]. lia. }
  destruct (is_fixed (i_bh s)) eqn:FX.
  - rewrite sarith_ok in H by exact I32. cbn [bind] in H. apply bind_ok in H as (f2 & E2 & H). injection H as <- <-.
    destruct (G _ _ E2) as (G1 & G2 & G3). rewrite <- Fx in G3 by reflexivity. split; [exact G1|]. split; [exact G2|].
    split; [reflexivity|]. split; [reflexivity|]. intros _. exact G3.
  - destruct (hidx h1 "SAMP_NUM") as [v h']. apply bind_ok in H as (n & En & H).
    apply bind_ok in H as (f2 & E2 & H). injection H as <- <-.
    destruct (G _ _ E2) as (G1 & G2 & G3). split; [exact G1|]. split; [exact G2|].
    split; [reflexivity|]. split; [reflexivity|]. discriminate.
Qed.

(** ** Mixing the two calls (C22) *)
Lemma mixed_same p : p_max_alloc p < 2 ^ 63 -> forall ops ts s s1 s2, r_inv p s ->
  read_mixed p (repeat true (List.length ops)) s = Ok (map Full ts, s1) ->
  forall b, 0 <= b <= p_max_alloc p -> (is_fixed (i_bh s) = true -> b = i_bufsz s) ->
  s2 = i_set s (i_file s) b ->
  exists b', read_mixed p ops s2 = Ok (map (fun x => part_of (fst x) (snd x)) (combine ops ts), i_set s1 (i_file s1) b').
Proof.
  intros A. induction ops as [|op ops IH]; intros ts s s1 s2 I H b Hb Hf ->; cbn [List.length repeat read_mixed] in *.
  - injection H as H1 H2. destruct ts; [|discriminate]. subst. exists b. reflexivity.
  - apply bind_ok in H as ([x s3] & E & H). apply bind_ok in E as ([t s3'] & E & E').
    injection E' as <- ->. apply bind_ok in H as ([l s4] & E2 & H). injection H as H1 ->.
    destruct ts as [|t' ts]; [discriminate|]. cbn [map] in H1. injection H1 as <- ->.
    pose proof (read_trace_buf _ _ _ _ _ A I Hb Hf E) as Eb.
    pose proof (r_inv_buf _ _ _ I Hb Hf) as Ib.
    pose proof (read_trace_inv _ _ _ _ A I E) as (I3 & S3 & _ & W3 & _).
    pose proof (read_trace_inv _ _ _ _ A Ib Eb) as (_ & _ & _ & _ & _ & Hh).
    cbn [combine map fst snd]. destruct op; cbn [part_of].
    + rewrite Eb. cbn [bind].
      assert (X : s3 = i_set s3 (i_file s3) (i_bufsz s3)).
      { destruct I3 as (P3 & _). destruct s3. unfold i_set. cbn in *. rewrite P3. reflexivity. }
      destruct (IH ts s3 s1 s3 I3 E2 (i_bufsz s3)) as (b' & K); [apply I3|reflexivity|exact X|].
      rewrite K. cbn [bind]. exists b'. reflexivity.
    + rewrite Hh. cbn [bind].
      destruct (IH ts s3 s1 (i_set s3 (i_file s3) b) I3 E2 b Hb) as (b' & K); [|reflexivity|].
      { destruct S3 as (S1 & _). rewrite S1. intros F. rewrite (Hf F). rewrite W3.
        rewrite W3 in I3. destruct I as (_ & _ & _ & _ & _ & _ & _ & Fx). destruct I3 as (_ & _ & _ & _ & _ & _ & _ & Fx3).
        cbn in Fx3 |- *. rewrite Fx3, Fx by exact F. reflexivity. }
      replace (i_set (i_set s (i_file s) b) (i_file s3) (i_bufsz (i_set s (i_file s) b))) with (i_set s3 (i_file s3) b)
        by (rewrite W3; reflexivity).
      rewrite K. cbn [bind]. exists b'. reflexivity.
Qed.

(** ** Undefined behaviour (C29) *)
Definition noub {A} (x : outcome A) : Prop := x <> UB.
Lemma noub_bind {A B} (x : outcome A) (f : A -> outcome B) :
  noub x -> (forall a, x = Ok a -> noub (f a)) -> noub (bind x f).
Proof. intros U H. destruct x; cbn; [apply H; reflexivity|discriminate|exfalso; apply U; reflexivity]. Qed.

Lemma fseek_noub q f : noub (fseek q f).
Proof. unfold fseek, noub. destruct (_ && _); discriminate. Qed.
Lemma get_int_noub v : noub (get_int v).
Proof. destruct v; discriminate. Qed.

Lemma rd_headers_noub p e : forall ls n f h, safe_layouts ls -> 0 <= fpos f -> noub (rd_headers p e ls n f h).
Proof.
  induction ls as [|[nm l] ls IH]; intros n f h S Hp; cbn [rd_headers]; (destruct (n <=? 0); [discriminate|]).
  - apply noub_bind; [apply fseek_noub|]. discriminate.
  - apply noub_bind; [apply fread_not_ub|]. intros [b f1] E. change TR_HEADER_SIZE with 240 in E.
    apply fread_ok in E as (L & _ & _ & P); [|lia|exact Hp].
    destruct (rd_fields_ok p e b l L (proj1 (S nm l (or_introl eq_refl))) h) as (h' & Eh & _).
    rewrite Eh. cbn [bind]. apply IH; [intros a b0 K; apply (S a b0); right; exact K|lia].
Qed.

Lemma prep_ok (r : P Z) n : prefix_reader r n -> forall k c, (k * n <= List.length c)%nat ->
  exists v c', prep r k c = Ok (v, c') /\ List.length v = k.
Proof.
  intros Hr. induction k as [|k IH]; intros c Hc; cbn [prep].
  - exists [], c. split; reflexivity.
  - cbn in Hc. rewrite <- (firstn_skipn n c). destruct (Hr (firstn n c)) as (v & K); [rewrite firstn_length; lia|].
    rewrite (pbind_ok _ _ _ _ _ (K _)). destruct (IH (skipn n c)) as (vs & c' & E & Lv); [rewrite skipn_length; lia|].
    rewrite (pbind_ok _ _ _ _ _ E). exists (v :: vs), c'. split; [reflexivity|cbn; lia].
Qed.

Lemma smpls_noub p s sz f : r_inv p s -> 0 <= sz -> 0 <= fpos f -> noub (read_smpls p s sz f).
Proof.
  intros (P & C & L & (r & R) & Bp & _) Hs Hp. unfold read_smpls.
  apply noub_bind; [apply fread_not_ub|]. intros [b f1] E. apply fread_ok in E as (Lb & _); [|exact Hs|exact Hp].
  rewrite R. cbn [bind]. pose proof (bps_range _ _ _ _ _ R Bp) as B.
  assert (Bn : bytes_per_sample (bh_format_code (i_bh s)) = Some (Z.of_nat (Z.to_nat (i_bps s)))) by (rewrite Z2Nat.id by lia; exact Bp).
  destruct (prep_ok r _ (sample_reader_prefix _ _ _ _ _ R Bn) (Z.to_nat (sz / i_bps s)) b) as (v & c & K & _).
  { unfold len in Lb. pose proof (Z.mul_div_le sz (i_bps s) ltac:(lia)).
    pose proof (Z.div_pos sz (i_bps s) Hs ltac:(lia)).
    rewrite <- Z2Nat.inj_mul by lia. lia. }
  rewrite K. discriminate.
Qed.


Lemma trc_header_noub p s : r_inv p s -> safe_layouts (i_maps s) -> add_ok (i_bh s) -> noub (read_trc_header p s).
Proof.
  intros I S Ad. unfold read_trc_header. rewrite sarith_ok by (unfold in_i, add_ok in *; change (32 - 1) with 31; lia).
  cbn [bind]. apply rd_headers_noub; [exact S|]. destruct I as (P & C & _). lia.
Qed.

Lemma read_trace_noub p s : p_max_alloc p < 2 ^ 63 -> r_inv p s -> safe_layouts (i_maps s) -> add_ok (i_bh s) ->
  noub (read_trace p s).
Proof.
  intros A I S Ad. pose proof I as (P & C & L & R & Bp & I32 & Bf & Fx). unfold read_trace.
  apply noub_bind; [apply trc_header_noub; assumption|]. intros [h f1] E.
  pose proof (trc_header_inv _ _ _ _ I E) as (D1 & P1 & R1).
  destruct (is_fixed (i_bh s)).
  - apply noub_bind; [apply smpls_noub; [exact I|lia|lia]|]. intros [? ?] _. discriminate.
  - destruct (hidx h "SAMP_NUM") as [v h']. apply noub_bind; [apply get_int_noub|]. intros n _. cbv zeta.
    pose proof (wrapu_bound 64 (wrapu 64 n * i_bps s) ltac:(lia)) as W.
    rewrite (buf_want p (i_bufsz s) _ A Bf W). destruct (_ <=? _); [|discriminate]. cbn [bind].
    apply noub_bind; [apply smpls_noub; [exact I|lia|lia]|]. intros [? ?] _. discriminate.
Qed.

Lemma read_header_noub p s : r_inv p s -> safe_layouts (i_maps s) -> add_ok (i_bh s) -> noub (read_header p s).
Proof.
  intros I S Ad. pose proof I as (P & C & L & R & Bp & I32 & Bf & Fx). unfold read_header.
  apply noub_bind; [apply trc_header_noub; assumption|]. intros [h f1] E.
  destruct (is_fixed (i_bh s)).
  - rewrite sarith_ok by exact I32. cbn [bind]. apply noub_bind; [apply fseek_noub|]. discriminate.
  - destruct (hidx h "SAMP_NUM") as [v h']. apply noub_bind; [apply get_int_noub|]. intros n _. cbv zeta.
    apply noub_bind; [apply fseek_noub|]. discriminate.
Qed.

Lemma mixed_noub p : p_max_alloc p < 2 ^ 63 -> forall ops s, r_inv p s -> safe_layouts (i_maps s) -> add_ok (i_bh s) ->
  noub (read_mixed p ops s).
Proof.
  intros A. induction ops as [|op ops IH]; intros s I S Ad; cbn [read_mixed]; [discriminate|].
  apply noub_bind.
  - destruct op; (apply noub_bind; [first [apply read_trace_noub | apply read_header_noub]; assumption|intros [? ?] _; discriminate]).
  - intros [x s1] E. assert (G : r_inv p s1 /\ same_reader s s1).
    { destruct op; apply bind_ok in E as ([y s1'] & E & X); injection X as _ ->.
      - destruct (read_trace_inv _ _ _ _ A I E) as (G1 & G2 & _). split; assumption.
      - destruct (read_header_inv _ _ _ _ I E) as (G1 & G2 & _). split; assumption. }
    destruct G as (I1 & S1 & S2 & _). apply noub_bind; [|intros [? ?] _; discriminate].
    apply IH; [exact I1|rewrite S2; exact S|rewrite S1; exact Ad].
Qed.

Lemma mixed_inv p : p_max_alloc p < 2 ^ 63 -> forall ops s l s', r_inv p s -> read_mixed p ops s = Ok (l, s') ->
  r_inv p s' /\ same_reader s s'.
Proof.
  intros A. induction ops as [|op ops IH]; intros s l s' I H; cbn [read_mixed] in H.
  - injection H as <- <-. split; [exact I|apply same_reader_refl].
  - apply bind_ok in H as ([x s1] & E & H). apply bind_ok in H as ([y s2] & E2 & H). injection H as _ <-.
    assert (G : r_inv p s1 /\ same_reader s s1).
    { destruct op; apply bind_ok in E as ([z s1'] & E & X); injection X as _ ->.
      - destruct (read_trace_inv _ _ _ _ A I E) as (G1 & G2 & _). split; assumption.
      - destruct (read_header_inv _ _ _ _ I E) as (G1 & G2 & _). split; assumption. }
    destruct G as (I1 & S1). destruct (IH _ _ _ I1 E2) as (I2 & S2). split; [exact I2|].
    exact (same_reader_trans _ _ _ S1 S2).
Qed.

Lemma opened_inv p content maps s : opened p content maps s -> p_max_alloc p < 2 ^ 63 -> len content < 2 ^ 63 ->
  r_inv p s /\ i_maps s = maps /\ fdata (i_file s) = content.
Proof.
  intros [O|(bh & O)] A L; [unfold isegy_open in O|unfold isegy_open_bh in O];
    (split; [exact (open_r_inv _ _ _ _ _ _ O A L)|]); apply i_open_inv in O as (_ & _ & _ & M & D & _); auto.
Qed.
