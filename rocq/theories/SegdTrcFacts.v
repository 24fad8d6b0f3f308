(** The demux trace header and its first extension block as half bytes. *)
From Coq Require Import Reals Lra.
From Verif Require Import BaseFacts Bcd BcdSpec BcdFacts BcdFacts2 Platform CodecSpec Fp FpSpec
  FpReal SampleReal TraceHdr SegyTypes SegyCodec CodecFacts SegdTypes SegdSpec ISegd OSegd NibFacts
  FixFacts SegdHdrFacts.
Local Open Scope Z_scope.

Lemma opt_int_key h k v : int_key h k v -> opt_int h k = Ok v.
Proof. unfold opt_int. intros [->|[-> ->]]; reflexivity. Qed.

Lemma opt_fix8_key h k m : fix_key h k m -> 0 <= m < 2 ^ 53 ->
  exists d, opt_fix8 h k = Ok d /\ holds d (IZR m).
Proof.
  unfold opt_fix8. intros [(d & -> & F)|[-> ->]] B.
  - exists (d_mul d (d_pow2 8)). split; [reflexivity|]. apply fixp_mul; [assumption|lia|lia].
  - exists 0. split; [reflexivity|]. apply (i2d_holds 0). lia.
Qed.

Lemma d2u_int_holds p w d k : holds d (IZR k) -> 0 <= k < 2 ^ w -> d2u p w d = Ok k.
Proof.
  intros H B. unfold d2u. rewrite (d_trunc_int _ _ H). unfold in_u.
  destruct (Z.leb_spec 0 k); [|lia]. destruct (Z.ltb_spec k (2 ^ w)); [reflexivity|lia].
Qed.

Lemma d2s_int_holds p w d k : holds d (IZR k) -> - 2 ^ (w - 1) <= k < 2 ^ (w - 1) ->
  d2s p w d = Ok k.
Proof.
  intros H B. unfold d2s. rewrite (d_trunc_int _ _ H). unfold in_i.
  destruct (Z.leb_spec (- 2 ^ (w - 1)) k); [|lia].
  destruct (Z.ltb_spec k (2 ^ (w - 1))); [reflexivity|lia].
Qed.

Lemma WN_24d p d k : holds d (IZR k) -> 0 <= k < 2 ^ 24 -> WN [] (w24_d p d) (nibs (be_bytes 3 k)).
Proof.
  intros H B. unfold w24_d. eapply WN_let; [apply (d2u_int_holds p 32 d k H); lia|apply WN_24].
Qed.

Lemma th_WN p h t : th_carries h t -> th_range t ->
  WN [] (trace_header_writer p h) (th_layout t).
Proof.
  unfold th_carries, th_range, below. intros C R. decompose [and] C. clear C.
  decompose [and] R. clear R. change (10 ^ Z.of_nat 2) with 100 in *.
  unfold trace_header_writer, th_layout.
  eapply WN_let; [apply opt_int_key; eassumption|]. cbv beta.
  apply WN_even; [ev|apply WN_esc4; lia|].
  apply WN_even; [ev| |].
  { eapply WN_let; [apply opt_int_key; eassumption|]. cbv beta. wdig. lia. }
  match goal with H : hget h "CH_SET_NUM" = _ |- _ => rewrite H end.
  eapply WN_let; [reflexivity|]. cbv beta.
  apply WN_even; [ev|apply WN_esc2; lia|].
  apply WN_even; [ev| |].
  { eapply WN_let; [apply opt_int_key; eassumption|]. apply WN_esc4; lia. }
  assert (F8 : forall k m, fix_key h k m -> 0 <= m < 2 ^ 24 ->
    WN [] (wlet (opt_fix8 h k) (w24_d p)) (nibs (be_bytes 3 m))).
  { intros k m K B. destruct (opt_fix8_key h k m K ltac:(lia)) as (d & E & Hd).
    eapply WN_let; [exact E|]. apply WN_24d; assumption. }
  apply WN_even; [ev|apply F8; [assumption|lia]|].
  apply WN_even; [ev| |].
  { eapply WN_let; [apply opt_int_key; eassumption|]. apply WN_byte_id; lia. }
  apply WN_even; [ev| |].
  { destruct (opt_fix8_key h "SAMPLE_SKEW" (th_skew t)) as (d & E & Hd); [assumption|lia|].
    eapply WN_let; [exact E|]. unfold wbyte_d.
    eapply WN_let; [apply (d2s_int_holds p 8 d _ Hd); lia|]. apply WN_byte_id; lia. }
  apply WN_even; [ev| |].
  { eapply WN_let; [apply opt_int_key; eassumption|]. apply WN_byte_id; lia. }
  apply WN_even; [ev|apply F8; [assumption|lia]|].
  apply WN_even; [ev|apply WN_16|].
  apply WN_24.
Qed.

(** The header of the values [t]. *)
Definition th_hdr (t : th) : hdr :=
  let fix8 v := VDbl (d_div (i2d v) (d_pow2 8)) in
  [("FFID", VInt (th_ffid t)); ("SCAN_TYPE_NUM", VInt (th_scan t));
   ("CH_SET_NUM", VInt (th_set t)); ("CHAN", VInt (unesc 4 (th_chan t)));
   ("FIRST_TIMING_WORD", fix8 (th_ftw t)); ("TR_HDR_EXT", VInt (th_ext t));
   ("SAMPLE_SKEW", fix8 (th_skew t)); ("TRACE_EDIT", VInt (th_edit t));
   ("TIME_BREAK_WIN", fix8 (th_tbw t))]%string.

Lemma th_RN p t : p_left_first p = true -> th_range t ->
  RN [] (rd_trace_header p) (th_layout t) (th_hdr t).
Proof.
  unfold th_range, below. intros Hp R. decompose [and] R. clear R.
  change (10 ^ Z.of_nat 2) with 100 in *.
  unfold rd_trace_header, th_layout.
  apply (RN_even _ _ _ (unesc 4 (th_ffid t))); [ev|apply RN_esc; lia|].
  apply (RN_even _ _ _ (th_scan t)); [ev|apply RN_dig; [reflexivity|lia|unfold below; lia]|].
  apply (RN_even _ _ _ (unesc 2 (th_set t))); [ev|apply RN_esc; lia|].
  apply (RN_even _ _ _ (unesc 4 (th_chan t))); [ev|apply RN_esc; lia|].
  apply (RN_even _ _ _ (th_ftw t)); [ev|apply RN_24; [exact Hp|lia]|].
  apply (RN_even _ _ _ (th_ext t)); [ev|apply RN_r8; lia|].
  apply (RN_even _ _ _ (th_skew t)); [ev|apply RN_r8; lia|].
  apply (RN_even _ _ _ (th_edit t)); [ev|apply RN_r8; lia|].
  apply (RN_even _ _ _ (th_tbw t)); [ev|apply RN_24; [exact Hp|lia]|].
  apply (RN_even _ _ _ (if th_set t <? 100 then 0 else th_set t));
    [ev|apply RN_16; destruct (th_set t <? 100); lia|].
  apply (RN_last _ _ _ (th_ffid t)); [ev|apply RN_24; [exact Hp|lia]|].
  match goal with |- RN [] (pret ?v) [] ?v' => apply (RN_val [] _ _ v v'); [|apply RN_ret] end.
  unfold th_hdr.
  destruct (Z.ltb_spec (th_set t) 100) as [L|L].
  - assert (U : unesc 2 (th_set t) = th_set t).
    { unfold unesc. change (10 ^ Z.of_nat 2) with 100.
      destruct (Z.leb_spec 100 (th_set t)) as [M|M]; [exfalso; clear - L M; lia|reflexivity]. }
    rewrite U. change (0 =? 0) with true. cbv iota.
    destruct (Z.eqb_spec (th_ffid t) 0) as [E|E]; [rewrite E|]; reflexivity.
  - destruct (Z.eqb_spec (th_set t) 0) as [E|E]; [exfalso; clear - E L; lia|].
    destruct (Z.eqb_spec (th_ffid t) 0) as [E'|E']; [rewrite E'|]; reflexivity.
Qed.

Lemma th_hdr_shows t : th_range t -> th_shows (th_hdr t) t.
Proof.
  unfold th_range. intros R. decompose [and] R. clear R.
  unfold th_shows, th_hdr. repeat (split; [reflexivity|]).
  eexists _, _, _. split; [reflexivity|]. split; [apply fixp_div; lia|].
  split; [reflexivity|]. split; [apply fixp_div; lia|]. split; [reflexivity|]. apply fixp_div; lia.
Qed.

(** ** The first extension block *)

Lemma fixp_scale d z n m : fixp d z n -> 0 <= m -> fixp d (z * 2 ^ m) (n + m).
Proof.
  intros H Hm. apply fixp_pw in H. apply fixp_pw. destruct H as [H Nz]. split; [|exact Nz].
  replace (IZR (z * 2 ^ m) * pw (- (n + m)))%R with (IZR z * pw (- n))%R; [exact H|].
  rewrite mult_IZR. replace (- (n + m)) with (- n + - m) by lia. rewrite pw_add.
  rewrite <- (pw_IZR m) by lia.
  transitivity (IZR z * pw (- n) * (pw m * pw (- m)))%R; [|ring].
  rewrite <- pw_add. replace (m + - m) with 0 by lia. rewrite pw_0. ring.
Qed.

Lemma num_val_key p h k m : num_key h k m -> 0 <= m < 2 ^ 40 ->
  exists d, num_val p (hget h k) = Ok (d, m / 2 ^ 16) /\ fixp d m 16.
Proof.
  intros K B.
  assert (Bq : 0 <= m / 2 ^ 16 < 2 ^ 24).
  { split; [apply Z.div_pos; lia|]. apply Z.div_lt_upper_bound; lia. }
  destruct K as [(d & -> & F)|[(z & -> & ->)|[-> ->]]].
  - exists d. split; [|exact F]. unfold num_val, d2s. rewrite (fixp_trunc d m 16 F) by lia.
    unfold in_i. destruct (Z.leb_spec (- 2 ^ (64 - 1)) (m / 2 ^ 16)); [|lia].
    destruct (Z.ltb_spec (m / 2 ^ 16) (2 ^ (64 - 1))); [reflexivity|lia].
  - rewrite Z.div_mul in * by lia. exists (i2d z). split; [reflexivity|].
    apply (fixp_scale (i2d z) z 0 16); [|lia]. apply fixp_int. lia.
  - exists (i2d 0). split; [reflexivity|]. apply (fixp_scale (i2d 0) 0 0 16); [|lia].
    apply fixp_int. lia.
Qed.

Lemma te_WN p h t : te_carries h t -> te_range t ->
  WN [] (ext_std_writer p 2 h) (te_layout t).
Proof.
  unfold te_carries, te_range. intros C R. decompose [and] C. clear C.
  decompose [and] R. clear R. unfold ext_std_writer, te_layout.
  change (1 <? 2) with true. change (2 <? 2) with false. cbv iota.
  assert (I1 : forall k m, num_key h k m -> 0 <= m < 2 ^ 40 ->
    WN [] (wlet (num_val p (hget h k)) (fun l => w24_d p (fst l))) (nibs (be_bytes 3 (m / 2 ^ 16)))).
  { intros k m K B. destruct (num_val_key p h k m K B) as (d & E & F).
    assert (Bq : 0 <= m / 2 ^ 16 < 2 ^ 24).
    { split; [apply Z.div_pos; lia|]. apply Z.div_lt_upper_bound; lia. }
    eapply WN_let; [exact E|]. unfold w24_d. cbn [fst]. eapply WN_let; [|apply WN_24].
    unfold d2u. rewrite (fixp_trunc d m 16 F) by lia. unfold in_u.
    destruct (Z.leb_spec 0 (m / 2 ^ 16)); [|lia].
    destruct (Z.ltb_spec (m / 2 ^ 16) (2 ^ 32)); [reflexivity|lia]. }
  assert (I2 : forall k m, num_key h k m -> 0 <= m < 2 ^ 40 ->
    WN [] (w_ext_num p (hget h k)) (nibs (be_bytes 3 (m / 2 ^ 16)) ++ nibs (be_bytes 2 (m mod 2 ^ 16)))).
  { intros k m K B. destruct (num_val_key p h k m K B) as (d & E & F).
    assert (Bq : 0 <= m / 2 ^ 16 < 2 ^ 24).
    { split; [apply Z.div_pos; lia|]. apply Z.div_lt_upper_bound; lia. }
    unfold w_ext_num. eapply WN_let; [exact E|]. cbn [fst snd].
    apply WN_even; [ev|apply WN_24|].
    assert (E2 : m - m / 2 ^ 16 * 2 ^ 16 = m mod 2 ^ 16).
    { rewrite Z.mod_eq by lia. lia. }
    pose proof (fixp_frac d m 16 (m / 2 ^ 16) F ltac:(lia) ltac:(lia) ltac:(clear - Bq; lia)) as G.
    rewrite E2 in G. unfold w16_d.
    eapply WN_let; [|apply WN_16]. apply (d2u_int_holds p 16 _ _ G).
    apply Z.mod_pos_bound. lia. }
  apply WN_even; [ev|apply I1; [assumption|lia]|].
  apply WN_even; [ev|apply I1; [assumption|lia]|].
  apply WN_even; [ev| |].
  { eapply WN_let; [apply opt_int_key; eassumption|]. apply WN_byte_id; lia. }
  apply WN_even; [ev| |].
  { eapply WN_let; [apply opt_int_key; eassumption|]. apply WN_24. }
  rewrite <- (app_nil_r (nibs [te_sensor t])).
  match goal with |- WN [] _ (?a ++ ?b ++ ?c ++ ?d ++ ?e ++ []) =>
    replace (a ++ b ++ c ++ d ++ e ++ []) with (((a ++ b) ++ (c ++ d) ++ e) ++ [])
      by (rewrite <- !app_assoc; reflexivity) end.
  apply WN_even; [| |apply WN_nil].
  { rewrite <- !nibs_app. ev. }
  apply WN_even; [rewrite <- nibs_app; ev|apply I2; [assumption|lia]|].
  apply WN_even; [rewrite <- nibs_app; ev|apply I2; [assumption|lia]|].
  eapply WN_let; [apply opt_int_key; eassumption|]. apply WN_byte_id; lia.
Qed.

(** The header [h] with the values [t]. *)
Definition te_set (h : hdr) (t : te) : hdr :=
  let h1 := hset (hset (hset h "R_LINE" (VInt (te_line t / 2 ^ 16)))
                       "R_POINT" (VInt (te_point t / 2 ^ 16)))
                 "R_POINT_IDX" (VInt (te_idx t)) in
  let h2 := hset h1 "SAMP_NUM" (VInt (te_samp t)) in
  hset (set_nonzero (set_nonzero h2 "R_LINE" (te_line t / 2 ^ 16) (te_line t mod 2 ^ 16))
          "R_POINT" (te_point t / 2 ^ 16) (te_point t mod 2 ^ 16))
       "SENSOR_TYPE" (VInt (te_sensor t)).

Lemma te_RN p h t : p_left_first p = true -> te_range t ->
  RN [] (rd_ext_std p 2 h) (te_layout t) (Ok (te_set h t)).
Proof.
  unfold te_range. intros Hp R. decompose [and] R. clear R.
  assert (B : forall m, 0 <= m < 2 ^ 40 -> 0 <= m / 2 ^ 16 < 2 ^ 24).
  { intros k Hk. split; [apply Z.div_pos; lia|]. apply Z.div_lt_upper_bound; lia. }
  unfold rd_ext_std, te_layout.
  change (2 <? 3) with true. change (1 <? 2) with true. change (2 <? 2) with false. cbv iota.
  apply (RN_even _ _ _ (te_line t / 2 ^ 16)); [ev|apply RN_24; [exact Hp|apply B; lia]|].
  apply (RN_even _ _ _ (te_point t / 2 ^ 16)); [ev|apply RN_24; [exact Hp|apply B; lia]|].
  apply (RN_even _ _ _ (te_idx t)); [ev|apply RN_r8; lia|].
  eapply RN_even; [ev| |].
  { eapply RN_last; [ev|apply RN_24; [exact Hp|]|apply RN_ret]. lia. }
  cbv beta. rewrite <- (app_nil_r (nibs [te_sensor t])), !app_assoc.
  eapply RN_even; [rewrite <- !nibs_app; ev| |].
  { rewrite <- !app_assoc.
    apply (RN_even _ _ _ (te_line t / 2 ^ 16)); [ev|apply RN_24; [exact Hp|apply B; lia]|].
    apply (RN_even _ _ _ (te_line t mod 2 ^ 16)); [ev|apply RN_16; apply Z.mod_pos_bound; lia|].
    apply (RN_even _ _ _ (te_point t / 2 ^ 16)); [ev|apply RN_24; [exact Hp|apply B; lia]|].
    apply (RN_even _ _ _ (te_point t mod 2 ^ 16)); [ev|apply RN_16; apply Z.mod_pos_bound; lia|].
    eapply (RN_last _ _ _ (te_sensor t)); [ev|apply RN_r8; lia|apply RN_ret]. }
  apply RN_ret.
Qed.

Lemma hget_hset h k k' v : hget (hset h k v) k' = if String.eqb k' k then Some v else hget h k'.
Proof.
  induction h as [|[k0 v0] h IH]; cbn [hset hget].
  - reflexivity.
  - destruct (String.eqb_spec k k0) as [<-|N]; cbn [hget].
    + destruct (String.eqb k' k); reflexivity.
    + rewrite IH. destruct (String.eqb_spec k' k0) as [->|N']; [|reflexivity].
      destruct (String.eqb_spec k0 k) as [->|_]; [contradiction|reflexivity].
Qed.

Lemma hget_nonzero h k i f k' : hget (set_nonzero h k i f) k' =
  if (i =? 0) && (f =? 0) then hget h k'
  else if String.eqb k' k then Some (VDbl (fix16 i f)) else hget h k'.
Proof.
  unfold set_nonzero. destruct ((i =? 0) && (f =? 0)); [reflexivity|apply hget_hset].
Qed.

Lemma te_set_other h t k : ~ In k ["R_LINE"; "R_POINT"; "R_POINT_IDX"; "SAMP_NUM"; "SENSOR_TYPE"]%string ->
  hget (te_set h t) k = hget h k.
Proof.
  intros N. unfold te_set. cbv zeta. rewrite hget_hset, !hget_nonzero, !hget_hset.
  destruct (String.eqb_spec k "SENSOR_TYPE") as [->|_]; [exfalso; apply N; cbn; tauto|].
  destruct (String.eqb_spec k "R_POINT") as [->|_]; [exfalso; apply N; cbn; tauto|].
  destruct (String.eqb_spec k "R_LINE") as [->|_]; [exfalso; apply N; cbn; tauto|].
  destruct (String.eqb_spec k "SAMP_NUM") as [->|_]; [exfalso; apply N; cbn; tauto|].
  destruct (String.eqb_spec k "R_POINT_IDX") as [->|_]; [exfalso; apply N; cbn; tauto|].
  destruct ((te_point t / 2 ^ 16 =? 0) && (te_point t mod 2 ^ 16 =? 0));
  destruct ((te_line t / 2 ^ 16 =? 0) && (te_line t mod 2 ^ 16 =? 0)); reflexivity.
Qed.

Lemma zero_split m : (m / 2 ^ 16 =? 0) && (m mod 2 ^ 16 =? 0) = (m =? 0).
Proof.
  destruct (Z.eqb_spec m 0) as [->|N]; [reflexivity|].
  destruct (Z.eqb_spec (m / 2 ^ 16) 0) as [E|E]; [|reflexivity].
  destruct (Z.eqb_spec (m mod 2 ^ 16) 0) as [E'|E']; [|reflexivity].
  exfalso. apply N. rewrite (Z.div_mod m (2 ^ 16)) by lia. rewrite E, E'. reflexivity.
Qed.

Lemma te_set_shows h t : te_range t -> te_shows (te_set h t) t.
Proof.
  unfold te_range. intros R. decompose [and] R. clear R.
  assert (B : forall m, 0 <= m < 2 ^ 40 -> 0 <= m / 2 ^ 16 < 2 ^ 24).
  { intros k Hk. split; [apply Z.div_pos; lia|]. apply Z.div_lt_upper_bound; lia. }
  assert (F : forall m, 0 <= m < 2 ^ 40 -> fixp (fix16 (m / 2 ^ 16) (m mod 2 ^ 16)) m 16).
  { intros m Hm. pose proof (B m Hm). rewrite (Z.div_mod m (2 ^ 16)) at 3 by lia.
    rewrite (Z.mul_comm (2 ^ 16)). apply fix16_fixp; [lia|]. apply Z.mod_pos_bound. lia. }
  unfold te_shows, num_shows, te_set. cbv zeta.
  rewrite !hget_hset, !hget_nonzero, !hget_hset, !zero_split.
  cbn [String.eqb Ascii.eqb Bool.eqb].
  destruct (Z.eqb_spec (te_line t) 0) as [->|N1]; destruct (Z.eqb_spec (te_point t) 0) as [->|N2].
  all: repeat split; try reflexivity; eexists; (split; [reflexivity|apply F; lia]).
Qed.

Lemma te_set_th h t e : th_shows h t -> th_shows (te_set h e) t.
Proof.
  unfold th_shows. intros (H1 & H2 & H3 & H4 & H5 & H6 & a & b & c & Ha & Fa & Hb & Fb & Hc & Fc).
  assert (K : forall k, ~ In k ["R_LINE"; "R_POINT"; "R_POINT_IDX"; "SAMP_NUM"; "SENSOR_TYPE"]%string ->
    hget (te_set h e) k = hget h k) by (intros; apply te_set_other; assumption).
  repeat (rewrite K by (cbn; intuition discriminate)).
  repeat (split; [assumption|]). exists a, b, c. auto 10.
Qed.
