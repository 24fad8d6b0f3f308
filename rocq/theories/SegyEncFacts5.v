(** Lemmas for C60 and C61: blank headers and the default layout. *)
From Coq Require Import Reals Lra Floats.SpecFloat.
From Flocq Require Import Core IEEE754.BinarySingleNaN.
From Verif Require Import BaseFacts Platform Fp FpSpec FpReal FixFacts TraceHdr SegyTypes SegyCodec CodecSpec CodecFacts
     SampleFacts SampleReal LayoutSpec LayoutFacts HdrFacts ISegy OSegy OpenFacts BinFacts WriterFacts RoundSpec RoundFacts
     ReadFacts ReadFacts2 SegyDecSpec SegyDecFacts SegyDecFacts2 FileSpec FileFacts SegyEncSpec SegyEncFacts SegyEncFacts2
     SegyEncFacts3 SegyEncFacts4 SegdTrcFacts.
Local Open Scope Z_scope.

(** ** Comparing doubles *)
Lemma d_lt_holds a b x y : holds a x -> holds b y -> d_lt a b = true <-> (x < y)%R.
Proof.
  intros Ha Hb. destruct (holds_dec _ _ Ha) as (Va & Fa & Ea). destruct (holds_dec _ _ Hb) as (Vb & Fb & Eb). unfold d_lt.
  assert (P0 : Prec_gt_0 53) by reflexivity.
  assert (Q : SFcompare (d_dec a) (d_dec b) = Some (Rcompare x y)).
  { pose proof (Bcompare_correct 53 1024 (SF2B _ Va) (SF2B _ Vb)) as K. unfold Bcompare in K.
    rewrite !B2SF_SF2B, !B2R_SF2B, Ea, Eb in K. apply K; rewrite is_finite_SF2B; assumption. }
  rewrite Q. destruct (Rcompare_spec x y); split; intros K; try discriminate; try reflexivity; try assumption; exfalso; lra.
Qed.

Lemma i2d_above z : 2 ^ 15 <= z < 2 ^ 63 -> d_lt (i2d 32767) (i2d z) = true.
Proof.
  intros H. pose proof (proj1 (i2d_holds 32767 ltac:(lia))) as A. pose proof (i2d_dbl z ltac:(lia)) as B.
  apply (d_lt_holds _ _ _ _ A B). apply Rlt_le_trans with (pw 15).
  { rewrite pw_IZR by lia. apply IZR_lt. lia. }
  unfold rne64. apply round_ge_generic; [apply FLT_exp_valid; reflexivity|apply valid_rnd_N| |].
  - apply generic_format_FLT_bpow; [reflexivity|lia].
  - rewrite pw_IZR by lia. apply IZR_le. lia.
Qed.

(** ** Blank headers *)
Lemma bin_eqb_refl b : bin_eqb b b = true.
Proof. unfold bin_eqb. generalize (bin_fields b). induction l as [|x l IH]; [reflexivity|]. cbn [combine forallb fst snd]. rewrite Z.eqb_refl. exact IH. Qed.

Definition minimal_of (w : writer) : minimal := match w with W2 _ _ => MIntOnly | _ => MAnyInt end.

Lemma opens_blank p w bh ls s : p_pad_eq p = true -> to_complete w bh -> w_open p w bh ls = Ok s ->
  o_min s = minimal_of w /\ o_bh s = set_format_code bin_zero (dflt_fmt w).
Proof.
  intros Hp (B & X) H.
  assert (T : forall b, same_as p b b = true) by (intros b; unfold same_as; rewrite bin_eqb_refl, Hp; reflexivity).
  assert (O : forall dflt txts ts b e bps f, tl txts = [] ->
     (if bh_format_code (set_ext_text_headers_num bh 0) =? 0 then set_format_code (set_ext_text_headers_num bh 0) 5
      else set_ext_text_headers_num bh 0) = set_format_code bin_zero 5 ->
     open_12 p dflt txts bh = Ok (ts, b, e, bps, f) -> b = set_format_code bin_zero 5).
  { clear. intros dflt txts ts b e bps f X B H. unfold open_12 in H. apply bind_ok in H as (l & El & H).
    assert (L1 : len l = 1).
    { destruct txts as [|t0 [|]]; [injection El as <-; reflexivity| |discriminate X].
      destruct (forallb _ _); [injection El as <-; reflexivity|discriminate]. }
    destruct l as [|l0 l]; [discriminate|]. cbv zeta in H.
    apply bind_ok in H as (e1 & _ & H). apply bind_ok in H as (f2 & _ & H). apply bind_ok in H as (w1 & _ & H).
    destruct (o_bytes_per_sample _); [|discriminate]. rewrite L1 in H. injection H as _ <- _ _ _.
    change (wraps 16 (wraps 32 (1 - 1))) with 0. change (bh_format_code (set_ext_text_headers_num bh 0)) with (bh_format_code bh) in B.
    rewrite <- B. destruct (bh_format_code bh =? 0); reflexivity. }
  destruct w as [txt|txts|txts st]; cbn [w_open with_dflt dflt_fmt minimal_of ext_texts given_texts] in *.
  - unfold with_dflt in B. cbn [dflt_fmt] in B. unfold rev0_open in H. cbv zeta in H. rewrite B in H.
    apply bind_ok in H as (u & _ & H). apply bind_ok in H as (t & _ & H). apply bind_ok in H as (e & _ & H).
    apply bind_ok in H as (f & _ & H). apply bind_ok in H as (wr_ & _ & H).
    destruct (o_bytes_per_sample _); [|discriminate]. rewrite T in H. injection H as <-. split; reflexivity.
  - unfold rev1_open in H. apply bind_ok in H as (u & _ & H). apply bind_ok in H as ([[[[ts b] e] bps] f] & E & H).
    apply O in E; [|exact X|exact B]. subst b. rewrite T in H. injection H as <-. split; reflexivity.
  - unfold rev2_open in H. apply bind_ok in H as (u & _ & H). apply bind_ok in H as (u1 & _ & H). apply bind_ok in H as (u2 & _ & H).
    apply bind_ok in H as ([[[[ts b] e] bps] f] & E & H).
    apply O in E; [|exact X|exact B]. subst b. cbv zeta in H. rewrite T in H. injection H as <-. split; reflexivity.
Qed.

Lemma few_texts w bh : to_complete w bh -> len (given_texts w) <= 65536.
Proof.
  intros (_ & X). unfold ext_texts in X. destruct (given_texts w) as [|t [|]]; [| |discriminate X]; unfold len; cbn [List.length]; lia.
Qed.

Lemma opens_first p w bh ls s : to_complete w bh -> w_open p w bh ls = Ok s -> fpos (o_file s) = o_first s.
Proof.
  intros C H. destruct (w_open_bin p w bh ls s H (few_texts _ _ C)) as (t0 & ext & Rd & _).
  destruct Rd as (_ & _ & _ & F & _). congruence.
Qed.

Lemma completes p w bh ls t ts s s' : sane_alloc p -> p_pad_eq p = true -> to_complete w bh ->
  w_open p w bh ls = Ok s -> write_traces p s (t :: ts) = Ok s' ->
  exists n v si, hget (t_hdr t) "SAMP_NUM" = Some (VInt n) /\ 0 <= n < 2 ^ 15 /\ hget (t_hdr t) "SAMP_INT" = Some v /\
    (fits16 v -> interval v si) /\ - 2 ^ 15 <= si < 2 ^ 15 /\ si <> 0 /\
    o_bh s' = completed_header w n si /\
    bin_says (fdata (o_file s')) Big (completed_header w n si) /\ bin2_says (fdata (o_file s')) Big (completed_header w n si).
Proof.
  intros HA Hp C Ho Hw. destruct (opens_blank _ _ _ _ _ Hp C Ho) as (Mi & Eb).
  assert (Mo : o_min s <> MNone) by (rewrite Mi; destruct w; discriminate).
  destruct (w_open_bin p w bh ls s Ho (few_texts _ _ C)) as (t0 & ext & Rd & Bl & En).
  destruct (w_open_inv _ _ _ _ _ Ho (few_texts _ _ C)) as (G & _). pose proof (good_bps _ _ G) as Bp.
  assert (Ei : o_endian s = Swapped).
  { destruct (Bl Mo) as (_ & K). unfold blank in K. apply (f_equal bh_endianness) in K.
    assert (Z0 : bh_endianness bh = 0) by (unfold with_dflt in K; destruct (bh_format_code bh =? 0); destruct w; cbn in K; exact K).
    rewrite Z0 in En. injection En as <-. reflexivity. }
  pose proof Rd as (_ & Lt & _ & _ & Mn). pose proof (Mn Mo) as ->.
  destruct (first_completes p s t ts s' _ _ Rd Mo Hw) as (n & v & si & G1 & G2 & G3 & G4 & G5 & G6 & G7).
  destruct (write_all p s _ _ _ _ _ Rd Hw) as (s1 & recs & C1 & C2 & B & _ & _ & D).
  destruct D as [([Mo'|Mo'] & _)|(t1 & ts1 & _ & Ets & Cm & D)]; [contradiction|discriminate|]. injection Ets as <- <-.
  assert (N0 : 0 <= n).
  { destruct Cm as (n' & si' & G1' & _ & _ & _ & I & R). rewrite G1 in G1'. injection G1' as <-. clear - HA R I Bp.
    apply resize_buf_inv in R as [R1 R2]. unfold in_i in I. change (64 - 1) with 63 in I. destruct HA as [_ HA].
    destruct (Z.le_gt_cases 0 n) as [H|H]; [exact H|exfalso].
    assert (wrapu 64 (n * o_bps s) = n * o_bps s + 2 ^ 64).
    { unfold wrapu. symmetry. apply (Z.mod_unique _ _ (-1)); [left|]; nia. }
    nia. }
  assert (W : wraps 16 n = n) by (apply wraps_id; [lia|unfold in_i; change (16 - 1) with 15; lia]).
  rewrite W, Eb in G7. fold (completed_header w n si) in G7.
  assert (In : in_i 16 n = true) by (unfold in_i; change (16 - 1) with 15; lia).
  exists n, v, si. repeat (split; [assumption || lia|]).
  split; [unfold in_i in G5; change (16 - 1) with 15 in G5; lia|]. split; [exact G6|]. split; [exact G7|].
  rewrite <- B, G7 in D. rewrite D.
  destruct (bin_written (first_text t0) (concat recs) (o_endian s) (completed_header w n si) Lt (bin_ok_completed w n si In G5)) as [S1 S2].
  rewrite Ei in *. split; assumption.
Qed.

Lemma first_write p w bh ls t s : p_pad_eq p = true -> to_complete w bh -> w_open p w bh ls = Ok s ->
  write_trace p s t = bind (set_min p (minimal_of w) (t_hdr t) s) (fun s1 => write_body p s1 t).
Proof.
  intros Hp C Ho. destruct (opens_blank _ _ _ _ _ Hp C Ho) as (Mi & _). rewrite write_trace_body, Mi. destruct w; reflexivity.
Qed.

Lemma min_refused p m h s n v : fpos (o_file s) = o_first s -> hget h "SAMP_NUM" = Some (VInt n) ->
  hget h "SAMP_INT" = Some v -> (forall z, v = VInt z -> - 2 ^ 63 <= z < 2 ^ 63) ->
  (2 ^ 15 <= n \/ bad_interval v /\ (m = MIntOnly -> exists z, v = VInt z)) -> m <> MNone ->
  set_min p m h s = Throw ESedaman.
Proof.
  intros F Hn Hv Tv Bad Hm. unfold set_min. rewrite F, Z.eqb_refl. cbn [negb]. unfold get_req. rewrite Hn. cbn [bind get_int].
  destruct (Z.ltb_spec 32767 n) as [L|L]; [reflexivity|]. destruct Bad as [Bad|(Bad & Mi)]; [exfalso; lia|].
  cbv zeta. rewrite Hv. cbn [bind].
  assert (exists d, (match m, v with
            | MIntOnly, _ => let* z := get_int v in Ok (i2d z)
            | _, VInt z => Ok (i2d z)
            | _, VDbl d => Ok d
            end) = Ok d /\ (d_lt (i2d 32767) d = true \/ d2s p 16 d = Ok 0)) as (d & -> & K).
  { destruct v as [z|d]; cbn [bad_interval] in Bad.
    - exists (i2d z). split; [destruct m; [contradiction|reflexivity..]|]. destruct Bad as [->|Bad].
      + right. apply (d2s_int_holds p 16 (i2d 0) 0); [apply i2d_holds; lia|lia].
      + left. apply i2d_above. specialize (Tv z eq_refl). lia.
    - exists d. split; [destruct m; [contradiction|reflexivity|destruct (Mi eq_refl); discriminate]|].
      destruct Bad as (x & Hx & [Zx|Gx]).
      + right. unfold d2s. rewrite (d_trunc_holds _ _ Hx), Zx. reflexivity.
      + left. apply (d_lt_holds _ _ _ _ (proj1 (i2d_holds 32767 ltac:(lia))) Hx). exact Gx. }
  cbn [bind]. destruct K as [->|K]; [reflexivity|]. destruct (d_lt _ _); [reflexivity|]. rewrite K. reflexivity.
Qed.

(** ** The default layout *)
Definition int_type (t : vtype) : bool := match t with I16 | I32 | I64 | U64 => true | _ => false end.
Definition f64_type (t : vtype) : bool := match t with F64 => true | _ => false end.
Definition puts (is : vtype -> bool) (l : layout) (x : string * (Z * Z)) : bool :=
  existsb (fun en => (e_off en =? fst (snd x) - 1) && String.eqb (e_name en) (fst x) && is (e_type en) &&
                     (width (e_type en) =? snd (snd x) - fst (snd x) + 1)) l.
Definition lay0 : layout := match default_trace_header with (_, l) :: _ => l | _ => [] end.
Definition lay1 : layout := match default_trace_header with _ :: (_, l) :: _ => l | _ => [] end.

Lemma puts_inv is l k a b : puts is l (k, (a, b)) = true ->
  exists en, In en l /\ e_off en = a - 1 /\ e_name en = k /\ is (e_type en) = true /\ width (e_type en) = b - a + 1.
Proof.
  unfold puts. intros H. apply existsb_exists in H as (en & I & H). exists en. cbn [fst snd] in H.
  rewrite !andb_true_iff in H. destruct H as [[[H1 H2] H3] H4]. apply String.eqb_eq in H2. split; [exact I|]. split; [lia|]. split; [exact H2|]. split; [exact H3|]. lia.
Qed.

Lemma std_puts : forallb (puts int_type lay0) std_header = true /\ forallb (puts int_type lay1) ext_ints = true /\
  forallb (puts f64_type lay1) ext_dbls = true.
Proof. vm_compute. repeat split; reflexivity. Qed.

Lemma span_at pos a b c : span (pos + a) (pos + b) c = slice (pos + (a - 1)) (b - a + 1) c.
Proof. unfold span. f_equal; lia. Qed.

Lemma ints_at p o c pos l h k a b : block_at p o c pos (Some l) h -> puts int_type l (k, (a, b)) = true ->
  exists z, number h k z /\ sgnd c o (pos + a) (pos + b) = as_signed (Z.to_nat (b - a + 1)) z.
Proof.
  intros (B & _) P. apply puts_inv in P as (en & I & O & N & T & W). destruct (B en I) as (z & Nz & St). exists z.
  rewrite N in Nz. split; [exact Nz|]. unfold sgnd, sval. rewrite span_at, <- W, <- O.
  destruct St as (_ & L & S). unfold len in L. replace (List.length _) with (Z.to_nat (width (e_type en))) by lia.
  assert (U : uval o (slice (pos + e_off en) (width (e_type en)) c) = as_unsigned (Z.to_nat (width (e_type en))) z)
    by (destruct (e_type en); try discriminate T; exact S).
  rewrite U. unfold as_signed, as_unsigned. cbv zeta. rewrite Zmod_mod. reflexivity.
Qed.

Lemma dbls_at p o c pos l h k a b : block_at p o c pos (Some l) h -> puts f64_type l (k, (a, b)) = true ->
  exists z, number h k z /\ signed (z <? 0) (rne64 (IZR z)) (unsg c o (pos + a) (pos + b)).
Proof.
  intros (B & _) P. apply puts_inv in P as (en & I & O & N & T & W). destruct (B en I) as (z & Nz & St). exists z.
  rewrite N in Nz. split; [exact Nz|]. unfold unsg. rewrite span_at, <- W, <- O.
  destruct St as (_ & L & S). destruct (e_type en); try discriminate T; exact S.
Qed.

Lemma default_written p o c fmt n area pos t : 1 <= n -> written_at p o c fmt default_trace_header n area pos t ->
  (forall k a b, In (k, (a, b)) std_header ->
     exists z, number (t_hdr t) k z /\ sgnd c o (pos + a) (pos + b) = as_signed (Z.to_nat (b - a + 1)) z) /\
  (2 <= n ->
   (forall k a b, In (k, (a, b)) ext_ints ->
     exists z, number (t_hdr t) k z /\ sgnd c o (pos + 240 + a) (pos + 240 + b) = as_signed (Z.to_nat (b - a + 1)) z) /\
   (forall k a b, In (k, (a, b)) ext_dbls ->
     exists z, number (t_hdr t) k z /\ signed (z <? 0) (rne64 (IZR z)) (unsg c o (pos + 240 + a) (pos + 240 + b)))).
Proof.
  intros Hn (B & _). destruct std_puts as (P1 & P2 & P3). rewrite forallb_forall in P1, P2, P3. split.
  - intros k a b I. specialize (B 0 ltac:(lia)). change (option_map snd (nth_error default_trace_header (Z.to_nat 0))) with (Some lay0) in B.
    replace (pos + 240 * 0) with pos in B by lia. eapply ints_at; [exact B|]. apply P1, I.
  - intros H2. specialize (B 1 ltac:(lia)). change (option_map snd (nth_error default_trace_header (Z.to_nat 1))) with (Some lay1) in B.
    replace (pos + 240 * 1) with (pos + 240) in B by lia. split; intros k a b I.
    + eapply ints_at; [exact B|]. apply P2, I.
    + eapply dbls_at; [exact B|]. apply P3, I.
Qed.

Lemma all_written_at p o c fmt ls n area t ts2 : forall ts1 pos, all_written p o c fmt ls n area pos (ts1 ++ t :: ts2) ->
  written_at p o c fmt ls n (area t) (pos + sum (map (fun t => 240 * n + area t) ts1)) t.
Proof.
  induction ts1 as [|u ts1 IH]; intros pos H; cbn [app all_written map sum fold_right] in *.
  - rewrite Z.add_0_r. apply H.
  - destruct H as (_ & H). apply IH in H. unfold sum in *. 
    replace (pos + (240 * n + area u + fold_right Z.add 0 (map (fun t0 : trace => 240 * n + area t0) ts1)))
      with (pos + 240 * n + area u + fold_right Z.add 0 (map (fun t0 : trace => 240 * n + area t0) ts1)) by lia.
    exact H.
Qed.

Lemma no_wrap_of l : forallb (fun en => e_off en + width (e_type en) <? 2 ^ 32) l = true -> no_wrap l.
Proof. intros H en I. rewrite forallb_forall in H. specialize (H en I). lia. Qed.

Lemma default_safe : safe_layouts default_trace_header.
Proof.
  assert (S : forall n l, keys_sorted l = true -> forallb (fun en => e_off en + width (e_type en) <? 2 ^ 32) l = true ->
    match l with [] => true | en :: _ => e_off en + width (e_type en) <=? 240 end = true -> check_layout (n, l) = Ok tt -> safe_layout l).
  { intros n l H1 H2 H3 H4. apply (check_layout_safe n l H1 (no_wrap_of l H2)); [|exact H4]. destruct l; [exact I|]. cbn. lia. }
  intros n l [H|[H|[]]]; injection H as <- <-; apply (S "SEG00000"%string); vm_compute; reflexivity.
Qed.

Lemma third_marker p w bh ls ts s s' : len (given_texts w) <= 65536 -> bh_endianness bh = 67305985 ->
  w_open p w bh ls = Ok s -> write_traces p s ts = Ok s' -> order_in (fdata (o_file s')) = Some Little.
Proof.
  intros Ln Hm Ho Hw. destruct (w_open_bin p w bh ls s Ho Ln) as (t0 & ext & Rd & Bl & En).
  rewrite Hm in En. injection En as En.
  pose proof (proj1 (proj2 Rd)) as Lt.
  destruct (write_all p s _ _ _ _ _ Rd Hw) as (s1 & recs & C1 & C & B & _ & _ & D).
  assert (Em : bh_endianness (with_dflt w bh) = 67305985) by (unfold with_dflt; destruct (_ =? 0); exact Hm).
  destruct D as [(Mo & -> & D)|(t1 & ts1 & Mo & Ets & _ & D)].
  - rewrite D. unfold order_in. rewrite (at_marker (first_text t0) (ext ++ concat recs) (o_endian s) (with_dflt w bh) Lt), Em, <- En. reflexivity.
  - exfalso. destruct (Bl Mo) as (_ & K). unfold blank in K. apply (f_equal bh_endianness) in K.
    unfold with_dflt in K, Em. destruct (bh_format_code bh =? 0); destruct w; cbn in K, Em; congruence.
Qed.
