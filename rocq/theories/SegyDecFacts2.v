(** Lemmas about decoding SEG-Y files (C56-C58). *)
From Coq Require Import Reals.
From Flocq Require Import Core IEEE754.BinarySingleNaN.
From Verif Require Import BaseFacts Platform Fp FpFacts FpSpec FpReal SampleReal TraceHdr SegyTypes SegyCodec CodecFacts
     SampleFacts HdrFacts ISegy OpenFacts CodecSpec LayoutSpec LayoutFacts RoundSpec ReaderFacts ReadSpec
     ReadFacts ReadFacts2 ReadFacts3 SegyDecSpec.
From Verif Require Import SegdDecFacts SegyDecFacts.
Local Open Scope Z_scope.

(** ** The byte order mark *)
Lemma four_bytes content : bytes content -> 3600 <= len content ->
  bytes (slice 3296 4 content) /\ List.length (slice 3296 4 content) = 4%nat.
Proof.
  intros B L. split; [apply bytes_slice; exact B|].
  pose proof (slice_length 3296 4 content ltac:(lia) ltac:(lia) ltac:(lia)) as X. unfold len in X. lia.
Qed.

Lemma marker_order content e : bytes content -> 3600 <= len content -> endian_of (marker content) = Ok e ->
  order_in content = Some (ord e).
Proof.
  intros B L H. destruct (four_bytes content B L) as (B4 & L4).
  pose proof (le_enc_dec _ B4) as E. rewrite L4 in E.
  assert (M : le_enc 4 (marker content) = slice 3296 4 content).
  { unfold marker. rewrite <- E at 2. rewrite <- (le_enc_wrapu 4 (wraps _ _)). change (8 * Z.of_nat 4) with 32.
    rewrite wrapu_wraps by lia. change 32 with (8 * Z.of_nat 4). apply le_enc_wrapu. }
  unfold order_in. rewrite <- M.
  destruct (endian_of_order _ _ H) as [(-> & ->)|(-> & [->| ->])]; reflexivity.
Qed.

Lemma order_marker content o : order_in content = Some o ->
  exists e, endian_of (marker content) = Ok e /\ ord e = o.
Proof.
  unfold order_in, marker. intros H.
  destruct (slice 3296 4 content) as [|x0 [|x1 [|x2 [|x3 [|x4 l]]]]]; try discriminate H;
  repeat match type of H with
  | context [match ?x with _ => _ end] => is_var x; destruct x; try discriminate H
  end; injection H as <-.
  all: first [exists Swapped; split; reflexivity | exists Native; split; reflexivity].
Qed.

Lemma endian_throws m : endian_of m = Throw ESedaman \/ exists e, endian_of m = Ok e.
Proof. unfold endian_of. destruct (_ =? _); [eauto|]. destruct (_ || _); eauto. Qed.

(** ** Numbers *)
Lemma signed_intro neg x d : holds d x -> BinarySingleNaN.sign_SF (d_dec d) = neg -> signed neg x d.
Proof. intros H S. split; [exact H|]. rewrite <- S, d_dec_sign by apply H. reflexivity. Qed.

Lemma i2d_rne_signed z : Z.abs z <= 2 ^ 64 -> signed (z <? 0) (rne64 (IZR z)) (i2d z).
Proof.
  intros B. change (rne64 (IZR z)) with (rnd 53 1024 (IZR z)).
  assert (L : (Rabs (rnd 53 1024 (IZR z)) < pw 1024)%R).
  { apply Rle_lt_trans with (pw 64); [|apply bpow_lt; lia].
    unfold rnd. apply abs_round_le_generic.
    - apply fexp_correct. reflexivity.
    - apply valid_rnd_N.
    - apply generic_format_bpow. vm_compute. discriminate.
    - rewrite <- abs_IZR, pw_IZR by lia. apply IZR_le. exact B. }
  unfold i2d. destruct z as [|q|q]; cbn [SpecFloat.binary_normalize].
  - apply signed_intro; [|rewrite d_dec_enc; reflexivity]. apply holds_sf; try reflexivity. cbn [SF2R]. unfold rnd. rewrite round_0; [reflexivity|apply valid_rnd_N].
  - destruct (br_correct 53 1024 _ _ false q 0) as (V & C & _). cbv zeta in C.
    assert (E0 : F2R (Float radix2 (cond_Zopp false (Zpos q)) 0) = IZR (Zpos q)).
    { unfold F2R. cbn [Fnum Fexp cond_Zopp]. change (bpow radix2 0) with 1%R. ring. }
    rewrite E0 in C. destruct (C L) as (C1 & C2 & C3).
    apply signed_intro; [apply holds_sf; auto|rewrite d_dec_enc by exact V; exact C3].
  - destruct (br_correct 53 1024 _ _ true q 0) as (V & C & _). cbv zeta in C.
    assert (E0 : F2R (Float radix2 (cond_Zopp true (Zpos q)) 0) = IZR (Zneg q)).
    { unfold F2R. cbn [Fnum Fexp cond_Zopp]. change (bpow radix2 0) with 1%R. change (- Zpos q) with (Zneg q). ring. }
    rewrite E0 in C. destruct (C L) as (C1 & C2 & C3).
    apply signed_intro; [apply holds_sf; auto|rewrite d_dec_enc by exact V; exact C3].
Qed.

Lemma i2d_rne z : Z.abs z <= 2 ^ 64 -> holds (i2d z) (rne64 (IZR z)).
Proof. intros B. apply (i2d_rne_signed z B). Qed.
Lemma i2d_signed z : Z.abs z <= 2 ^ 53 -> signed (z <? 0) (IZR z) (i2d z).
Proof. intros B. apply signed_intro; apply (i2d_holds z B). Qed.
Lemma i2d_unsigned z : 0 <= z <= 2 ^ 53 -> signed false (IZR z) (i2d z).
Proof. intros B. replace false with (z <? 0) by lia. apply i2d_signed. lia. Qed.
Lemma ibm2d_signed w : 0 <= w < 2 ^ 32 -> signed (ibm_neg w) (ibm_val w) (ibm2d w).
Proof. intros B. apply signed_intro; apply (ibm2d_holds w B). Qed.
Lemma f_dec_sign w : is_flt w -> flt_finite w = true -> BinarySingleNaN.sign_SF (f_dec w) = ieee_neg 23 8 w.
Proof.
  intros Df Ff. unfold f_dec, fdec. unfold flt_finite, ieee_finite in Ff.
  change (ieee_exp 23 8 w) with (fexpo 23 8 w) in Ff.
  destruct (fexpo 23 8 w =? 2 ^ 8 - 1); [discriminate|].
  change (ieee_neg 23 8 w) with (fsign 23 8 w).
  destruct (fields_bound 23 8 ltac:(lia) ltac:(lia) ltac:(reflexivity) w Df) as (He & Hm & _).
  destruct (Z.eqb_spec (fexpo 23 8 w) 0).
  - destruct (fmant 23 w) eqn:Em; try reflexivity; lia.
  - destruct (fmant 23 w + 2 ^ 23) eqn:Em; try reflexivity; lia.
Qed.

Lemma f2d_widened w : is_flt w -> widened w (f2d w).
Proof.
  intros D. unfold widened. destruct (flt_finite w) eqn:F.
  { destruct (f2d_finite w D F) as (H & S). apply signed_intro; [exact H|]. rewrite S. apply f_dec_sign; assumption. }
  destruct (flt_nan w) eqn:N; [destruct (f2d_nan w D N) as (A & B & _); auto|].
  unfold f2d. rewrite f_is_nan_spec, N.
  assert (E : f_dec w = Floats.SpecFloat.S754_infinity (fsign 23 8 w)).
  { unfold f_dec, fdec. unfold flt_finite, ieee_finite in F. unfold flt_nan, ieee_nan in N.
    change (ieee_exp 23 8 w) with (fexpo 23 8 w) in *. change (ieee_man 23 w) with (fmant 23 w) in N.
    destruct (fexpo 23 8 w =? 2 ^ 8 - 1); [|discriminate]. cbn [andb] in N. destruct (fmant 23 w =? 0); [reflexivity|discriminate]. }
  rewrite E. unfold d_enc, fenc, bsign. change (ieee_neg 23 8 w) with (fsign 23 8 w).
  destruct (fsign 23 8 w); vm_compute; reflexivity.
Qed.

(** ** Fields *)
Lemma rd_field_shown p e t c : p_left_first p = true -> bytes c -> width t <= len c ->
  exists v, rd_field p e t c = Ok (v, skipn (Z.to_nat (width t)) c) /\
    shown (ord e) t (firstn (Z.to_nat (width t)) c) v.
Proof.
  intros Hp B L. unfold len in L.
  assert (U : forall n, (n <= List.length c)%nat -> 0 <= uval (ord e) (firstn n c) < 256 ^ Z.of_nat n).
  { intros n Hn. pose proof (uval_range (ord e) _ (bytes_firstn n _ B)) as X. unfold len in X.
    rewrite firstn_length, Nat.min_l in X by lia. exact X. }
  destruct t; cbn [width] in *; cbn [rd_field shown]; unfold pmap, rd_ibm, rd_f32, rd_f64, pmap, pbind;
    first [rewrite rd_i24_val by (assumption || lia) | rewrite rd_u24_val by (assumption || lia)
          | rewrite rd_i_val by (assumption || lia) | rewrite rd_u_val by (assumption || lia)];
    unfold pret; eexists; (split; [reflexivity|]); try reflexivity.
  - eexists. split; [reflexivity|]. apply ibm2d_signed. apply (U 4%nat). lia.
  - eexists. split; [reflexivity|]. apply f2d_widened. apply (U 4%nat). lia.
Qed.

Lemma ptake_some {A} n (g : list Z -> P A) c r : pbind (ptake n) g c = Ok r -> (n <= List.length c)%nat.
Proof. unfold pbind, ptake. destruct (Nat.leb_spec n (List.length c)); [lia|discriminate]. Qed.
Lemma rd_u_some e n c r : rd_u e n c = Ok r -> (n <= List.length c)%nat.
Proof.
  unfold rd_u, pread, pmap. destruct r. intros H. apply pbind_inv in H as (a & c1 & H & _). eapply ptake_some. exact H.
Qed.
Lemma pmap_some {A B} (g : A -> B) r c x : pmap g r c = Ok x -> exists y, r c = Ok y.
Proof. unfold pmap, pbind. destruct (r c) as [[a c']| |]; [eauto|discriminate|discriminate]. Qed.
Lemma rd_u24_some p e c r : p_left_first p = true -> rd_u24 p e c = Ok r -> (3 <= List.length c)%nat.
Proof.
  intros Hp. unfold rd_u24, rd_16_8. rewrite Hp. destruct r. intros H. apply pbind_inv in H as ([a b] & c1 & H & _).
  apply pbind_inv in H as (a1 & c2 & H1 & H). apply pbind_inv in H as (b1 & c3 & H2 & _).
  unfold pread, pmap in H1, H2. pose proof (ptake_some _ _ _ _ H2) as L2.
  apply pbind_inv in H1 as (x & c4 & H1 & E). apply ptake_inv in H1 as (_ & -> & L1).
  assert (c2 = skipn 2 c) as -> by (unfold pret in E; congruence). rewrite skipn_length in L2. lia.
Qed.

Lemma rd_field_some p e t c r : p_left_first p = true -> rd_field p e t c = Ok r -> width t <= len c.
Proof.
  intros Hp H. unfold len. destruct t; cbn [rd_field width] in *; unfold rd_ibm, rd_f32, rd_f64 in H;
    apply pmap_some in H as (y & H);
    first [ apply rd_u_some in H; lia | apply rd_u24_some in H; [lia|exact Hp]
          | unfold rd_i in H; apply pmap_some in H as (z & H); apply rd_u_some in H; lia | idtac ].
  unfold rd_i24 in H. destruct y. apply pbind_inv in H as (a & c1 & H & _). apply rd_u24_some in H; [lia|exact Hp].
Qed.

Lemma find_app' {A} (g : A -> bool) a b : find g (a ++ b) = match find g a with Some x => Some x | None => find g b end.
Proof. induction a as [|x a IH]; cbn [find app]; [reflexivity|]. destruct (g x); auto. Qed.
Lemma find_map {A B} (g : B -> bool) (f : A -> B) l : find g (map f l) = option_map f (find (fun a => g (f a)) l).
Proof. induction l as [|x l IH]; cbn [find map]; [reflexivity|]. destruct (g (f x)); auto. Qed.

Definition last_named (k : string) (l : layout) : option entry := find (fun en => String.eqb (e_name en) k) (rev l).

Lemma rd_fields_says p e block : p_left_first p = true -> bytes block -> forall l h h', rd_fields p e block l h = Ok h' ->
  forall k, match last_named k l with
            | Some en => exists v, hget h' k = Some v /\ 0 <= e_off en /\ e_off en + width (e_type en) <= len block /\
                shown (ord e) (e_type en) (slice (e_off en) (width (e_type en)) block) v
            | None => hget h' k = hget h k
            end.
Proof.
  intros Hp B. induction l as [|en l IH]; intros h h' H k; cbn [rd_fields] in H.
  - injection H as <-. reflexivity.
  - apply bind_ok in H as (c & E & H). apply bind_ok in H as ([v c'] & F & H).
    specialize (IH _ _ H k). unfold last_named in *. cbn [rev]. rewrite find_app'.
    destruct (find _ (rev l)) as [en'|]; [exact IH|]. cbn [find].
    unfold at_off in E. destruct (_ && _) eqn:O; [|discriminate]. injection E as <-.
    destruct (String.eqb_spec (e_name en) k) as [<-|N].
    + rewrite hget_hset_same in IH. exists v. split; [exact IH|].
      assert (Bc : bytes (skipn (Z.to_nat (e_off en)) block)) by (apply bytes_skipn; exact B).
      destruct (rd_field_shown p e (e_type en) _ Hp Bc (rd_field_some _ _ _ _ _ Hp F)) as (v' & F' & S).
      rewrite F in F'. injection F' as -> _. pose proof (rd_field_some _ _ _ _ _ Hp F) as W.
      unfold len in W. rewrite skipn_length in W. pose proof (width_pos (e_type en)). unfold len in *.
      split; [lia|]. split; [lia|exact S].
    + rewrite hget_hset_other in IH by congruence. exact IH.
Qed.

Lemma fields_of_nil n : fields_of [] n = [].
Proof. unfold fields_of. generalize 0%nat. induction n as [|n IH]; intros q; cbn [seq flat_map]; [reflexivity|]. rewrite IH. destruct q; reflexivity. Qed.
Lemma flat_map_map {A B C} (f : A -> B) (g : B -> list C) l : flat_map g (map f l) = flat_map (fun a => g (f a)) l.
Proof. induction l as [|x l IH]; cbn; [reflexivity|]. rewrite IH. reflexivity. Qed.
Lemma map_flat_map {A B C} (f : B -> C) (g : A -> list B) l : map f (flat_map g l) = flat_map (fun a => map f (g a)) l.
Proof. induction l as [|x l IH]; cbn; [reflexivity|]. rewrite map_app, IH. reflexivity. Qed.
Definition down (f : Z * entry) : Z * entry := (1 + fst f, snd f).
Lemma fields_of_cons nm l ls n : fields_of ((nm, l) :: ls) (S n) = map (pair 0) l ++ map down (fields_of ls n).
Proof.
  unfold fields_of. cbn [seq flat_map nth_error]. f_equal.
  rewrite <- seq_shift, flat_map_map, map_flat_map. apply flat_map_ext. intros i. cbn [nth_error].
  rewrite map_map. apply map_ext. intros a. unfold down. cbn [fst snd]. f_equal. lia.
Qed.

Lemma rd_headers_says p e : p_left_first p = true -> forall ls n f h h' f', rd_headers p e ls n f h = Ok (h', f') ->
  bytes (fdata f) -> 0 <= fpos f < 2 ^ 63 -> len (fdata f) < 2 ^ 63 ->
  forall k, match field_named k (fields_of ls (Z.to_nat n)) with
            | Some (i, en) => exists v, hget h' k = Some v /\
                shown (ord e) (e_type en) (slice (fpos f + 240 * i + e_off en) (width (e_type en)) (fdata f)) v
            | None => hget h' k = hget h k
            end.
Proof.
  intros Hp. induction ls as [|[nm l] ls IH]; intros n f h h' f' H B P L k; cbn [rd_headers] in H;
    (destruct (Z.leb_spec n 0) as [N|N]; [injection H as <- <-; replace (Z.to_nat n) with 0%nat by lia; reflexivity|]).
  - apply bind_ok in H as (f1 & _ & H). injection H as <- _. rewrite fields_of_nil. reflexivity.
  - apply bind_ok in H as ([b f1] & E & H). apply bind_ok in H as (h1 & F & H). change TR_HEADER_SIZE with 240 in *.
    destruct (fread_ok 240 f b f1 ltac:(lia) E (proj1 P)) as (_ & Sb & _).
    apply fread_inv in E as (D & Pf & R & Lb & O); [|lia|lia|lia].
    assert (Bb : bytes b) by (rewrite Sb; apply bytes_slice; exact B).
    specialize (IH _ _ _ _ _ H ltac:(rewrite D; exact B) R ltac:(rewrite D; exact L) k).
    pose proof (rd_fields_says p e b Hp Bb _ _ _ F k) as G.
    replace (Z.to_nat n) with (S (Z.to_nat (n - 1))) by lia. rewrite fields_of_cons.
    unfold field_named in *. rewrite rev_app_distr, find_app', <- !map_rev, !find_map. cbn [snd].
    change (fun a : Z * entry => (e_name (snd (down a)) =? k)%string) with (fun a : Z * entry => (e_name (snd a) =? k)%string).
    destruct (find _ (rev (fields_of ls _))) as [[i en]|]; cbn [option_map].
    + unfold down. cbn [fst snd]. rewrite D, Pf in IH. 
      replace (fpos f + 240 * (1 + i) + e_off en) with (fpos f + 240 + 240 * i + e_off en) by lia. exact IH.
    + rewrite IH. unfold last_named in G. destruct (find _ (rev l)) as [en|] eqn:Fd; cbn [option_map]; [|exact G].
      destruct G as (v & G1 & G2 & G3 & G4). exists v. split; [exact G1|].
      replace (fpos f + 240 * 0 + e_off en) with (fpos f + e_off en) by lia.
      pose proof (width_pos (e_type en)). rewrite Sb, slice_slice in G4 by lia. exact G4.
Qed.

(** ** Samples *)
Lemma sample_reader_says p e fmt r c w : p_left_first p = true -> sample_reader p e fmt = Ok r ->
  bytes_per_sample fmt = Some w -> bytes c -> w <= len c ->
  exists d, r c = Ok (d, skipn (Z.to_nat w) c) /\ sample_says (ord e) fmt (firstn (Z.to_nat w) c) d.
Proof.
  intros Hp H W B L. unfold len in L. pose proof (reader_fmt _ _ _ _ H) as Sup. unfold supported in Sup. cbn [In] in Sup.
  assert (U : forall n, (n <= List.length c)%nat -> 0 <= uval (ord e) (firstn n c) < 256 ^ Z.of_nat n).
  { intros n Hn. pose proof (uval_range (ord e) _ (bytes_firstn n _ B)) as X. unfold len in X.
    rewrite firstn_length, Nat.min_l in X by lia. exact X. }
  assert (S : forall n, (0 < n)%nat -> (n <= List.length c)%nat ->
    - 256 ^ Z.of_nat n <= 2 * sval (ord e) (firstn n c) < 256 ^ Z.of_nat n).
  { intros n H0 Hn. unfold sval. rewrite firstn_length, Nat.min_l by lia. unfold as_signed.
    pose proof (pow256_pos n). pose proof (Z.mod_pos_bound (uval (ord e) (firstn n c)) (256 ^ Z.of_nat n) ltac:(lia)).
    destruct (Z.ltb_spec (2 * (uval (ord e) (firstn n c) mod 256 ^ Z.of_nat n)) (256 ^ Z.of_nat n)); lia. }
  repeat (destruct Sup as [<-|Sup]); try contradiction; cbn [sample_reader bytes_per_sample] in H, W;
    injection H as <-; injection W as <-; unfold pmap, rd_ibm, rd_f32, rd_f64, pmap, pbind;
    first [rewrite rd_i24_val by (assumption || lia) | rewrite rd_u24_val by (assumption || lia)
          | rewrite rd_i_val by (assumption || lia) | rewrite rd_u_val by (assumption || lia)];
    unfold pret; eexists; (split; [reflexivity|]); cbn [sample_says]; try reflexivity.
  - apply ibm2d_signed. apply (U 4%nat). lia.
  - apply i2d_signed. pose proof (S 4%nat ltac:(lia) ltac:(lia)). change (Z.to_nat 4) with 4%nat. lia.
  - apply i2d_signed. pose proof (S 2%nat ltac:(lia) ltac:(lia)). change (Z.to_nat 2) with 2%nat. lia.
  - apply f2d_widened. apply (U 4%nat). lia.
  - apply i2d_signed. pose proof (S 3%nat ltac:(lia) ltac:(lia)). change (Z.to_nat 3) with 3%nat. lia.
  - apply i2d_signed. pose proof (S 1%nat ltac:(lia) ltac:(lia)). change (Z.to_nat 1) with 1%nat. lia.
  - apply i2d_rne_signed. pose proof (S 8%nat ltac:(lia) ltac:(lia)). change (Z.to_nat 8) with 8%nat. lia.
  - apply i2d_unsigned. pose proof (U 4%nat ltac:(lia)). change (Z.to_nat 4) with 4%nat. lia.
  - apply i2d_unsigned. pose proof (U 2%nat ltac:(lia)). change (Z.to_nat 2) with 2%nat. lia.
  - pose proof (U 8%nat ltac:(lia)) as X. change (Z.to_nat 8) with 8%nat.
    replace false with (uval (ord e) (firstn 8 c) <? 0) by lia. apply i2d_rne_signed. lia.
  - apply i2d_unsigned. pose proof (U 3%nat ltac:(lia)). change (Z.to_nat 3) with 3%nat. lia.
  - apply i2d_unsigned. pose proof (U 1%nat ltac:(lia)). change (Z.to_nat 1) with 1%nat. lia.
Qed.

Lemma prep_says p e fmt r w : p_left_first p = true -> sample_reader p e fmt = Ok r ->
  bytes_per_sample fmt = Some w -> forall k c, bytes c -> Z.of_nat k * w <= len c ->
  exists l c', prep r k c = Ok (l, c') /\ List.length l = k /\
    forall i d, nth_error l i = Some d -> sample_says (ord e) fmt (slice (w * Z.of_nat i) w c) d.
Proof.
  intros Hp R W. pose proof (bps_range _ _ _ _ _ R W) as Hw. induction k as [|k IH]; intros c B L; cbn [prep].
  - exists [], c. split; [reflexivity|]. split; [reflexivity|]. intros i d H. destruct i; discriminate.
  - destruct (sample_reader_says p e fmt r c w Hp R W B) as (d & E & Sd); [nia|].
    destruct (IH (skipn (Z.to_nat w) c)) as (l & c' & E2 & Ll & Sl).
    { apply bytes_skipn. exact B. } { unfold len in *. rewrite skipn_length. nia. }
    exists (d :: l), c'. unfold pbind. rewrite E, E2. split; [reflexivity|]. split; [cbn; lia|].
    intros i x H. destruct i as [|i]; cbn [nth_error] in H.
    + injection H as <-. replace (w * Z.of_nat 0) with 0 by lia. exact Sd.
    + specialize (Sl i x H). replace (slice (w * Z.of_nat (S i)) w c) with (slice (w * Z.of_nat i) w (skipn (Z.to_nat w) c)); [exact Sl|].
      unfold slice. rewrite skipn_skipn'. f_equal. f_equal. nia.
Qed.

Lemma smpls_says p s sz f smp f' : p_left_first p = true -> r_inv p s -> bytes (fdata f) -> 0 <= sz ->
  0 <= fpos f < 2 ^ 63 -> len (fdata f) < 2 ^ 63 -> read_smpls p s sz f = Ok (smp, f') ->
  len smp = sz / i_bps s /\
  forall i d, nth_error smp i = Some d ->
    sample_says (ord (i_endian s)) (bh_format_code (i_bh s)) (slice (fpos f + i_bps s * Z.of_nat i) (i_bps s) (fdata f)) d.
Proof.
  intros Hp (_ & _ & _ & (r & R) & W & _) B Hs Pf L H. pose proof (bps_range _ _ _ _ _ R W) as Hw.
  unfold read_smpls in H. apply bind_ok in H as ([buf f1] & E & H). rewrite R in H. cbn [bind] in H.
  apply bind_ok in H as ([l c] & K & H). injection H as <- <-.
  destruct (fread_ok sz f buf f1 Hs E (proj1 Pf)) as (Lb & Sb & _).
  assert (Bb : bytes buf) by (rewrite Sb; apply bytes_slice; exact B).
  pose proof (Z.mul_div_le sz (i_bps s) ltac:(lia)) as Q. pose proof (Z.div_pos sz (i_bps s) Hs ltac:(lia)) as Q0.
  destruct (prep_says p _ _ r (i_bps s) Hp R W (Z.to_nat (sz / i_bps s)) buf Bb ltac:(lia)) as (l' & c' & K' & Ll & Sl).
  rewrite K in K'. injection K' as <- <-. split; [unfold len; lia|]. intros i d Hi. specialize (Sl i d Hi).
  rewrite Sb, slice_slice in Sl; [exact Sl|lia|lia|lia|].
  assert (Z.of_nat i < sz / i_bps s).
  { assert (i < List.length l)%nat by (apply nth_error_Some; congruence). lia. }
  nia.
Qed.
