(** What a successfully constructed reader or writer guarantees. *)
From Verif Require Import BaseFacts Platform Fp TraceHdr SegyTypes SegyCodec CodecFacts SampleFacts ISegy OSegy.

Lemma check_not_ub b ls : check_tr_hdr_map b ls <> UB.
Proof.
  assert (R : forall l pr ps, check_rest pr ps l <> UB).
  { induction l as [|en l IH]; intros pr ps; cbn; [discriminate|].
    destruct (_ <? _); [discriminate|]. destruct (_ <? _); [discriminate|]. apply IH. }
  unfold check_tr_hdr_map.
  assert (L : forall nl, check_layout nl <> UB).
  { intros [n l]. unfold check_layout. destruct (negb _); [discriminate|]. cbn [snd].
    destruct l; [discriminate|apply R]. }
  assert (M : forall ls, mapM check_layout ls <> UB).
  { induction ls0 as [|a l IH]; cbn; [discriminate|]. specialize (L a).
    destruct (check_layout a); cbn; try congruence. destruct (mapM check_layout l); cbn; congruence. }
  destruct (_ && _); [discriminate|]. specialize (M ls).
  destruct (mapM check_layout ls); cbn; congruence.
Qed.

(** Neither [Ok] nor undefined. *)
Definition throws {A} (x : outcome A) : Prop := exists e, x = Throw e.

Lemma throws_bind {A B} (x : outcome A) (f : A -> outcome B) :
  x <> UB -> (forall a, x = Ok a -> throws (f a)) -> throws (bind x f).
Proof. intros U H. destruct x; cbn; [apply H; reflexivity|eexists; reflexivity|congruence]. Qed.

Lemma fread_not_ub n f : fread n f <> UB.
Proof. unfold fread. destruct (_ =? _); [discriminate|]. destruct (_ <=? _); discriminate. Qed.

Lemma fread_ok n f d f' : 0 <= n -> fread n f = Ok (d, f') ->
  0 <= fpos f -> len d = n /\ d = slice (fpos f) n (fdata f) /\ fdata f' = fdata f /\ fpos f' = fpos f + n.
Proof.
  intros Hn H Hp. unfold fread in H. destruct (Z.eqb_spec n 0) as [->|N].
  - injection H as <- <-. repeat split; try lia.
  - destruct (Z.leb_spec (fpos f + n) (len (fdata f))) as [L|L]; [|discriminate].
    injection H as <- <-. cbn [fdata fpos]. repeat split.
    rewrite slice_length by lia. reflexivity.
Qed.

Lemma endian_bad m : m <> 0 -> m <> 16909060 -> m <> 67305985 -> endian_of m = Throw ESedaman.
Proof.
  intros A B C. unfold endian_of.
  destruct (Z.eqb_spec m 16909060); [contradiction|].
  destruct (Z.eqb_spec m 0); [contradiction|].
  destruct (Z.eqb_spec m 67305985); [contradiction|]. reflexivity.
Qed.

Lemma slice_slice {A} (o1 n1 o2 n2 : Z) (l : list A) :
  0 <= o1 -> 0 <= o2 -> 0 <= n2 -> o2 + n2 <= n1 ->
  slice o2 n2 (slice o1 n1 l) = slice (o1 + o2) n2 l.
Proof.
  intros H1 H2 H3 H4. unfold slice.
  rewrite skipn_firstn_comm, firstn_firstn, skipn_skipn'.
  f_equal; [lia|]. f_equal. lia.
Qed.

Lemma bh_endianness_set b v : bh_endianness (set_endianness b v) = v.
Proof. reflexivity. Qed.

Lemma i_open_bad_endian p content maps ov b0 m :
  slice 3296 4 content = le_enc 4 m -> - 2 ^ 31 <= m < 2 ^ 31 ->
  m <> 0 -> m <> 16909060 -> m <> 67305985 ->
  throws (i_open p content maps ov b0).
Proof.
  intros Hs Hr A B C. unfold i_open.
  apply throws_bind; [apply check_not_ub|]. intros _ _.
  apply throws_bind; [apply fread_not_ub|]. intros [t f1] E1.
  apply throws_bind; [apply fread_not_ub|]. intros [bin f2] E2. cbv zeta.
  unfold TEXT_HEADER_SIZE, BIN_HEADER_SIZE in *.
  apply fread_ok in E1 as (_ & _ & D1 & P1); [|lia|cbn; lia].
  cbn [open_in fdata fpos] in D1, P1.
  apply fread_ok in E2 as (_ & D2 & _ & _); [|lia|rewrite P1; lia].
  rewrite D1, P1 in D2. subst bin.
  rewrite slice_slice by lia. change (0 + 3200 + 96) with 3296. rewrite Hs.
  rewrite bh_endianness_set, le_dec_enc, pow256_2. change (8 * Z.of_nat 4) with 32.
  change (m mod 2 ^ 32) with (wrapu 32 m). rewrite wraps_wrapu.
  rewrite wraps_id; [|lia|unfold in_i; change (32 - 1) with 31; lia].
  rewrite endian_bad by assumption. eexists. reflexivity.
Qed.

Lemma rev0_bad_endian p t b ls : endian_of (bh_endianness b) = Throw ESedaman ->
  throws (rev0_open p t b ls).
Proof.
  intros E. unfold rev0_open. apply throws_bind; [apply check_not_ub|]. intros _ _.
  apply throws_bind.
  { destruct t; [discriminate|]. destruct (is_3200 _); discriminate. }
  intros x _. cbv zeta. apply throws_bind.
  - destruct (_ =? 0); cbn [bh_endianness set_format_code]; rewrite E; discriminate.
  - intros a Ha. exfalso. revert Ha. destruct (_ =? 0); cbn [bh_endianness set_format_code]; rewrite E; discriminate.
Qed.

Lemma open12_bad_endian p d ts b : endian_of (bh_endianness b) = Throw ESedaman ->
  throws (open_12 p d ts b).
Proof.
  intros E. unfold open_12. apply throws_bind.
  { destruct ts; [discriminate|]. destruct (forallb _ _); discriminate. }
  intros x Hx. destruct x as [|x0 x].
  { destruct ts; [discriminate|]. destruct (forallb _ _); discriminate. }
  cbv zeta. apply throws_bind.
  - destruct (_ =? 0); cbn [bh_endianness set_format_code]; rewrite E; discriminate.
  - intros a Ha. exfalso. revert Ha. destruct (_ =? 0); cbn [bh_endianness set_format_code]; rewrite E; discriminate.
Qed.

Lemma throws_ok_bind {A B} (x : outcome A) (f : A -> outcome B) : throws x -> throws (bind x f).
Proof. intros (e & ->). eexists. reflexivity. Qed.

Lemma rev1_bad_endian p t b ls : endian_of (bh_endianness b) = Throw ESedaman ->
  throws (rev1_open p t b ls).
Proof.
  intros E. unfold rev1_open. apply throws_bind; [apply check_not_ub|]. intros _ _.
  apply throws_ok_bind, open12_bad_endian, E.
Qed.

Lemma rev2_bad_endian p t b st ls : endian_of (bh_endianness b) = Throw ESedaman ->
  throws (rev2_open p t b st ls).
Proof.
  intros E. unfold rev2_open. apply throws_bind; [apply check_not_ub|]. intros _ _.
  apply throws_bind.
  { destruct t; [discriminate|]. destruct (forallb _ _); discriminate. }
  intros _ _. apply throws_bind; [destruct (forallb _ _); discriminate|]. intros _ _.
  apply throws_ok_bind, open12_bad_endian, E.
Qed.

(** ** Formats of constructed objects *)
Ltac oinv H :=
  repeat match type of H with
  | bind _ _ = Ok _ => let a := fresh "x" in let E := fresh "E" in apply bind_ok in H as (a & E & H)
  end.

Lemma reader_fmt p e fmt r : sample_reader p e fmt = Ok r -> In fmt supported.
Proof. intros H. destruct (fmt_cases fmt) as [I|[R _]]; [exact I|rewrite R in H; discriminate]. Qed.
Lemma writer_fmt p e fmt r : sample_writer p e fmt = Ok r -> In fmt supported.
Proof. intros H. destruct (fmt_cases fmt) as [I|[_ R]]; [exact I|rewrite R in H; discriminate]. Qed.

(** File operations used while opening never change the contents. *)
Lemma fread_data n f d f' : fread n f = Ok (d, f') -> fdata f' = fdata f.
Proof.
  unfold fread. destruct (_ =? _); [intros H; injection H as <- <-; reflexivity|].
  destruct (_ <=? _); [intros H; injection H as <- <-; reflexivity|discriminate].
Qed.
Lemma fseek_inv p f f' : fseek p f = Ok f' ->
  fdata f' = fdata f /\ fpos f' = p /\ 0 <= p < 2 ^ 63.
Proof.
  unfold fseek. destruct (_ && _) eqn:E; [|discriminate]. intros H; injection H as <-.
  cbn [fdata fpos]. repeat split; lia.
Qed.
Lemma fseek_cur_inv p f f' : fseek_cur p f = Ok f' ->
  fdata f' = fdata f /\ fpos f' = fpos f + p /\ 0 <= fpos f + p < 2 ^ 63.
Proof. apply fseek_inv. Qed.
Lemma fseek_end_inv p f f' : fseek_end p f = Ok f' ->
  fdata f' = fdata f /\ fpos f' = len (fdata f) + p /\ 0 <= len (fdata f) + p < 2 ^ 63.
Proof. apply fseek_inv. Qed.

Lemma until_data fuel : forall f acc r f', read_until_end fuel f acc = Ok (r, f') -> fdata f' = fdata f.
Proof.
  induction fuel as [|k IH]; intros f acc r f' H; cbn [read_until_end] in H; [discriminate|].
  apply bind_ok in H as ([b f1] & E & H). apply fread_data in E.
  destruct (starts_with _ _).
  - injection H as <- <-. exact E.
  - apply IH in H. congruence.
Qed.
Lemma blocks_data fuel : forall i f acc r f', read_blocks fuel i f acc = Ok (r, f') -> fdata f' = fdata f.
Proof.
  induction fuel as [|k IH]; intros i f acc r f' H; cbn [read_blocks] in H;
    (destruct (i =? 0); [injection H as <- <-; reflexivity|]); [discriminate|].
  apply bind_ok in H as ([b f1] & E & H). apply fread_data in E.
  apply bind_ok in H as (i' & _ & H). apply IH in H. congruence.
Qed.
Lemma ext_data num f acc r f' : read_ext_text_headers num f acc = Ok (r, f') -> fdata f' = fdata f.
Proof.
  unfold read_ext_text_headers. destruct (_ =? 0); [intros H; injection H as <- <-; reflexivity|].
  destruct (_ =? -1); [apply until_data|apply blocks_data].
Qed.
Lemma skipvar_data fuel : forall e a b n f f', skip_var_traces fuel e a b n f = Ok f' -> fdata f' = fdata f.
Proof.
  induction fuel as [|k IH]; intros e a b n f f' H; cbn [skip_var_traces] in H;
    (destruct (n =? 0); [injection H as <-; reflexivity|]); [discriminate|].
  apply bind_ok in H as ([h f1] & E1 & H). apply fread_data in E1.
  apply bind_ok in H as (c & _ & H). apply bind_ok in H as ([s16 c'] & _ & H). cbv zeta in H.
  apply bind_ok in H as ([ns f2] & E2 & H).
  apply bind_ok in H as (f3 & E3 & H). apply fseek_cur_inv in E3 as (E3 & _).
  apply IH in H. rewrite H, E3, <- E1.
  destruct (a =? 0); [injection E2 as <- <-; reflexivity|].
  apply bind_ok in E2 as ([h2 g2] & F1 & E2). apply fread_data in F1.
  apply bind_ok in E2 as (c2 & _ & E2). apply bind_ok in E2 as ([n2 c3] & _ & E2).
  apply bind_ok in E2 as (c4 & _ & E2). apply bind_ok in E2 as ([a0 c5] & _ & E2). cbv zeta in E2.
  apply bind_ok in E2 as (g3 & F2 & E2). apply fseek_cur_inv in F2 as (F2 & _).
  injection E2 as _ <-. congruence.
Qed.
Lemma trailer_data e b bps spt f eod st f' :
  read_trailer_stanzas e b bps spt f = Ok (eod, st, f') -> fdata f' = fdata f.
Proof.
  unfold read_trailer_stanzas. cbv zeta. destruct (_ =? -1).
  - destruct (_ =? 0); [discriminate|]. destruct (negb _).
    + intros H. apply bind_ok in H as (pr & _ & H). apply bind_ok in H as (f1 & E1 & H).
      apply fseek_cur_inv in E1 as (E1 & _). apply bind_ok in H as ([r g] & E2 & H).
      apply until_data in E2. injection H as _ _ <-. congruence.
    + intros H. apply bind_ok in H as (f1 & E1 & H).
      apply skipvar_data in E1. apply bind_ok in H as ([r g] & E2 & H).
      apply until_data in E2. injection H as _ _ <-. congruence.
  - intros H. apply bind_ok in H as (pr & _ & H). apply bind_ok in H as (f1 & E1 & H).
    apply fseek_end_inv in E1 as (E1 & _). apply bind_ok in H as ([r g] & E2 & H).
    apply blocks_data in E2. injection H as _ _ <-. congruence.
Qed.

Lemma fill_endianness e b c b' c' : fill_bin_header e b c = Ok (b', c') ->
  bh_endianness b' = bh_endianness b.
Proof.
  unfold fill_bin_header, pbind, pret. intros H.
  repeat match type of H with
  | (match ?x with Ok _ => _ | Throw _ => _ | UB => _ end) = Ok _ =>
      destruct x as [[? ?]| |] eqn:?; try discriminate H
  end.
  destruct (1 <? _).
  - repeat match type of H with
    | (match ?x with Ok _ => _ | Throw _ => _ | UB => _ end) = Ok _ =>
        destruct x as [[? ?]| |] eqn:?; try discriminate H
    end. injection H as <- <-. reflexivity.
  - injection H as <- <-. reflexivity.
Qed.

(** What a successful open establishes. *)
Lemma i_open_inv p content maps ov b0 s : i_open p content maps ov b0 = Ok s ->
  (exists r, sample_reader p (i_endian s) (bh_format_code (i_bh s)) = Ok r) /\
  bytes_per_sample (bh_format_code (i_bh s)) = Some (i_bps s) /\
  endian_of (bh_endianness (i_bh s)) = Ok (i_endian s) /\
  i_maps s = maps /\ fdata (i_file s) = content /\ fpos (i_file s) = i_first s /\
  i_cur s = i_first s /\
  i_spt s = (if bh_ext_samp_per_tr (i_bh s) =? 0 then wrapu 16 (bh_samp_per_tr (i_bh s))
             else bh_ext_samp_per_tr (i_bh s)) /\
  in_i 32 (i_spt s * i_bps s) = true /\ i_bufsz s = wrapu 64 (i_spt s * i_bps s) /\
  0 <= i_first s < 2 ^ 63 /\ check_tr_hdr_map b0 maps = Ok tt.
Proof.
  intros H. unfold i_open in H. apply bind_ok in H as (u & E0 & H). destruct u.
  apply bind_ok in H as ([t f1] & E1 & H). apply bind_ok in H as ([bin f2] & E2 & H).
  cbv zeta in H. apply bind_ok in H as (e & E3 & H). apply bind_ok in H as (b & E4 & H).
  apply bind_ok in H as (r & E5 & H).
  destruct (bytes_per_sample (bh_format_code b)) as [bps|] eqn:E6; [|discriminate].
  apply bind_ok in H as ([texts f3] & E7 & H). apply bind_ok in H as ([first f4] & E8 & H).
  apply bind_ok in H as ([[eod st] f5] & E9 & H).
  apply bind_ok in H as (f6 & E10 & H). apply bind_ok in H as (n & E11 & H).
  apply bind_ok in H as (sz & E12 & H). injection H as <-.
  cbn [i_endian i_bh i_bps i_maps i_file i_first i_cur i_spt i_bufsz].
  apply fread_data in E1, E2. apply ext_data in E7. apply trailer_data in E9.
  assert (D4 : fdata f4 = fdata f3).
  { destruct (_ =? 0) in E8; [injection E8 as <- <-; reflexivity|].
    apply bind_ok in E8 as (g & Eg & E8). injection E8 as <- <-. apply fseek_inv in Eg. apply Eg. }
  apply fseek_inv in E10 as (D6 & P6 & R6).
  cbn [open_in fdata] in E1.
  unfold sarith in E11. destruct (in_i 32 _) eqn:I; [|discriminate]. injection E11 as <-.
  unfold resize_to in E12. destruct (_ <=? _); [|discriminate]. injection E12 as <-.
  assert (Eb : bh_endianness b = wraps 32 (le_dec (slice 96 4 bin))).
  { destruct ov; [injection E4 as <-; reflexivity|].
    apply bind_ok in E4 as ([b' c'] & F & E4). injection E4 as <-. apply fill_endianness in F. exact F. }
  rewrite bh_endianness_set in E3.
  repeat split; auto; try lia; try congruence. eexists; exact E5.
Qed.

Lemma open12_inv p d txts bh ts b e bps f : open_12 p d txts bh = Ok (ts, b, e, bps, f) ->
  (exists w, sample_writer p e (bh_format_code b) = Ok w) /\
  o_bytes_per_sample (bh_format_code b) = Some bps /\
  endian_of (bh_endianness b) = Ok e.
Proof.
  unfold open_12. intros H. apply bind_ok in H as (l & E1 & H). destruct l as [|t0 l]; [discriminate|].
  cbv zeta in H. apply bind_ok in H as (e' & E2 & H). apply bind_ok in H as (f2 & E3 & H).
  apply bind_ok in H as (w & E4 & H).
  destruct (o_bytes_per_sample _) as [bps'|] eqn:E5; [|discriminate]. injection H as <- <- <- <- <-.
  split; [eexists; exact E4|]. split; [exact E5|exact E2].
Qed.

Definition o_good (p : platform) (s : osegy) : Prop :=
  (exists w, sample_writer p (o_endian s) (bh_format_code (o_bh s)) = Ok w) /\
  o_bytes_per_sample (bh_format_code (o_bh s)) = Some (o_bps s) /\
  endian_of (bh_endianness (o_bh s)) = Ok (o_endian s).

Lemma rev0_good p t b ls s : rev0_open p t b ls = Ok s -> o_good p s.
Proof.
  unfold rev0_open. intros H. apply bind_ok in H as (u & _ & H). apply bind_ok in H as (t' & _ & H).
  cbv zeta in H. apply bind_ok in H as (e & E1 & H). apply bind_ok in H as (f & _ & H).
  apply bind_ok in H as (w & E2 & H).
  destruct (o_bytes_per_sample _) as [bps|] eqn:E3; [|discriminate].
  destruct (same_as _ _ _).
  - injection H as <-. repeat split; cbn; eauto.
  - apply bind_ok in H as (sb & _ & H). injection H as <-. repeat split; cbn; eauto.
Qed.
Lemma rev1_good p t b ls s : rev1_open p t b ls = Ok s -> o_good p s.
Proof.
  unfold rev1_open. intros H. apply bind_ok in H as (u & _ & H).
  apply bind_ok in H as ([[[[ts b'] e] bps] f] & E & H). apply open12_inv in E as (A & B & C).
  destruct (same_as _ _ _); [injection H as <-; repeat split; cbn; auto|].
  destruct (negb _).
  - apply bind_ok in H as (sb & _ & H). injection H as <-. repeat split; cbn; auto.
  - injection H as <-; repeat split; cbn; auto.
Qed.
Lemma rev2_good p t b st ls s : rev2_open p t b st ls = Ok s -> o_good p s.
Proof.
  unfold rev2_open. intros H. apply bind_ok in H as (u & _ & H). apply bind_ok in H as (u1 & _ & H).
  apply bind_ok in H as (u2 & _ & H).
  apply bind_ok in H as ([[[[ts b'] e] bps] f] & E & H). apply open12_inv in E as (A & B & C).
  cbv zeta in H.
  destruct (same_as _ _ _); [injection H as <-; repeat split; cbn; auto|].
  destruct (negb (bh_fixed_tr_length _ =? 0)).
  - apply bind_ok in H as (sb & _ & H). injection H as <-. repeat split; cbn; auto.
  - injection H as <-; repeat split; cbn; auto.
Qed.
