(** Opening from its parts; truncation, trailer stanzas of variable number and
    the header override (C24, C26, C27). *)
From Verif Require Import BaseFacts Platform Fp TraceHdr SegyTypes SegyCodec CodecFacts SampleFacts
     HdrFacts ISegy OSegy OpenFacts CodecSpec LayoutSpec LayoutFacts BinFacts WriterFacts RoundSpec ReaderFacts
     ReadSpec ReadFacts ReadFacts2 ReadFacts3.

Definition first_pos (b : bin_hdr) (f3 : file) : outcome (Z * file) :=
  if bh_byte_off_of_first_tr b =? 0 then Ok (fpos f3, f3)
  else let* f4 := fseek (wraps 64 (bh_byte_off_of_first_tr b)) f3 in
       Ok (wraps 64 (bh_byte_off_of_first_tr b), f4).

Lemma first_pos_inv b f3 first f4 : first_pos b f3 = Ok (first, f4) -> 0 <= fpos f3 ->
  fdata f4 = fdata f3 /\ fpos f4 = first /\ 0 <= first.
Proof.
  unfold first_pos. destruct (_ =? 0); [intros H; injection H as <- <-; auto|].
  intros H Hp. apply bind_ok in H as (g & E & H). injection H as <- <-. apply fseek_inv in E as (D & P & R). repeat split; auto; lia.
Qed.

Lemma fread_at n content q : 0 < n -> q + n <= len content ->
  fread n (mkFile content q) = Ok (slice q n content, mkFile content (q + n)).
Proof.
  intros H1 H2. unfold fread. cbn [fdata fpos]. destruct (Z.eqb_spec n 0); [lia|].
  replace (_ <=? _) with true by lia. reflexivity.
Qed.

Lemma open_intro p content maps (ov : bool) b0 e b bps rd texts f3 first f4 eod st f5 :
  check_tr_hdr_map b0 maps = Ok tt -> 3600 <= len content -> endian_of (marker content) = Ok e ->
  (if ov then b = set_endianness b0 (marker content)
   else exists c, fill_bin_header e (set_endianness b0 (marker content)) (slice 3200 400 content) = Ok (b, c)) ->
  sample_reader p e (bh_format_code b) = Ok rd -> bytes_per_sample (bh_format_code b) = Some bps ->
  read_ext_text_headers (bh_ext_text_headers_num b) (mkFile content 3600) [slice 0 3200 content] = Ok (texts, f3) ->
  first_pos b f3 = Ok (first, f4) ->
  read_trailer_stanzas e b bps (declared b) f4 = Ok (eod, st, f5) ->
  0 <= first < 2 ^ 63 -> in_i 32 (declared b * bps) = true ->
  wrapu 64 (declared b * bps) <= p_max_alloc p ->
  i_open p content maps ov b0
  = Ok (mkI (mkFile content first) b maps texts st e bps (declared b) (wrapu 64 (declared b * bps)) first first eod).
Proof.
  intros Ck Lc Ee Eb Er Bp Ex Fp Tr R I Al. unfold i_open. rewrite Ck. cbn [bind]. unfold open_in, TEXT_HEADER_SIZE, BIN_HEADER_SIZE.
  rewrite fread_at by lia. cbn [bind]. change (0 + 3200) with 3200. rewrite fread_at by lia. cbn [bind]. cbv zeta.
  rewrite slice_slice by lia. change (3200 + 96) with 3296. change (3200 + 400) with 3600. fold (marker content).
  rewrite bh_endianness_set, Ee. cbn [bind].
  replace (if ov then Ok (set_endianness b0 (marker content))
           else let* (b2, _) := fill_bin_header e (set_endianness b0 (marker content)) (slice 3200 400 content) in Ok b2)
    with (Ok b : outcome bin_hdr).
  2:{ destruct ov; [rewrite Eb; reflexivity|]. destruct Eb as (c & ->). reflexivity. }
  cbn [bind]. rewrite Er. cbn [bind]. rewrite Bp, Ex. cbn [bind]. fold (first_pos b f3). rewrite Fp. cbn [bind].
  fold (declared b). rewrite Tr. cbn [bind].
  pose proof (ext_data _ _ _ _ _ Ex) as D3. pose proof (ext_pos _ _ _ _ _ Ex ltac:(cbn [fpos]; lia)) as P3.
  apply first_pos_inv in Fp as (D4 & _); [|exact P3]. apply trailer_data in Tr.
  unfold fseek. replace (_ && _) with true by lia. cbn [bind]. rewrite sarith_ok by exact I. cbn [bind].
  unfold resize_to. cbv zeta. replace (_ <=? _) with true by lia. cbn [bind].
  rewrite Tr, D4, D3. reflexivity.
Qed.

Lemma open_shape p content maps (ov : bool) b0 s : i_open p content maps ov b0 = Ok s ->
  i_spt s = declared (i_bh s) /\
  s = mkI (mkFile content (i_first s)) (i_bh s) maps (i_text s) (i_stanzas s) (i_endian s) (i_bps s)
          (declared (i_bh s)) (wrapu 64 (declared (i_bh s) * i_bps s)) (i_first s) (i_first s) (i_eod s).
Proof.
  intros H. apply i_open_inv in H as (_ & _ & _ & M & D & P & C & S & _ & Z & _).
  fold (declared (i_bh s)) in S. split; [exact S|]. destruct s as [f b ms tx st e bps spt bz fi cu eo].
  cbn [i_file i_bh i_maps i_text i_stanzas i_endian i_bps i_spt i_bufsz i_first i_cur i_eod] in *.
  destruct f as [d q]. cbn [fdata fpos] in *. congruence.
Qed.

(** ** The header override (C27) *)
Lemma set_endianness_id b : set_endianness b (bh_endianness b) = b.
Proof. destruct b; reflexivity. Qed.

Lemma override_same p content maps s : isegy_open p content maps = Ok s ->
  check_tr_hdr_map (i_bh s) maps = Ok tt -> isegy_open_bh p content (i_bh s) maps = Ok s.
Proof.
  intros H Ck. unfold isegy_open in H. pose proof (open_alloc _ _ _ _ _ _ H) as Al. pose proof (open_shape _ _ _ _ _ _ H) as (Sp & Sh).
  pose proof (i_open_inv _ _ _ _ _ _ H) as ((r & R) & Bp & _ & _ & _ & _ & _ & _ & I & Z & F & _).
  apply open_parts in H as (L & (c & Fl) & Ee & f3 & f4 & f5 & X1 & X2 & X3).
  pose proof (fill_endianness _ _ _ _ _ Fl) as Me. rewrite bh_endianness_set in Me.
  fold (first_pos (i_bh s) f3) in X2. rewrite Sp in *.
  unfold isegy_open_bh.
  rewrite (open_intro p content maps true (i_bh s) (i_endian s) (i_bh s) (i_bps s) r (i_text s) f3 (i_first s) f4 (i_eod s) (i_stanzas s) f5).
  - f_equal. symmetry. exact Sh.
  - exact Ck.
  - exact L.
  - exact Ee.
  - rewrite <- Me. symmetry. apply set_endianness_id.
  - exact R.
  - exact Bp.
  - exact X1.
  - exact X2.
  - exact X3.
  - exact F.
  - exact I.
  - rewrite <- Z. apply Al.
Qed.

(** ** Truncation (C24) *)
Definition trunc (k : Z) (f : file) : file := mkFile (firstn (Z.to_nat k) (fdata f)) (fpos f).

Lemma slice_firstn {A} o n k (l : list A) : 0 <= o -> 0 <= n -> o + n <= k ->
  slice o n (firstn (Z.to_nat k) l) = slice o n l.
Proof.
  intros H1 H2 H3. unfold slice. rewrite skipn_firstn_comm, firstn_firstn. f_equal. lia.
Qed.
Lemma len_firstn {A} k (l : list A) : 0 <= k <= len l -> len (firstn (Z.to_nat k) l) = k.
Proof. intros H. unfold len in *. rewrite firstn_length. lia. Qed.

Lemma fread_trunc n f d f' k : fread n f = Ok (d, f') -> 0 <= n -> 0 <= fpos f -> 0 <= k <= len (fdata f) ->
  (fpos f' <= k -> fread n (trunc k f) = Ok (d, trunc k f')) /\
  (k < fpos f' -> 0 < n -> fread n (trunc k f) = Throw EIO).
Proof.
  intros H Hn Hp Hk. pose proof (fread_ok _ _ _ _ Hn H Hp) as (_ & _ & D & P).
  unfold fread in *. cbn [trunc fdata fpos]. rewrite len_firstn by exact Hk. destruct (Z.eqb_spec n 0) as [->|N].
  - injection H as <- <-. split; [reflexivity|lia].
  - destruct (Z.leb_spec (fpos f + n) (len (fdata f))); [|discriminate]. injection H as <- <-. cbn [fdata fpos] in *.
    split; intros K.
    + replace (fpos f + n <=? k) with true by lia. rewrite slice_firstn by lia. reflexivity.
    + intros _. replace (fpos f + n <=? k) with false by lia. reflexivity.
Qed.

Lemma rd_headers_trunc p e k : forall ls n f h h' f', rd_headers p e ls n f h = Ok (h', f') ->
  0 <= fpos f -> 0 <= k <= len (fdata f) -> n <= len ls ->
  (fpos f' <= k -> rd_headers p e ls n (trunc k f) h = Ok (h', trunc k f')) /\
  (k < fpos f' -> 0 < n -> rd_headers p e ls n (trunc k f) h = Throw EIO).
Proof.
  induction ls as [|[nm l] ls IH]; intros n f h h' f' H Hp Hk Hn; cbn [rd_headers] in *;
    (destruct (Z.leb_spec n 0) as [N|N]; [injection H as <- <-; split; [reflexivity|lia]|]).
  - change (len []) with 0 in Hn. lia.
  - rewrite len_cons in Hn. apply bind_ok in H as ([b f1] & E & H). apply bind_ok in H as (h1 & E1 & H).
    destruct (fread_trunc _ _ _ _ k E ltac:(unfold TR_HEADER_SIZE; lia) Hp Hk) as [T1 T2].
    apply fread_ok in E as (_ & _ & D & P); [|unfold TR_HEADER_SIZE; lia|exact Hp].
    change TR_HEADER_SIZE with 240 in *.
    assert (G : fpos f1 <= fpos f').
    { clear - H P Hp. revert n f1 h1 H P. intros n f1 h1 H P. assert (0 <= fpos f1) by lia. clear P.
      revert H H0. generalize (n - 1) as m, f1 as g, h1 as x. clear.
      induction ls as [|[nm l] ls IH]; intros m g x H Hg; cbn [rd_headers] in H;
        (destruct (Z.leb_spec m 0); [injection H as <- <-; lia|]).
      - apply bind_ok in H as (g1 & E & H). injection H as <- <-. apply fseek_cur_inv in E as (_ & E & _).
        change TR_HEADER_SIZE with 240 in E. lia.
      - apply bind_ok in H as ([b g1] & E & H). apply bind_ok in H as (y & _ & H).
        apply fread_ok in E as (_ & _ & _ & P); [|unfold TR_HEADER_SIZE; lia|exact Hg]. change TR_HEADER_SIZE with 240 in P.
        apply IH in H; lia. }
    destruct (IH _ _ _ _ _ H ltac:(lia) ltac:(rewrite D; exact Hk) ltac:(lia)) as [I1 I2].
    split; intros K.
    + rewrite T1 by lia. cbn [bind]. rewrite E1. cbn [bind]. apply I1, K.
    + intros _. destruct (Z.lt_ge_cases k (fpos f1)) as [Q|Q].
      * rewrite T2 by lia. reflexivity.
      * rewrite T1 by lia. cbn [bind]. rewrite E1. cbn [bind]. apply I2; [exact K|].
        destruct (Z.le_gt_cases (n - 1) 0) as [Z0|Z0]; [|lia]. exfalso.
        destruct ls as [|[? ?] ?]; cbn [rd_headers] in H; replace (n - 1 <=? 0) with true in H by lia;
          injection H as <- <-; lia.
Qed.

Lemma smpls_trunc p s k sz f smp f' : read_smpls p s sz f = Ok (smp, f') -> 0 <= sz -> 0 <= fpos f ->
  0 <= k <= len (fdata f) ->
  (fpos f' <= k -> read_smpls p (cut k s) sz (trunc k f) = Ok (smp, trunc k f')) /\
  (k < fpos f' -> 0 < sz -> read_smpls p (cut k s) sz (trunc k f) = Throw EIO).
Proof.
  intros H Hs Hp Hk. unfold read_smpls in *. apply bind_ok in H as ([d f1] & E & H).
  destruct (fread_trunc _ _ _ _ k E Hs Hp Hk) as [T1 T2]. cbn [cut i_endian i_bh i_bps].
  apply bind_ok in H as (r & Er & H). apply bind_ok in H as ([sm c] & Ep & H). injection H as <- <-.
  split; intros K.
  - rewrite T1 by exact K. cbn [bind]. rewrite Er. cbn [bind]. rewrite Ep. reflexivity.
  - intros Q. rewrite T2 by assumption. reflexivity.
Qed.

Lemma read_trace_trunc p k s t s1 : p_max_alloc p < 2 ^ 63 -> r_inv p s -> read_trace p s = Ok (t, s1) ->
  0 <= bh_max_num_add_tr_headers (i_bh s) < len (i_maps s) -> 0 <= k <= len (fdata (i_file s)) ->
  (i_cur s1 <= k -> read_trace p (cut k s) = Ok (t, cut k s1)) /\
  (k < i_cur s1 -> read_trace p (cut k s) = Throw EIO).
Proof.
  intros A I H Hm Hk. pose proof I as (P & C & L & R & Bp & I32 & Bf & Fx). unfold read_trace in *.
  apply bind_ok in H as ([h f1] & E & H). pose proof (trc_header_inv _ _ _ _ I E) as (D1 & P1 & R1).
  assert (T : (fpos f1 <= k -> read_trc_header p (cut k s) = Ok (h, trunc k f1)) /\
              (k < fpos f1 -> read_trc_header p (cut k s) = Throw EIO)).
  { unfold read_trc_header in *. cbn [cut i_bh i_endian i_maps i_file]. fold (trunc k (i_file s)).
    apply bind_ok in E as (n & En & E). rewrite En. cbn [bind]. unfold sarith in En. destruct (in_i _ _); [|discriminate].
    injection En as <-. destruct (rd_headers_trunc _ _ k _ _ _ _ _ _ E ltac:(lia) Hk ltac:(lia)) as [T1 T2].
    split; [exact T1|]. intros K. apply T2; [exact K|lia]. }
  destruct T as [T1 T2]. cbn [cut i_bh i_bufsz i_bps].
  destruct (is_fixed (i_bh s)) eqn:FX.
  - apply bind_ok in H as ([smp f2] & E2 & H). injection H as <- <-. cbn [i_set i_cur].
    destruct (smpls_trunc _ _ k _ _ _ _ E2 ltac:(lia) ltac:(lia) ltac:(rewrite D1; exact Hk)) as [U1 U2].
    apply smpls_inv in E2 as (D2 & P2 & _); [|lia|exact R1|rewrite D1; exact L].
    split; intros K.
    + rewrite T1 by lia. cbn [bind]. rewrite U1 by lia. reflexivity.
    + destruct (Z.lt_ge_cases k (fpos f1)) as [Q|Q]; [rewrite T2 by exact Q; reflexivity|].
      rewrite T1 by lia. cbn [bind]. rewrite U2 by lia. reflexivity.
  - destruct (hidx h "SAMP_NUM") as [v h'] eqn:Ev. apply bind_ok in H as (n & En & H). cbv zeta in H.
    apply bind_ok in H as (sz & Es & H). apply bind_ok in H as ([smp f2] & E2 & H). injection H as <- <-. cbn [i_set i_cur].
    assert (Hz : 0 <= sz).
    { pose proof (wrapu_bound 64 (wrapu 64 n * i_bps s) ltac:(lia)) as W. rewrite (buf_want p (i_bufsz s) _ A Bf W) in Es.
      destruct (_ <=? _); [|discriminate]. injection Es as <-. lia. }
    destruct (smpls_trunc _ _ k _ _ _ _ E2 Hz ltac:(lia) ltac:(rewrite D1; exact Hk)) as [U1 U2].
    apply smpls_inv in E2 as (D2 & P2 & _); [|lia|exact R1|rewrite D1; exact L].
    split; intros K.
    + rewrite T1 by lia. cbn [bind]. rewrite Ev, En. cbn [bind]. cbv zeta. rewrite Es. cbn [bind]. rewrite U1 by lia. reflexivity.
    + destruct (Z.lt_ge_cases k (fpos f1)) as [Q|Q]; [rewrite T2 by exact Q; reflexivity|].
      rewrite T1 by lia. cbn [bind]. rewrite Ev, En. cbn [bind]. cbv zeta. rewrite Es. cbn [bind]. rewrite U2 by lia. reflexivity.
Qed.

Lemma reads_cons p s t s1 ts s2 : read_trace p s = Ok (t, s1) -> reads p s1 ts s2 -> reads p s (t :: ts) s2.
Proof. intros H R. unfold reads in *. cbn [List.length repeat read_mixed map]. rewrite H. cbn [bind]. rewrite R. reflexivity. Qed.

Lemma collect_trunc p : p_max_alloc p < 2 ^ 63 -> forall fuel s ts sE, collect p fuel s = (ts, Ok sE) ->
  r_inv p s -> 0 <= bh_max_num_add_tr_headers (i_bh s) < len (i_maps s) ->
  i_eod s = len (fdata (i_file s)) -> forall k, i_cur s <= k <= len (fdata (i_file s)) ->
  exists ts1 sJ, reads p s ts1 sJ /\
   ((i_cur sJ = k /\ collect p fuel (cut k s) = (ts1, Ok (cut k sJ))) \/
    (exists t sN ts2, ts = ts1 ++ t :: ts2 /\ read_trace p sJ = Ok (t, sN) /\ i_cur sJ < k < i_cur sN /\
      collect p fuel (cut k s) = (ts1, Throw EIO))) /\ exists ts2, ts = ts1 ++ ts2.
Proof.
  intros A. induction fuel as [|fuel IH]; intros s ts sE H I Hm He k Hk; cbn [collect] in *.
  - destruct (has_trace s) eqn:HT; [discriminate|]. injection H as <- <-. exists [], s. split; [reflexivity|].
    unfold has_trace in *. apply negb_false_iff, Z.eqb_eq in HT. assert (i_cur s = k) by lia.
    split; [|exists []; reflexivity]. left. split; [assumption|].
    cbn [cut i_cur i_eod]. replace (i_cur s =? k) with true by lia. reflexivity.
  - destruct (has_trace s) eqn:HT.
    2:{ injection H as <- <-. exists [], s. split; [reflexivity|].
        unfold has_trace in *. apply negb_false_iff, Z.eqb_eq in HT. assert (i_cur s = k) by lia.
        split; [|exists []; reflexivity]. left. split; [assumption|].
        cbn [cut i_cur i_eod]. replace (i_cur s =? k) with true by lia. reflexivity. }
    destruct (Z.eq_dec (i_cur s) k) as [Q|Q].
    { exists [], s. split; [reflexivity|]. split; [|eexists; reflexivity]. left. split; [exact Q|].
      unfold has_trace. cbn [cut i_cur i_eod]. replace (i_cur s =? k) with true by lia. reflexivity. }
    replace (has_trace (cut k s)) with true.
    2:{ unfold has_trace. cbn [cut i_cur i_eod]. replace (i_cur s =? k) with false by lia. reflexivity. }
    destruct (read_trace p s) as [[t s1]| |] eqn:E; [|discriminate|discriminate].
    destruct (collect p fuel s1) as [ts' o] eqn:Ec. injection H as <- ->.
    pose proof (read_trace_inv _ _ _ _ A I E) as (I1 & S1 & P1 & _).
    destruct (read_trace_trunc _ k _ _ _ A I E Hm ltac:(destruct I as (_ & ? & _); lia)) as [T1 T2].
    destruct (Z.lt_ge_cases k (i_cur s1)) as [Q1|Q1].
    + exists [], s. split; [reflexivity|]. split; [|eexists; reflexivity]. right. exists t, s1, ts'.
      split; [reflexivity|]. split; [exact E|]. split; [lia|]. rewrite T2 by lia. reflexivity.
    + rewrite T1 by lia.
      destruct S1 as (S1a & S1b & _ & _ & _ & _ & _ & _ & S9 & S10).
      destruct (IH _ _ _ Ec I1 ltac:(rewrite S1a, S1b; exact Hm) ltac:(rewrite S9, S10; exact He) k ltac:(rewrite S10; lia))
        as (ts1 & sJ & R & Ca & ts2 & ->).
      exists (t :: ts1), sJ. split; [eapply reads_cons; eassumption|]. split; [|exists ts2; reflexivity].
      destruct Ca as [[Ca Cb]|(t' & sN & ts3 & Cx & Ca & Cb & Cc)].
      * left. rewrite Cb. auto.
      * right. exists t', sN, ts3. rewrite Cc. split; [rewrite Cx; reflexivity|]. auto.
Qed.

Lemma until_trunc k : forall fuel f acc r f', read_until_end fuel f acc = Ok (r, f') -> forall fuel',
  0 <= fpos f <= k -> k <= len (fdata f) -> k - fpos f + 1 <= Z.of_nat fuel' ->
  (fpos f' <= k -> read_until_end fuel' (trunc k f) acc = Ok (r, trunc k f')) /\
  (k < fpos f' -> read_until_end fuel' (trunc k f) acc = Throw EIO).
Proof.
  induction fuel as [|m IH]; intros f acc r f' H fuel' Hp Hk Hf; cbn [read_until_end] in H; [discriminate|].
  destruct fuel' as [|m']; [lia|]. cbn [read_until_end].
  apply bind_ok in H as ([b f1] & E & H).
  destruct (fread_trunc _ _ _ _ k E ltac:(unfold TEXT_HEADER_SIZE; lia) ltac:(lia) ltac:(lia)) as [T1 T2].
  apply fread_ok in E as (_ & _ & D & P); [|unfold TEXT_HEADER_SIZE; lia|lia]. change TEXT_HEADER_SIZE with 3200 in *.
  assert (G : fpos f1 <= fpos f').
  { destruct (starts_with end_text b); [injection H as <- <-; lia|].
    apply until_inv in H as (bs & x & _ & -> & _); [|lia]. cbn [fpos]. pose proof (len_nonneg bs). lia. }
  destruct (Z.lt_ge_cases k (fpos f1)) as [Q|Q].
  - rewrite T2 by lia. cbn [bind]. split; [lia|reflexivity].
  - rewrite T1 by lia. cbn [bind]. destruct (starts_with end_text b).
    + injection H as <- <-. split; [reflexivity|lia].
    + apply (IH _ _ _ _ H); [lia|rewrite D; lia|lia].
Qed.

Lemma blocks_trunc k : forall fuel i f acc r f', read_blocks fuel i f acc = Ok (r, f') -> 0 <= i -> forall fuel',
  0 <= fpos f <= k -> k <= len (fdata f) -> k - fpos f + 1 <= Z.of_nat fuel' ->
  (fpos f' <= k -> read_blocks fuel' i (trunc k f) acc = Ok (r, trunc k f')) /\
  (k < fpos f' -> read_blocks fuel' i (trunc k f) acc = Throw EIO).
Proof.
  induction fuel as [|m IH]; intros i f acc r f' H Hi fuel' Hp Hk Hf; cbn [read_blocks] in H;
    (destruct fuel' as [|m']; [lia|]); cbn [read_blocks];
    (destruct (Z.eqb_spec i 0) as [Z0|N0]; [injection H as <- <-; split; [reflexivity|lia]|]); [discriminate|].
  apply bind_ok in H as ([b f1] & E & H).
  destruct (fread_trunc _ _ _ _ k E ltac:(unfold TEXT_HEADER_SIZE; lia) ltac:(lia) ltac:(lia)) as [T1 T2].
  apply fread_ok in E as (_ & _ & D & P); [|unfold TEXT_HEADER_SIZE; lia|lia]. change TEXT_HEADER_SIZE with 3200 in *.
  apply bind_ok in H as (i' & Ei & H). assert (i' = i - 1).
  { unfold sarith in Ei. destruct (in_i _ _); [|discriminate]. injection Ei as <-. reflexivity. }
  subst i'.
  assert (G : fpos f1 <= fpos f').
  { apply blocks_inv in H as (bs & _ & _ & -> & _); [|lia|lia]. cbn [fpos]. lia. }
  destruct (Z.lt_ge_cases k (fpos f1)) as [Q|Q].
  - rewrite T2 by lia. cbn [bind]. split; [lia|reflexivity].
  - rewrite T1 by lia. cbn [bind]. rewrite Ei. cbn [bind].
    apply (IH _ _ _ _ _ H); [lia|lia|rewrite D; lia|lia].
Qed.

Lemma ext_trunc k n f acc r f' : read_ext_text_headers n f acc = Ok (r, f') ->
  0 <= fpos f <= k -> k <= len (fdata f) ->
  (fpos f' <= k -> read_ext_text_headers n (trunc k f) acc = Ok (r, trunc k f')) /\
  (k < fpos f' -> read_ext_text_headers n (trunc k f) acc = Throw EIO).
Proof.
  intros H Hp Hk. unfold read_ext_text_headers in *.
  destruct (Z.eqb_spec n 0); [injection H as <- <-; split; [reflexivity|lia]|].
  assert (Fu : k - fpos f + 1 <= Z.of_nat (file_fuel (trunc k f))).
  { unfold file_fuel. cbn [trunc fdata]. pose proof (len_firstn k (fdata f) ltac:(lia)) as X. unfold len in X. lia. }
  destruct (Z.eqb_spec n (-1)); [apply (until_trunc k _ _ _ _ _ H); assumption|].
  destruct (Z.lt_ge_cases n 0) as [Q|Q]; [exfalso; exact (blocks_neg _ _ _ _ _ Q H)|].
  apply (blocks_trunc k _ _ _ _ _ _ H); assumption.
Qed.

(** A file cut off in its first 3600 bytes does not open. *)
Lemma open_short p content maps ov b0 : check_tr_hdr_map b0 maps = Ok tt -> len content < 3600 ->
  i_open p content maps ov b0 = Throw EIO.
Proof.
  intros Ck L. unfold i_open. rewrite Ck. cbn [bind]. unfold fread at 1. change (TEXT_HEADER_SIZE =? 0) with false.
  cbn [open_in fpos fdata]. change TEXT_HEADER_SIZE with 3200. cbv iota.
  destruct (Z.leb_spec (0 + 3200) (len content)); [|reflexivity]. cbn [bind].
  unfold fread. change (BIN_HEADER_SIZE =? 0) with false. cbn [fpos fdata]. change BIN_HEADER_SIZE with 400. cbv iota.
  destruct (Z.leb_spec (0 + 3200 + 400) (len content)); [lia|]. reflexivity.
Qed.

Lemma open_trunc p content maps (ov : bool) b0 s k : i_open p content maps ov b0 = Ok s ->
  bh_num_of_trailer_stanza (i_bh s) = 0 -> 0 <= k <= len content -> len content < 2 ^ 63 ->
  let pre := 3600 + 3200 * (len (i_text s) - 1) in
  (pre <= k -> i_open p (firstn (Z.to_nat k) content) maps ov b0 = Ok (cut k s)) /\
  (k < pre -> i_open p (firstn (Z.to_nat k) content) maps ov b0 = Throw EIO).
Proof.
  intros H N Hk Lc pre. pose proof (open_alloc _ _ _ _ _ _ H) as Al. pose proof (open_shape _ _ _ _ _ _ H) as (Sp & Sh).
  pose proof (i_open_inv _ _ _ _ _ _ H) as ((r & R) & Bp & _ & _ & _ & _ & _ & _ & I & Z & F & Ck).
  apply open_parts in H as (L & Fl & Ee & f3 & f4 & f5 & X1 & X2 & X3). rewrite Sp in *.
  fold (first_pos (i_bh s) f3) in X2.
  assert (P3 : fpos f3 = pre).
  { unfold pre. unfold read_ext_text_headers in X1. destruct (Z.eqb_spec (bh_ext_text_headers_num (i_bh s)) 0) as [Q|Q].
    { injection X1 as T <-. rewrite <- T. reflexivity. }
    destruct (Z.eqb_spec (bh_ext_text_headers_num (i_bh s)) (-1)).
    { apply until_inv in X1 as (bs & b & -> & -> & _); [|cbn [fpos]; lia]. cbn [fpos app]. rewrite len_cons, len_app.
      change (len [b]) with 1. lia. }
    destruct (Z.lt_ge_cases (bh_ext_text_headers_num (i_bh s)) 0) as [Q1|Q1]; [exfalso; exact (blocks_neg _ _ _ _ _ Q1 X1)|].
    apply blocks_inv in X1 as (bs & -> & Lb & -> & _); [|cbn [fpos]; lia|exact Q1]. cbn [fpos app]. rewrite len_cons. lia. }
  assert (D3 : fdata f3 = content) by (apply ext_data in X1; exact X1).
  pose proof (first_pos_inv _ _ _ _ X2 ltac:(pose proof (ext_pos _ _ _ _ _ X1 ltac:(cbn [fpos]; lia)); lia)) as (D4 & P4 & Fi).
  destruct (Z.lt_ge_cases k 3600) as [K0|K0].
  { split; [|intros _; apply open_short; [exact Ck|rewrite len_firstn by exact Hk; exact K0]].
    intros K. exfalso. assert (0 <= len (i_text s) - 1); [|lia].
    unfold read_ext_text_headers in X1. destruct (Z.eqb_spec (bh_ext_text_headers_num (i_bh s)) 0) as [Q|Q].
    { injection X1 as T <-. rewrite <- T. reflexivity. }
    destruct (Z.eqb_spec (bh_ext_text_headers_num (i_bh s)) (-1)).
    { apply until_inv in X1 as (bs & b & -> & _); [|cbn [fpos]; lia]. cbn [app]. rewrite len_cons, len_app.
      pose proof (len_nonneg bs). pose proof (len_nonneg [b]). lia. }
    destruct (Z.lt_ge_cases (bh_ext_text_headers_num (i_bh s)) 0) as [Q1|Q1]; [exfalso; exact (blocks_neg _ _ _ _ _ Q1 X1)|].
    apply blocks_inv in X1 as (bs & -> & Lb & _); [|cbn [fpos]; lia|exact Q1]. cbn [app]. rewrite len_cons. lia. }
  set (c' := firstn (Z.to_nat k) content).
  assert (Lc' : len c' = k) by (apply len_firstn, Hk).
  assert (M : marker c' = marker content) by (unfold marker, c'; rewrite slice_firstn by lia; reflexivity).
  assert (S0 : slice 0 3200 c' = slice 0 3200 content) by (unfold c'; apply slice_firstn; lia).
  assert (SB : slice 3200 400 c' = slice 3200 400 content) by (unfold c'; apply slice_firstn; lia).
  destruct (ext_trunc k _ _ _ _ _ X1 ltac:(cbn [fpos]; lia) ltac:(cbn [fdata]; lia)) as [T1 T2].
  change (trunc k (mkFile content 3600)) with (mkFile c' 3600) in T1, T2. rewrite <- S0 in T1, T2.
  assert (Fl' : if ov then i_bh s = set_endianness b0 (marker c')
     else exists c, fill_bin_header (i_endian s) (set_endianness b0 (marker c')) (slice 3200 400 c') = Ok (i_bh s, c)).
  { rewrite M, SB. exact Fl. }
  assert (Tr : read_trailer_stanzas (i_endian s) (i_bh s) (i_bps s) (declared (i_bh s)) f4
               = Ok (len content, [], mkFile content (len content)) /\
               read_trailer_stanzas (i_endian s) (i_bh s) (i_bps s) (declared (i_bh s)) (trunc k f4)
               = Ok (k, [], mkFile c' k)).
  { unfold read_trailer_stanzas. rewrite N. cbv zeta. change (0 =? -1) with false. cbv iota.
    change (sarith 32 (0 * TEXT_HEADER_SIZE)) with (Ok 0). cbn [bind]. unfold fseek_end, fseek.
    cbn [trunc fdata]. rewrite D4, D3. fold c'. rewrite Lc', !Z.add_0_r.
    replace ((0 <=? len content) && (len content <? 2 ^ 63)) with true by lia.
    replace ((0 <=? k) && (k <? 2 ^ 63)) with true by lia. cbn [bind]. unfold file_fuel. cbn [read_blocks fdata fpos].
    change (0 =? 0) with true. cbv iota. cbn [bind]. split; reflexivity. }
  destruct Tr as [Tr Tr']. assert (Eo : i_stanzas s = []) by congruence.
  split; intros K.
  - rewrite (open_intro p c' maps ov b0 (i_endian s) (i_bh s) (i_bps s) r (i_text s) (trunc k f3) (i_first s) (trunc k f4) k [] (mkFile c' k)).
    + f_equal. rewrite Sh. unfold cut. cbn [i_file i_bh i_maps i_text i_stanzas i_endian i_bps i_spt i_bufsz i_first i_cur i_eod fdata fpos].
      rewrite Eo. reflexivity.
    + exact Ck.
    + lia.
    + rewrite M. exact Ee.
    + exact Fl'.
    + exact R.
    + exact Bp.
    + apply T1. lia.
    + unfold first_pos in *. destruct (_ =? 0); [injection X2 as X2a X2b; subst f4; cbn [trunc fpos]; rewrite X2a; reflexivity|].
      apply bind_ok in X2 as (g & E & X2). injection X2 as X2a ->. unfold fseek in *. destruct (_ && _); [|discriminate].
      injection E as <-. cbn [bind]. rewrite X2a. reflexivity.
    + exact Tr'.
    + exact F.
    + exact I.
    + rewrite <- Z. apply Al.
  - unfold i_open. rewrite Ck. cbn [bind]. unfold open_in, TEXT_HEADER_SIZE, BIN_HEADER_SIZE.
    rewrite fread_at by lia. cbn [bind]. change (0 + 3200) with 3200. rewrite fread_at by lia. cbn [bind]. cbv zeta.
    rewrite slice_slice by lia. change (3200 + 96) with 3296. change (3200 + 400) with 3600. fold (marker c').
    rewrite bh_endianness_set, M, Ee. cbn [bind]. rewrite M in Fl'.
    replace (if ov then Ok (set_endianness b0 (marker content))
           else let* (b2, _) := fill_bin_header (i_endian s) (set_endianness b0 (marker content)) (slice 3200 400 c') in Ok b2)
    with (Ok (i_bh s) : outcome bin_hdr).
    2:{ destruct ov; [rewrite Fl'; reflexivity|]. destruct Fl' as (c & ->). reflexivity. }
    cbn [bind]. rewrite R. cbn [bind]. rewrite Bp, T2 by lia. reflexivity.
Qed.

(** ** Trailer stanzas of unknown number (C26) *)
Lemma skipvar_ok e bps : 1 <= bps <= 8 -> forall recs fuel f a c, Forall (own_record e bps) recs ->
  fdata f = a ++ concat recs ++ c -> fpos f = len a -> (List.length recs <= fuel)%nat -> len (fdata f) < 2 ^ 63 ->
  skip_var_traces fuel e 0 bps (len recs) f = Ok (mkFile (fdata f) (len a + len (concat recs))).
Proof.
  intros Hb. induction recs as [|r recs IH]; intros fuel f a c FA Hd Hp Hf Hl.
  - destruct fuel; cbn [skip_var_traces len List.length]; change (Z.of_nat 0 =? 0) with true; cbv iota;
      cbn [concat]; change (len []) with 0; rewrite Z.add_0_r, <- Hp; destruct f; reflexivity.
  - inversion FA as [|? ? (hb & smp & n & -> & L1 & Sl & Hn & L2) F2]; subst. destruct fuel as [|fuel]; [cbn in Hf; lia|].
    cbn [skip_var_traces]. rewrite len_cons. pose proof (len_nonneg recs).
    destruct (Z.eqb_spec (1 + len recs) 0); [lia|]. change TR_HEADER_SIZE with 240. rewrite <- L1 at 1.
    cbn [concat] in Hd.
    rewrite (fread_app a hb (smp ++ concat recs ++ c)); [|rewrite Hd, <- !app_assoc; reflexivity|exact Hp].
    cbn [bind]. rewrite at_off_240 by lia. cbn [bind].
    rewrite (skipn_slice 114 2) by lia. rewrite Sl, rd_i_wr. cbn [bind]. cbv zeta.
    change (0 =? 0) with true. cbv iota. cbn [bind].
    change (8 * Z.of_nat 2) with 16. rewrite wraps_id by (try lia; unfold in_i; change (16 - 1) with 15; lia).
    rewrite (wrapu_small 32 n) by lia. rewrite (wrapu_small 32 (n * bps)) by nia.
    assert (T : len (fdata f) = len a + (len hb + len smp + len (concat recs)) + len c).
    { rewrite Hd, !len_app. lia. }
    pose proof (len_nonneg a). pose proof (len_nonneg c). pose proof (len_nonneg (concat recs)).
    unfold fseek_cur, fseek. cbn [fpos fdata]. replace (_ && _) with true by lia. cbn [bind].
    replace (1 + len recs - 1) with (len recs) by lia.
    rewrite (IH fuel _ (a ++ hb ++ smp) c); cbn [fdata fpos].
    + cbn [concat]. rewrite !len_app. do 2 f_equal. lia.
    + exact F2.
    + rewrite Hd, <- !app_assoc. reflexivity.
    + rewrite !len_app. lia.
    + cbn in Hf. lia.
    + exact Hl.
Qed.

Lemma until_fwd last : len last = 3200 -> is_end last -> forall sts fuel f a c acc,
  Forall (fun t => len t = 3200 /\ ~ is_end t) sts ->
  fdata f = a ++ concat sts ++ last ++ c -> fpos f = len a -> (List.length sts < fuel)%nat ->
  read_until_end fuel f acc = Ok (acc ++ sts ++ [last], mkFile (fdata f) (len a + 3200 * (len sts + 1))).
Proof.
  intros Ll El. induction sts as [|x sts IH]; intros fuel f a c acc FA Hd Hp Hf; (destruct fuel as [|fuel]; [cbn in Hf; lia|]);
    cbn [read_until_end]; change TEXT_HEADER_SIZE with 3200.
  - rewrite <- Ll. cbn [concat app] in Hd. rewrite (fread_app a last c) by assumption. cbn [bind].
    apply is_end_spec in El. rewrite El. cbn [app]. do 3 f_equal. rewrite Ll. change (len []) with 0. lia.
  - inversion FA as [|? ? [F1 F1'] F2]; subst. cbn [concat] in Hd. rewrite <- F1.
    rewrite (fread_app a x (concat sts ++ last ++ c)) by (rewrite ?Hd, <- ?app_assoc; auto). cbn [bind].
    destruct (starts_with end_text x) eqn:T; [apply is_end_spec in T; contradiction|].
    rewrite (IH fuel _ (a ++ x) c); cbn [fdata fpos].
    + rewrite <- app_assoc, len_app, len_cons. cbn [app]. do 3 f_equal. lia.
    + exact F2.
    + rewrite Hd, <- !app_assoc. reflexivity.
    + rewrite len_app. reflexivity.
    + cbn in Hf. lia.
Qed.

Lemma own_len e bps recs : Forall (own_record e bps) recs -> 1 <= bps -> len recs <= len (concat recs).
Proof.
  intros F Hb. induction F as [|r recs (hb & smp & n & -> & L1 & _) _ IH]; cbn [concat]; [reflexivity|].
  rewrite !len_app, len_cons. pose proof (len_nonneg smp). lia.
Qed.

Lemma open_stanzas p maps txt blk exts recs sts last e b bps :
  check_tr_hdr_map bin_zero maps = Ok tt -> len txt = 3200 -> len blk = 400 -> says blk e b ->
  In (bh_format_code b) supported -> bytes_per_sample (bh_format_code b) = Some bps ->
  bh_ext_text_headers_num b = len exts -> Forall (fun t => len t = 3200) exts ->
  bh_byte_off_of_first_tr b = 0 -> bh_num_of_trailer_stanza b = -1 -> bh_fixed_tr_length b = 0 ->
  bh_max_num_add_tr_headers b = 0 -> bh_num_of_tr_in_file b = len recs -> recs <> [] ->
  Forall (own_record e bps) recs ->
  Forall (fun t => len t = 3200 /\ ~ is_end t) sts -> len last = 3200 -> is_end last ->
  0 <= sample_count b * bps -> sample_count b * bps < 2 ^ 31 -> sample_count b * bps <= p_max_alloc p ->
  let content := txt ++ blk ++ concat exts ++ concat recs ++ concat sts ++ last in
  len content < 2 ^ 63 ->
  exists s, isegy_open p content maps = Ok s /\ i_text s = txt :: exts /\ i_stanzas s = sts ++ [last] /\
    i_first s = 3600 + 3200 * len exts /\ i_eod s = i_first s + len (concat recs).
Proof.
  intros Ck Lt Lb [Se (c0 & Sf)] Sup Bp En FX Of Ns Fi Ma Nt Nr FR FS Ll El D0 D1 D2 content Lc.
  destruct (supported_ok p e _ Sup) as [Or _]. destruct (sample_reader p e (bh_format_code b)) as [rd| |] eqn:Er; try discriminate.
  pose proof (bps_range _ _ _ _ _ Er Bp) as B8.
  assert (SB : slice 3200 400 content = blk).
  { rewrite <- Lt, <- Lb. unfold content. apply slice_mid. }
  assert (S0 : slice 0 3200 content = txt).
  { rewrite <- Lt. apply (slice_mid [] txt). }
  assert (M : marker content = wraps 32 (le_dec (slice 96 4 blk))).
  { unfold marker. rewrite <- SB, slice_slice by lia. reflexivity. }
  assert (Lx : len (concat exts) = 3200 * len exts) by apply concat_len_3200, FX.
  assert (Ls : len (concat sts) = 3200 * len sts).
  { apply concat_len_3200. eapply Forall_impl; [|exact FS]. intros x K. apply K. }
  assert (LC : len content = 3600 + 3200 * len exts + len (concat recs) + 3200 * len sts + 3200).
  { unfold content. rewrite !len_app. lia. }
  pose proof (len_nonneg exts). pose proof (len_nonneg sts). pose proof (len_nonneg (concat recs)).
  pose proof (own_len _ _ _ FR ltac:(lia)) as Lr.
  assert (Ln : len exts < 2 ^ 31).
  { pose proof (fill_ext_range _ _ _ _ _ Sf). lia. }
  set (first := 3600 + 3200 * len exts).
  assert (X1 : read_ext_text_headers (bh_ext_text_headers_num b) (mkFile content 3600) [slice 0 3200 content]
               = Ok (txt :: exts, mkFile content first)).
  { rewrite En, S0. rewrite (read_ext_ok exts (mkFile content 3600) (txt ++ blk) (concat recs ++ concat sts ++ last)).
    - cbn [fdata app]. do 3 f_equal. rewrite len_app, Lt, Lb, Lx. reflexivity.
    - exact FX.
    - cbn [fdata]. unfold content. rewrite <- !app_assoc. reflexivity.
    - cbn [fpos]. rewrite len_app, Lt, Lb. reflexivity.
    - exact Ln. }
  assert (X2 : first_pos b (mkFile content first) = Ok (first, mkFile content first)).
  { unfold first_pos. rewrite Of. reflexivity. }
  assert (X3 : exists f5, read_trailer_stanzas e b bps (declared b) (mkFile content first)
                 = Ok (first + len (concat recs), sts ++ [last], f5)).
  { unfold read_trailer_stanzas. rewrite Ns, Nt, Fi, Ma. cbv zeta. change (-1 =? -1) with true. cbv iota.
    destruct (Z.eqb_spec (len recs) 0) as [Q|Q]; [apply len_0 in Q; contradiction|].
    change (negb (0 =? 0)) with false. cbv iota.
    rewrite (skipvar_ok e bps B8 recs _ (mkFile content first) (txt ++ blk ++ concat exts) (concat sts ++ last)).
    - cbn [bind fdata].
      assert (Lp : len (txt ++ blk ++ concat exts) = first) by (rewrite !len_app, Lt, Lb, Lx; unfold first; lia).
      rewrite Lp.
      rewrite (until_fwd last Ll El sts _ _ (txt ++ blk ++ concat exts ++ concat recs) [] []).
      + cbn [bind fpos app]. eexists. reflexivity.
      + exact FS.
      + cbn [fdata]. unfold content. rewrite app_nil_r, <- !app_assoc. reflexivity.
      + cbn [fpos]. rewrite !len_app, Lt, Lb, Lx. unfold first. lia.
      + unfold file_fuel. cbn [fdata]. unfold len in *. lia.
    - exact FR.
    - cbn [fdata]. unfold content. rewrite <- !app_assoc. reflexivity.
    - cbn [fpos]. rewrite !len_app, Lt, Lb, Lx. unfold first. lia.
    - unfold file_fuel. cbn [fdata]. unfold len in *. lia.
    - exact Lc. }
  destruct X3 as (f5 & X3). change (sample_count b) with (declared b) in *.
  unfold isegy_open.
  rewrite (open_intro p content maps false bin_zero e b bps rd (txt :: exts) (mkFile content first) first
             (mkFile content first) (first + len (concat recs)) (sts ++ [last]) f5).
  - eexists. split; [reflexivity|]. repeat split.
  - exact Ck.
  - lia.
  - rewrite M. exact Se.
  - rewrite M, SB. exists c0. exact Sf.
  - exact Er.
  - exact Bp.
  - exact X1.
  - exact X2.
  - exact X3.
  - unfold first. lia.
  - unfold in_i. change (32 - 1) with 31. lia.
  - rewrite wrapu_small by lia. exact D2.
Qed.

(** A reader placed behind the end of a cut file. *)
Lemma behind_end p s k : 0 <= bh_max_num_add_tr_headers (i_bh s) < len (i_maps s) -> add_ok (i_bh s) ->
  i_cur s = fpos (i_file s) -> 0 <= k <= len (fdata (i_file s)) -> k < i_cur s ->
  collect p 1 (cut k s) = ([], Throw EIO).
Proof.
  intros Hm Ha C Hk Hc. cbn [collect]. unfold has_trace. cbn [cut i_cur i_eod].
  destruct (Z.eqb_spec (i_cur s) k); [lia|]. cbn [negb].
  replace (read_trace p (cut k s)) with (@Throw (trace * isegy) EIO); [reflexivity|]. symmetry.
  unfold read_trace, read_trc_header. cbn [cut i_bh i_maps i_file i_endian].
  rewrite sarith_ok by (unfold in_i, add_ok in *; change (32 - 1) with 31; lia). cbn [bind].
  destruct (i_maps s) as [|[nm l] ls] eqn:Em; [change (len []) with 0 in Hm; lia|].
  cbn [rd_headers]. replace (_ <=? 0) with false by lia.
  unfold fread. change (TR_HEADER_SIZE =? 0) with false. cbv iota. cbn [fpos fdata].
  replace (_ <=? _) with false; [reflexivity|].
  symmetry. apply Z.leb_gt. rewrite len_firstn by lia. change TR_HEADER_SIZE with 240. lia.
Qed.
