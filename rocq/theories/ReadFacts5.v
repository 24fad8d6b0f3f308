(** What is read behind the binary header does not depend on it (C27), and
    opening without undefined behaviour (C29). *)
From Verif Require Import BaseFacts Platform Fp TraceHdr SegyTypes SegyCodec CodecFacts SampleFacts
     HdrFacts ISegy OSegy OpenFacts CodecSpec LayoutSpec LayoutFacts BinFacts WriterFacts RoundSpec ReaderFacts
     ReadSpec ReadFacts ReadFacts2 ReadFacts3 ReadFacts4.

Section Same.
Variables (p : platform) (d d' : list Z).
Hypothesis Hl : len d' = len d.
Hypothesis Hs : skipn (Z.to_nat 3600) d' = skipn (Z.to_nat 3600) d.

Definition on (f : file) : file := mkFile d' (fpos f).

Lemma slice_on q n : 3600 <= q -> slice q n d' = slice q n d.
Proof.
  intros H. unfold slice. replace (Z.to_nat q) with (Z.to_nat 3600 + Z.to_nat (q - 3600))%nat by lia.
  rewrite <- !skipn_skipn', Hs. reflexivity.
Qed.

Lemma fread_on n f x f' : fread n f = Ok (x, f') -> 0 <= n -> 3600 <= fpos f -> fdata f = d ->
  fread n (on f) = Ok (x, on f') /\ fdata f' = d /\ 3600 <= fpos f'.
Proof.
  intros H Hn Hp D. unfold fread in *. cbn [on fdata fpos]. rewrite Hl. destruct (n =? 0).
  - injection H as <- <-. auto.
  - rewrite D in H. destruct (_ <=? _); [|discriminate]. injection H as <- <-. cbn [fdata fpos].
    rewrite slice_on by exact Hp. split; [reflexivity|]. split; [reflexivity|lia].
Qed.

Lemma fseek_on off f f' : fseek_cur off f = Ok f' -> fdata f = d -> fseek_cur off (on f) = Ok (on f') /\ fdata f' = d.
Proof.
  intros H D. unfold fseek_cur, fseek in *. cbn [on fdata fpos]. destruct (_ && _); [|discriminate]. injection H as <-. auto.
Qed.

Lemma until_on : forall fuel f acc r f', read_until_end fuel f acc = Ok (r, f') -> 3600 <= fpos f -> fdata f = d ->
  read_until_end fuel (on f) acc = Ok (r, on f').
Proof.
  induction fuel as [|m IH]; intros f acc r f' H Hp D; cbn [read_until_end] in *; [discriminate|].
  apply bind_ok in H as ([b f1] & E & H).
  destruct (fread_on _ _ _ _ E ltac:(unfold TEXT_HEADER_SIZE; lia) Hp D) as (T & D1 & P1). rewrite T. cbn [bind].
  destruct (starts_with end_text b); [injection H as <- <-; reflexivity|]. apply IH; assumption.
Qed.

Lemma blocks_on : forall fuel i f acc r f', read_blocks fuel i f acc = Ok (r, f') -> 3600 <= fpos f -> fdata f = d ->
  read_blocks fuel i (on f) acc = Ok (r, on f').
Proof.
  induction fuel as [|m IH]; intros i f acc r f' H Hp D; cbn [read_blocks] in *;
    (destruct (i =? 0); [injection H as <- <-; reflexivity|]); [discriminate|].
  apply bind_ok in H as ([b f1] & E & H).
  destruct (fread_on _ _ _ _ E ltac:(unfold TEXT_HEADER_SIZE; lia) Hp D) as (T & D1 & P1). rewrite T. cbn [bind].
  apply bind_ok in H as (i' & -> & H). cbn [bind]. apply IH; assumption.
Qed.

Lemma ext_on n f acc r f' : read_ext_text_headers n f acc = Ok (r, f') -> 3600 <= fpos f -> fdata f = d ->
  read_ext_text_headers n (on f) acc = Ok (r, on f').
Proof.
  intros H Hp D. unfold read_ext_text_headers in *.
  assert (Fu : file_fuel (on f) = file_fuel f).
  { unfold file_fuel. cbn [on fdata]. rewrite D. unfold len in Hl. f_equal. lia. }
  rewrite Fu. destruct (n =? 0); [injection H as <- <-; reflexivity|].
  destruct (n =? -1); [apply until_on|apply blocks_on]; assumption.
Qed.

Lemma rd_headers_on e : forall ls n f h h' f', rd_headers p e ls n f h = Ok (h', f') -> 3600 <= fpos f -> fdata f = d ->
  rd_headers p e ls n (on f) h = Ok (h', on f') /\ fdata f' = d /\ 3600 <= fpos f'.
Proof.
  induction ls as [|[nm l] ls IH]; intros n f h h' f' H Hp D; cbn [rd_headers] in *;
    (destruct (Z.leb_spec n 0); [injection H as <- <-; auto|]).
  - apply bind_ok in H as (f1 & E & H). injection H as <- <-. pose proof (fseek_cur_inv _ _ _ E) as (_ & P & _).
    destruct (fseek_on _ _ _ E D) as (-> & D1). cbn [bind]. split; [reflexivity|]. split; [exact D1|].
    change TR_HEADER_SIZE with 240 in P. lia.
  - apply bind_ok in H as ([b f1] & E & H). apply bind_ok in H as (h1 & E1 & H).
    destruct (fread_on _ _ _ _ E ltac:(unfold TR_HEADER_SIZE; lia) Hp D) as (T & D1 & P1). rewrite T. cbn [bind].
    rewrite E1. cbn [bind]. apply IH; assumption.
Qed.

(** The reader on the other file. *)
Definition son (s : isegy) : isegy :=
  mkI (on (i_file s)) (i_bh s) (i_maps s) (i_text s) (i_stanzas s) (i_endian s) (i_bps s)
      (i_spt s) (i_bufsz s) (i_first s) (i_cur s) (i_eod s).

Lemma smpls_on s sz f smp f' : read_smpls p s sz f = Ok (smp, f') -> 0 <= sz -> 3600 <= fpos f -> fdata f = d ->
  read_smpls p (son s) sz (on f) = Ok (smp, on f') /\ fdata f' = d /\ 3600 <= fpos f'.
Proof.
  intros H Hz Hp D. unfold read_smpls in *. apply bind_ok in H as ([x f1] & E & H).
  destruct (fread_on _ _ _ _ E Hz Hp D) as (T & D1 & P1).
  apply bind_ok in H as (r & Er & H). apply bind_ok in H as ([sm c] & Ep & H). injection H as <- <-.
  rewrite T. cbn [bind son i_endian i_bh i_bps]. rewrite Er. cbn [bind]. rewrite Ep. auto.
Qed.

Lemma read_trace_on s t s1 : p_max_alloc p < 2 ^ 63 -> r_inv p s -> read_trace p s = Ok (t, s1) ->
  3600 <= i_cur s -> fdata (i_file s) = d ->
  read_trace p (son s) = Ok (t, son s1) /\ 3600 <= i_cur s1 /\ fdata (i_file s1) = d.
Proof.
  intros A I H Hc D. pose proof I as (P & C & L & R & Bp & I32 & Bf & Fx). unfold read_trace in *.
  apply bind_ok in H as ([h f1] & E & H).
  assert (T : read_trc_header p (son s) = Ok (h, on f1) /\ fdata f1 = d /\ 3600 <= fpos f1).
  { unfold read_trc_header in *. cbn [son i_bh i_endian i_maps i_file]. apply bind_ok in E as (n & -> & E).
    cbn [bind]. apply rd_headers_on with (1 := E); [lia|exact D]. }
  destruct T as (-> & D1 & P1). cbn [son i_bh i_bufsz i_bps bind].
  destruct (is_fixed (i_bh s)) eqn:FX.
  - apply bind_ok in H as ([smp f2] & E2 & H). injection H as <- <-.
    destruct (smpls_on _ _ _ _ _ E2 ltac:(lia) P1 D1) as (-> & D2 & P2). cbn [bind]. split; [reflexivity|].
    cbn [i_set i_cur i_file]. auto.
  - destruct (hidx h "SAMP_NUM") as [v h'] eqn:Ev. apply bind_ok in H as (n & -> & H). cbv zeta in *. cbn [bind].
    apply bind_ok in H as (sz & Es & H). apply bind_ok in H as ([smp f2] & E2 & H). injection H as <- <-.
    assert (Hz : 0 <= sz).
    { pose proof (wrapu_bound 64 (wrapu 64 n * i_bps s) ltac:(lia)) as W. rewrite (buf_want p (i_bufsz s) _ A Bf W) in Es.
      destruct (_ <=? _); [|discriminate]. injection Es as <-. lia. }
    rewrite Es. cbn [bind]. destruct (smpls_on _ _ _ _ _ E2 Hz P1 D1) as (-> & D2 & P2). cbn [bind]. split; [reflexivity|].
    cbn [i_set i_cur i_file]. auto.
Qed.

Lemma read_all_on : p_max_alloc p < 2 ^ 63 -> forall fuel s ts s1, r_inv p s -> read_all p fuel s = Ok (ts, s1) ->
  3600 <= i_cur s -> fdata (i_file s) = d -> read_all p fuel (son s) = Ok (ts, son s1).
Proof.
  intros A. induction fuel as [|m IH]; intros s ts s1 I H Hc D; cbn [read_all] in *;
    change (has_trace (son s)) with (has_trace s); (destruct (has_trace s); [|injection H as <- <-; reflexivity]); [discriminate|].
  apply bind_ok in H as ([t s2] & E & H). apply bind_ok in H as ([l s3] & E2 & H). injection H as <- <-.
  pose proof (read_trace_inv _ _ _ _ A I E) as (I2 & _).
  destruct (read_trace_on _ _ _ A I E Hc D) as (-> & C2 & D2). cbn [bind].
  rewrite (IH _ _ _ I2 E2 C2 D2). reflexivity.
Qed.

Lemma open_bh_on maps bh s : slice 0 3200 d' = slice 0 3200 d -> slice 3296 4 d' = slice 3296 4 d ->
  bh_byte_off_of_first_tr bh = 0 -> bh_num_of_trailer_stanza bh = 0 ->
  isegy_open_bh p d bh maps = Ok s -> isegy_open_bh p d' bh maps = Ok (son s) /\ 3600 <= i_cur s /\ fdata (i_file s) = d.
Proof.
  intros S1 S2 Of Ns H. unfold isegy_open_bh in *. pose proof (open_alloc _ _ _ _ _ _ H) as Al.
  pose proof (open_shape _ _ _ _ _ _ H) as (Sp & Sh).
  pose proof (i_open_inv _ _ _ _ _ _ H) as ((r & R) & Bp & _ & _ & _ & _ & _ & _ & I & Z & F & Ck).
  apply open_parts in H as (L & Fl & Ee & f3 & f4 & f5 & X1 & X2 & X3).
  assert (Mk : marker d' = marker d) by (unfold marker; rewrite S2; reflexivity).
  assert (Of' : bh_byte_off_of_first_tr (i_bh s) = 0) by (rewrite Fl; destruct bh; exact Of).
  assert (Ns' : bh_num_of_trailer_stanza (i_bh s) = 0) by (rewrite Fl; destruct bh; exact Ns).
  rewrite Of' in X2. change (0 =? 0) with true in X2. cbv iota in X2. injection X2 as Y1 Y2. subst f4.
  pose proof (ext_on _ _ _ _ _ X1 ltac:(cbn [fpos]; lia) eq_refl) as X1'.
  pose proof (ext_data _ _ _ _ _ X1) as D3. cbn [fdata] in D3.
  assert (P3 : 3600 <= fpos f3).
  { unfold read_ext_text_headers in X1. destruct (Z.eqb_spec (bh_ext_text_headers_num (i_bh s)) 0).
    { injection X1 as _ <-. cbn [fpos]. lia. }
    destruct (Z.eqb_spec (bh_ext_text_headers_num (i_bh s)) (-1)).
    { apply until_inv in X1 as (bs & b & _ & -> & _); [|cbn [fpos]; lia]. cbn [fpos]. pose proof (len_nonneg bs). lia. }
    destruct (Z.lt_ge_cases (bh_ext_text_headers_num (i_bh s)) 0) as [Q|Q]; [exfalso; exact (blocks_neg _ _ _ _ _ Q X1)|].
    apply blocks_inv in X1 as (bs & _ & _ & -> & _); [|cbn [fpos]; lia|lia]. cbn [fpos]. lia. }
  split.
  2:{ rewrite Sh. cbn [i_cur i_file fdata]. split; [lia|reflexivity]. }
  unfold on in X1'. cbn [fpos] in X1'.
  assert (X3' : exists f6, read_trailer_stanzas (i_endian s) (i_bh s) (i_bps s) (declared (i_bh s)) (mkFile d' (fpos f3)) = Ok (i_eod s, i_stanzas s, f6)).
  { unfold read_trailer_stanzas in *. rewrite Ns' in *. cbv zeta in *. change (0 =? -1) with false in *. cbv iota in *.
    change (0 * TEXT_HEADER_SIZE) with 0 in *. rewrite sarith_ok in * by reflexivity. cbn [bind] in *.
    unfold fseek_end, fseek in *. cbn [fdata] in *. rewrite Hl. rewrite D3 in X3.
    destruct (_ && _); [|discriminate]. cbn [bind] in *. unfold file_fuel in *. cbn [read_blocks] in *.
    change (0 =? 0) with true in *. cbv iota in *. cbn [bind fpos] in *. injection X3 as <- <- <-. eexists. reflexivity. }
  destruct X3' as (f6 & X3').
  rewrite (open_intro p d' maps true bh (i_endian s) (i_bh s) (i_bps s) r (i_text s) (mkFile d' (fpos f3)) (i_first s)
             (mkFile d' (fpos f3)) (i_eod s) (i_stanzas s) f6).
  - f_equal. unfold son, on. rewrite Sh. reflexivity.
  - exact Ck.
  - lia.
  - rewrite Mk. exact Ee.
  - rewrite Mk. exact Fl.
  - exact R.
  - exact Bp.
  - rewrite S1. exact X1'.
  - unfold first_pos. rewrite Of'. cbn [fpos]. change (0 =? 0) with true. cbv iota. congruence.
  - exact X3'.
  - exact F.
  - rewrite <- Sp. exact I.
  - rewrite <- Sp, <- Z. apply Al.
Qed.
End Same.
