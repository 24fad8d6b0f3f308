(** Termination of the reading loops (C23). *)
From Verif Require Import BaseFacts Platform Fp TraceHdr SegyTypes SegyCodec CodecFacts SampleFacts
     HdrFacts ISegy OSegy OpenFacts CodecSpec LayoutSpec LayoutFacts BinFacts WriterFacts RoundSpec ReaderFacts
     ReadSpec ReadFacts.

Definition noloop {A} (x : outcome A) : Prop := x <> Throw ELoop.
Lemma noloop_bind {A B} (x : outcome A) (f : A -> outcome B) :
  noloop x -> (forall a, x = Ok a -> noloop (f a)) -> noloop (bind x f).
Proof.
  intros U H. destruct x; cbn; [apply H; reflexivity| |discriminate].
  intros K. injection K as ->. apply U. reflexivity.
Qed.

Lemma fread_noloop n f : noloop (fread n f).
Proof. unfold fread, noloop. destruct (_ =? _); [discriminate|]. destruct (_ <=? _); discriminate. Qed.
Lemma fseek_noloop q f : noloop (fseek q f).
Proof. unfold fseek, noloop. destruct (_ && _); discriminate. Qed.
Lemma sarith_noloop w v : noloop (sarith w v).
Proof. unfold sarith, noloop. destruct (in_i _ _); discriminate. Qed.
Lemma at_off_noloop b o : noloop (at_off b o).
Proof. unfold at_off, noloop. destruct (_ && _); discriminate. Qed.
Lemma resize_noloop p n : noloop (resize_to p n).
Proof. unfold resize_to, noloop. cbv zeta. destruct (_ <=? _); discriminate. Qed.
Lemma get_int_noloop v : noloop (get_int v).
Proof. destruct v; discriminate. Qed.

(** ** Opening *)
Lemma until_noloop : forall fuel f acc, 0 <= fpos f ->
  Z.max 0 (len (fdata f) - fpos f) + 1 <= Z.of_nat fuel -> noloop (read_until_end fuel f acc).
Proof.
  induction fuel as [|k IH]; intros f acc Hp Hf; [lia|]. cbn [read_until_end].
  destruct (fread TEXT_HEADER_SIZE f) as [[b f1]| |] eqn:E; cbn [bind].
  - change TEXT_HEADER_SIZE with 3200 in E. pose proof (fread_ok 3200 f b f1 ltac:(lia) E Hp) as (L & _ & D & P).
    unfold fread in E. change (3200 =? 0) with false in E. cbv iota in E.
    destruct (Z.leb_spec (fpos f + 3200) (len (fdata f))); [|discriminate].
    destruct (starts_with _ _); [discriminate|]. apply IH; [lia|]. rewrite D, P. lia.
  - intros K. injection K as ->. apply (fread_noloop _ _ E).
  - discriminate.
Qed.

Lemma blocks_noloop : forall fuel i f acc, 0 <= fpos f ->
  Z.max 0 (len (fdata f) - fpos f) + 1 <= Z.of_nat fuel -> noloop (read_blocks fuel i f acc).
Proof.
  induction fuel as [|k IH]; intros i f acc Hp Hf; [lia|]. cbn [read_blocks].
  destruct (i =? 0); [discriminate|].
  destruct (fread TEXT_HEADER_SIZE f) as [[b f1]| |] eqn:E; cbn [bind].
  - change TEXT_HEADER_SIZE with 3200 in E. pose proof (fread_ok 3200 f b f1 ltac:(lia) E Hp) as (L & _ & D & P).
    unfold fread in E. change (3200 =? 0) with false in E. cbv iota in E.
    destruct (Z.leb_spec (fpos f + 3200) (len (fdata f))); [|discriminate].
    apply noloop_bind; [apply sarith_noloop|]. intros i' _. apply IH; [lia|]. rewrite D, P. lia.
  - intros K. injection K as ->. apply (fread_noloop _ _ E).
  - discriminate.
Qed.

Lemma file_fuel_enough f : 0 <= fpos f -> Z.max 0 (len (fdata f) - fpos f) + 1 <= Z.of_nat (file_fuel f).
Proof. unfold file_fuel, len. lia. Qed.

Lemma ext_noloop n f acc : 0 <= fpos f -> noloop (read_ext_text_headers n f acc).
Proof.
  intros Hp. unfold read_ext_text_headers. destruct (_ =? 0); [discriminate|].
  destruct (_ =? -1); [apply until_noloop|apply blocks_noloop]; auto using file_fuel_enough.
Qed.

Lemma bytes_firstn n l : bytes l -> bytes (firstn n l).
Proof. intros H. unfold bytes in *. rewrite Forall_forall in *. intros x K. apply H. 
  rewrite <- (firstn_skipn n l). apply in_app_iff. left. exact K. Qed.
Lemma bytes_skipn n l : bytes l -> bytes (skipn n l).
Proof. intros H. unfold bytes in *. rewrite Forall_forall in *. intros x K. apply H.
  rewrite <- (firstn_skipn n l). apply in_app_iff. right. exact K. Qed.
Lemma bytes_slice o n l : bytes l -> bytes (slice o n l).
Proof. intros H. apply bytes_firstn, bytes_skipn, H. Qed.
Lemma fread_bytes n f d f' : bytes (fdata f) -> fread n f = Ok (d, f') -> bytes d.
Proof.
  intros B H. unfold fread in H. destruct (_ =? _); [injection H as <- <-; constructor|].
  destruct (_ <=? _); [|discriminate]. injection H as <- <-. apply bytes_slice, B.
Qed.
Lemma at_off_bytes b o c : bytes b -> at_off b o = Ok c -> bytes c.
Proof. unfold at_off. intros B H. destruct (_ && _); [|discriminate]. injection H as <-. apply bytes_skipn, B. Qed.

Lemma ptake_inv n c d c' : ptake n c = Ok (d, c') -> d = firstn n c /\ c' = skipn n c /\ (n <= List.length c)%nat.
Proof.
  unfold ptake. destruct (Nat.leb_spec n (List.length c)); [|discriminate].
  intros K; injection K as <- <-. auto.
Qed.
Lemma pbind_inv {A B} (r : P A) (g : A -> P B) c b c' : pbind r g c = Ok (b, c') ->
  exists a c1, r c = Ok (a, c1) /\ g a c1 = Ok (b, c').
Proof. unfold pbind. destruct (r c) as [[a c1]| |]; [|discriminate|discriminate]. eauto. Qed.
Lemma pread_inv n c v c' : bytes c -> pread n c = Ok (v, c') ->
  0 <= v < 256 ^ Z.of_nat n /\ bytes c'.
Proof.
  intros B H. unfold pread, pmap in H. apply pbind_inv in H as (d & c1 & E & H). injection H as <- <-.
  apply ptake_inv in E as (-> & -> & L). pose proof (le_dec_bound _ (bytes_firstn n c B)) as K.
  unfold len in K. rewrite firstn_length_le in K by exact L. split; [exact K|]. apply bytes_skipn, B.
Qed.
Lemma rd_u_inv e n c v c' : bytes c -> rd_u e n c = Ok (v, c') -> 0 <= v < 256 ^ Z.of_nat n /\ bytes c'.
Proof.
  intros B H. unfold rd_u in H. apply pbind_inv in H as (d & c1 & E & H). injection H as <- <-.
  apply pread_inv in E as (E & B1); [|exact B]. split; [|exact B1]. destruct e; [exact E|apply swapb_bound].
Qed.

Lemma rd_u_no {A} e n c (f : Z * list Z -> outcome A) : (forall x, rd_u e n c = Ok x -> noloop (f x)) ->
  noloop (bind (rd_u e n c) f).
Proof.
  intros H. apply noloop_bind; [|exact H]. unfold rd_u, pread, pmap, pbind, ptake, pret, noloop.
  destruct (Nat.leb _ _); discriminate.
Qed.
Lemma rd_i_no {A} e n c (f : Z * list Z -> outcome A) : (forall x, rd_i e n c = Ok x -> noloop (f x)) ->
  noloop (bind (rd_i e n c) f).
Proof.
  intros H. apply noloop_bind; [|exact H]. unfold rd_i, rd_u, pread, pmap, pbind, ptake, pret, noloop.
  destruct (Nat.leb _ _); discriminate.
Qed.

Lemma skipvar_noloop : forall fuel e ma bps n f, bytes (fdata f) -> 0 <= fpos f -> 
  Z.max 0 (len (fdata f) - fpos f) + 1 <= Z.of_nat fuel -> noloop (skip_var_traces fuel e ma bps n f).
Proof.
  induction fuel as [|k IH]; intros e ma bps n f B Hp Hf; [lia|]. cbn [skip_var_traces].
  destruct (n =? 0); [discriminate|].
  destruct (fread TR_HEADER_SIZE f) as [[b f1]| |] eqn:E; cbn [bind];
    [|intros K; injection K as ->; apply (fread_noloop _ _ E)|discriminate].
  pose proof (fread_bytes _ _ _ _ B E) as Bb. change TR_HEADER_SIZE with 240 in *.
  pose proof (fread_ok 240 f b f1 ltac:(lia) E Hp) as (L & _ & D & P).
  unfold fread in E. change (240 =? 0) with false in E. cbv iota in E.
  destruct (Z.leb_spec (fpos f + 240) (len (fdata f))); [|discriminate]. clear E.
  apply noloop_bind; [apply at_off_noloop|]. intros c _. apply rd_i_no. intros [s16 c'] _. cbv zeta.
  apply noloop_bind.
  - destruct (ma =? 0); [discriminate|]. apply noloop_bind; [apply fread_noloop|]. intros [h2 f2] _.
    apply noloop_bind; [apply at_off_noloop|]. intros ? _. apply rd_u_no. intros [? ?] _.
    apply noloop_bind; [apply at_off_noloop|]. intros ? _. apply rd_u_no. intros [? ?] _. cbv zeta.
    apply noloop_bind; [apply fseek_noloop|]. discriminate.
  - intros [ns f2] E2. assert (G : fdata f2 = fdata f /\ fpos f + 240 <= fpos f2).
    { destruct (ma =? 0); [injection E2 as _ <-; split; [congruence|lia]|].
      apply bind_ok in E2 as ([h2 g2] & F1 & E2). 
      pose proof (fread_bytes 240 f1 h2 g2 ltac:(rewrite D; exact B) F1) as Bh.
      apply fread_ok in F1 as (_ & _ & D2 & P2); [|lia|lia].
      apply bind_ok in E2 as (c2 & _ & E2). apply bind_ok in E2 as ([n2 c3] & _ & E2).
      apply bind_ok in E2 as (c4 & A4 & E2). apply bind_ok in E2 as ([a0 c5] & A5 & E2). cbv zeta in E2.
      apply at_off_bytes in A4; [|exact Bh]. apply rd_u_inv in A5 as (A5 & _); [|exact A4].
      apply bind_ok in E2 as (g3 & F2 & E2). apply fseek_cur_inv in F2 as (D3 & P3 & _).
      injection E2 as _ <-. split; [congruence|].
      pose proof (wrapu_bound 16 ma ltac:(lia)) as W.
      destruct (a0 =? 0); lia. }
    destruct G as (D2 & P2). apply noloop_bind; [apply fseek_noloop|]. intros f3 E3.
    apply fseek_cur_inv in E3 as (D3 & P3 & _). pose proof (wrapu_bound 32 (ns * bps) ltac:(lia)) as W.
    apply IH; [rewrite D3, D2; exact B|lia|]. rewrite D3, D2, P3. lia.
Qed.

Lemma trailer_noloop e b bps spt f : bytes (fdata f) -> 0 <= fpos f -> noloop (read_trailer_stanzas e b bps spt f).
Proof.
  intros B Hp. unfold read_trailer_stanzas. cbv zeta. destruct (_ =? -1).
  - destruct (_ =? 0); [discriminate|]. destruct (negb _).
    + apply noloop_bind; [apply sarith_noloop|]. intros pr _. apply noloop_bind; [apply fseek_noloop|].
      intros f1 E. apply fseek_cur_inv in E as (D & P & R).
      apply noloop_bind; [apply until_noloop; [lia|apply file_fuel_enough; lia]|]. intros [? ?] _. discriminate.
    + apply noloop_bind; [apply skipvar_noloop; auto using file_fuel_enough|].
      intros f1 E. apply noloop_bind; [|intros [? ?] _; discriminate].
      assert (G : 0 <= fpos f1).
      { clear - E Hp. revert E. generalize (file_fuel f) as fuel. intros fuel. 
        generalize (bh_num_of_tr_in_file b) as n. revert f Hp.
        induction fuel as [|k IH]; intros f Hp n E; cbn [skip_var_traces] in E;
          (destruct (n =? 0); [injection E as <-; exact Hp|]); [discriminate|].
        apply bind_ok in E as ([h g] & _ & E). apply bind_ok in E as (c & _ & E).
        apply bind_ok in E as ([s c'] & _ & E). cbv zeta in E. apply bind_ok in E as ([ns f2] & _ & E).
        apply bind_ok in E as (f3 & E3 & E). apply fseek_cur_inv in E3 as (_ & P3 & R3).
        eapply IH; [|exact E]. lia. }
      apply until_noloop; [exact G|apply file_fuel_enough, G].
  - apply noloop_bind; [apply sarith_noloop|]. intros off _. apply noloop_bind; [apply fseek_noloop|].
    intros f1 E. apply fseek_end_inv in E as (D & P & R).
    apply noloop_bind; [apply blocks_noloop; [lia|apply file_fuel_enough; lia]|]. intros [? ?] _. discriminate.
Qed.

Lemma until_pos : forall fuel f acc r f', read_until_end fuel f acc = Ok (r, f') -> 0 <= fpos f -> 0 <= fpos f'.
Proof.
  induction fuel as [|k IH]; intros f acc r f' H Hp; cbn [read_until_end] in H; [discriminate|].
  apply bind_ok in H as ([b f1] & E & H). apply fread_ok in E as (_ & _ & _ & P); [|unfold TEXT_HEADER_SIZE; lia|exact Hp].
  change TEXT_HEADER_SIZE with 3200 in P.
  destruct (starts_with _ _); [injection H as <- <-; lia|]. eapply IH; [exact H|lia].
Qed.
Lemma blocks_pos : forall fuel i f acc r f', read_blocks fuel i f acc = Ok (r, f') -> 0 <= fpos f -> 0 <= fpos f'.
Proof.
  induction fuel as [|k IH]; intros i f acc r f' H Hp; cbn [read_blocks] in H;
    (destruct (i =? 0); [injection H as <- <-; exact Hp|]); [discriminate|].
  apply bind_ok in H as ([b f1] & E & H). apply fread_ok in E as (_ & _ & _ & P); [|unfold TEXT_HEADER_SIZE; lia|exact Hp].
  change TEXT_HEADER_SIZE with 3200 in P. apply bind_ok in H as (i' & _ & H). eapply IH; [exact H|lia].
Qed.
Lemma ext_pos n f acc r f' : read_ext_text_headers n f acc = Ok (r, f') -> 0 <= fpos f -> 0 <= fpos f'.
Proof.
  unfold read_ext_text_headers. destruct (_ =? 0); [intros H; injection H as <- <-; auto|].
  destruct (_ =? -1); [apply until_pos|apply blocks_pos].
Qed.

Lemma fill_noloop e b c : noloop (fill_bin_header e b c).
Proof.
  unfold fill_bin_header.
  assert (B : forall A B (r : P A) (g : A -> P B) c, noloop (r c) -> (forall a c', noloop (g a c')) -> noloop (pbind r g c)).
  { intros A B r g c0 H1 H2. unfold pbind. destruct (r c0) as [[a c1]| |]; [apply H2| |discriminate].
    intros K. injection K as ->. apply H1. reflexivity. }
  assert (U : forall n c, noloop (rd_u e n c)).
  { intros n c0. unfold rd_u, pread, pmap, pbind, ptake, pret, noloop. destruct (Nat.leb _ _); discriminate. }
  assert (I : forall n c, noloop (rd_i e n c)).
  { intros n c0. unfold rd_i, rd_u, pread, pmap, pbind, ptake, pret, noloop. destruct (Nat.leb _ _); discriminate. }
  assert (IU : forall n c, noloop (pmap (wrapu 64) (rd_i e n) c)).
  { intros n c0. unfold pmap. apply B; [apply I|]. discriminate. }
  assert (S : forall n c, noloop (pskip n c)).
  { intros n c0. unfold pskip, noloop. destruct (Nat.leb _ _); discriminate. }
  do 39 (apply B; [first [apply I|apply U|apply S]|intros]).
  destruct (1 <? _); [|discriminate].
  do 5 (apply B; [first [apply I|apply U|apply S|apply IU]|intros]). discriminate.
Qed.

Lemma check_noloop b ls : noloop (check_tr_hdr_map b ls).
Proof.
  assert (R : forall l pr ps, noloop (check_rest pr ps l)).
  { induction l as [|en l IH]; intros pr ps; cbn; [discriminate|].
    destruct (_ <? _); [discriminate|]. destruct (_ <? _); [discriminate|]. apply IH. }
  unfold check_tr_hdr_map.
  assert (L : forall nl, noloop (check_layout nl)).
  { intros [n l]. unfold check_layout. destruct (negb _); [discriminate|]. cbn [snd].
    destruct l; [discriminate|apply R]. }
  assert (M : forall ls, noloop (mapM check_layout ls)).
  { induction ls0 as [|a l IH]; cbn; [discriminate|]. apply noloop_bind; [apply L|]. intros ? _.
    apply noloop_bind; [apply IH|]. discriminate. }
  destruct (_ && _); [discriminate|]. apply noloop_bind; [apply M|]. discriminate.
Qed.

Lemma open_noloop p content maps ov b0 : bytes content -> noloop (i_open p content maps ov b0).
Proof.
  intros B. unfold i_open. apply noloop_bind; [apply check_noloop|]. intros _ _.
  apply noloop_bind; [apply fread_noloop|]. intros [t f1] E1.
  apply noloop_bind; [apply fread_noloop|]. intros [bin f2] E2. cbv zeta.
  apply fread_ok in E1 as (_ & _ & D1 & P1); [|unfold TEXT_HEADER_SIZE; lia|cbn; lia].
  change TEXT_HEADER_SIZE with 3200 in P1. cbn [open_in fpos fdata] in P1, D1.
  apply fread_ok in E2 as (_ & _ & D2 & P2); [|unfold BIN_HEADER_SIZE; lia|lia].
  change BIN_HEADER_SIZE with 400 in P2.
  apply noloop_bind; [unfold endian_of, noloop; repeat (destruct (_ =? _); try discriminate)|]. intros e _.
  apply noloop_bind.
  { destruct ov; [discriminate|]. apply noloop_bind; [apply fill_noloop|]. intros [? ?] _. discriminate. }
  intros b _. apply noloop_bind.
  { destruct (fmt_cases (bh_format_code b)) as [S|[R _]]; [|rewrite R; discriminate].
    destruct (supported_ok p e _ S) as [O _]. destruct (sample_reader _ _ _); [discriminate|discriminate O|discriminate O]. }
  intros r _. destruct (bytes_per_sample _) as [bps|]; [|discriminate].
  apply noloop_bind; [apply ext_noloop; lia|]. intros [texts f3] E3.
  pose proof (ext_pos _ _ _ _ _ E3 ltac:(lia)) as P3. apply ext_data in E3.
  apply noloop_bind.
  { destruct (_ =? 0); [discriminate|]. apply noloop_bind; [apply fseek_noloop|]. discriminate. }
  intros [first f4] E4. assert (G : fdata f4 = content /\ 0 <= fpos f4).
  { destruct (_ =? 0) in E4; [injection E4 as <- <-; split; [congruence|exact P3]|].
    apply bind_ok in E4 as (g & Eg & E4). injection E4 as <- <-. apply fseek_inv in Eg as (D4 & P4 & R4).
    split; [congruence|lia]. }
  destruct G as (D4 & P4).
  apply noloop_bind; [apply trailer_noloop; [rewrite D4; exact B|exact P4]|]. intros [[eod st] f5] _.
  apply noloop_bind; [apply fseek_noloop|]. intros f6 _. apply noloop_bind; [apply sarith_noloop|]. intros n _.
  apply noloop_bind; [apply resize_noloop|]. discriminate.
Qed.

(** ** Reading *)
Lemma rd_headers_noloop p e : forall ls n f h, safe_layouts ls -> 0 <= fpos f -> noloop (rd_headers p e ls n f h).
Proof.
  induction ls as [|[nm l] ls IH]; intros n f h S Hp; cbn [rd_headers]; (destruct (n <=? 0); [discriminate|]).
  - apply noloop_bind; [apply fseek_noloop|]. discriminate.
  - apply noloop_bind; [apply fread_noloop|]. intros [b f1] E. change TR_HEADER_SIZE with 240 in E.
    apply fread_ok in E as (L & _ & _ & P); [|lia|exact Hp].
    destruct (rd_fields_ok p e b l L (proj1 (S nm l (or_introl eq_refl))) h) as (h' & Eh & _).
    rewrite Eh. cbn [bind]. apply IH; [intros a b0 K; apply (S a b0); right; exact K|lia].
Qed.
Lemma smpls_noloop p s sz f : r_inv p s -> 0 <= sz -> 0 <= fpos f -> noloop (read_smpls p s sz f).
Proof.
  intros (P & C & L & (r & R) & Bp & _) Hs Hp. unfold read_smpls.
  apply noloop_bind; [apply fread_noloop|]. intros [b f1] E. apply fread_ok in E as (Lb & _); [|exact Hs|exact Hp].
  rewrite R. cbn [bind]. pose proof (bps_range _ _ _ _ _ R Bp) as B.
  assert (Bn : bytes_per_sample (bh_format_code (i_bh s)) = Some (Z.of_nat (Z.to_nat (i_bps s)))) by (rewrite Z2Nat.id by lia; exact Bp).
  destruct (prep_ok r _ (sample_reader_prefix _ _ _ _ _ R Bn) (Z.to_nat (sz / i_bps s)) b) as (v & c & K & _).
  { unfold len in Lb. pose proof (Z.mul_div_le sz (i_bps s) ltac:(lia)).
    pose proof (Z.div_pos sz (i_bps s) Hs ltac:(lia)).
    rewrite <- Z2Nat.inj_mul by lia. lia. }
  rewrite K. discriminate.
Qed.
Lemma trc_header_noloop p s : r_inv p s -> safe_layouts (i_maps s) -> noloop (read_trc_header p s).
Proof.
  intros (P & C & _) S. unfold read_trc_header. apply noloop_bind; [apply sarith_noloop|]. intros n _.
  apply rd_headers_noloop; [exact S|lia].
Qed.
Lemma read_trace_noloop p s : p_max_alloc p < 2 ^ 63 -> r_inv p s -> safe_layouts (i_maps s) -> noloop (read_trace p s).
Proof.
  intros A I S. pose proof I as (P & C & L & R & Bp & I32 & Bf & Fx). unfold read_trace.
  apply noloop_bind; [apply trc_header_noloop; assumption|]. intros [h f1] E.
  pose proof (trc_header_inv _ _ _ _ I E) as (D1 & P1 & R1).
  destruct (is_fixed (i_bh s)).
  - apply noloop_bind; [apply smpls_noloop; [exact I|lia|lia]|]. intros [? ?] _. discriminate.
  - destruct (hidx h "SAMP_NUM") as [v h']. apply noloop_bind; [apply get_int_noloop|]. intros n _. cbv zeta.
    pose proof (wrapu_bound 64 (wrapu 64 n * i_bps s) ltac:(lia)) as W.
    rewrite (buf_want p (i_bufsz s) _ A Bf W). destruct (_ <=? _); [|discriminate]. cbn [bind].
    apply noloop_bind; [apply smpls_noloop; [exact I|lia|lia]|]. intros [? ?] _. discriminate.
Qed.
Lemma read_header_noloop p s : r_inv p s -> safe_layouts (i_maps s) -> noloop (read_header p s).
Proof.
  intros I S. pose proof I as (P & C & L & R & Bp & I32 & Bf & Fx). unfold read_header.
  apply noloop_bind; [apply trc_header_noloop; assumption|]. intros [h f1] E.
  destruct (is_fixed (i_bh s)).
  - rewrite sarith_ok by exact I32. cbn [bind]. apply noloop_bind; [apply fseek_noloop|]. discriminate.
  - destruct (hidx h "SAMP_NUM") as [v h']. apply noloop_bind; [apply get_int_noloop|]. intros n _. cbv zeta.
    apply noloop_bind; [apply fseek_noloop|]. discriminate.
Qed.

Lemma header_bytes_moves s : 0 <= header_bytes s /\ (0 <= bh_max_num_add_tr_headers (i_bh s) -> 240 <= header_bytes s).
Proof. unfold header_bytes. lia. Qed.

Lemma fixed_pos p s : r_inv p s -> is_fixed (i_bh s) = true -> 0 < i_spt s -> 0 < i_bufsz s.
Proof.
  intros (P & C & L & (r & R) & Bp & I32 & Bf & Fx) F S. rewrite Fx by exact F.
  pose proof (bps_range _ _ _ _ _ R Bp). nia.
Qed.

Lemma nonempty_same s s' : same_reader s s' -> nonempty_traces s -> nonempty_traces s'.
Proof. intros (S1 & _ & _ & _ & _ & _ & S7 & _). unfold nonempty_traces. rewrite S1, S7. auto. Qed.

Lemma read_all_ends p : p_max_alloc p < 2 ^ 63 -> forall m s, r_inv p s -> safe_layouts (i_maps s) -> add_ok (i_bh s) ->
  nonempty_traces s -> 2 ^ 63 - i_cur s <= Z.of_nat m -> ended (read_all p m s).
Proof.
  intros A. induction m as [|m IH]; intros s I S Ad NE M.
  - destruct I as (_ & C & _). lia.
  - cbn [read_all]. destruct (has_trace s) eqn:HT; [|exact HT].
    destruct (read_trace p s) as [[t s1]|e|] eqn:E; cbn [bind].
    + pose proof (read_trace_inv _ _ _ _ A I E) as (I1 & S1 & P1 & W1 & _).
      assert (K : ended (read_all p m s1)).
      { pose proof S1 as (S1a & S1b & _). apply IH; [exact I1|rewrite S1b; exact S|rewrite S1a; exact Ad| |].
        - eapply nonempty_same; [|exact NE]. exact S1.
        - assert (i_cur s < i_cur s1); [|lia]. pose proof (header_bytes_moves s) as [H1 H2].
          destruct NE as [Q|[Q1 Q2]].
          + specialize (H2 Q). destruct I1 as (_ & _ & _ & _ & _ & _ & B1 & _). lia.
          + assert (0 < i_bufsz s1); [|lia]. apply (fixed_pos p); [exact I1|rewrite S1a; exact Q1|].
            destruct S1 as (_ & _ & _ & _ & _ & _ & S7 & _). rewrite S7. exact Q2. }
      destruct (read_all p m s1) as [[ts s2]|e|]; exact K.
    + cbn. intros ->. exact (read_trace_noloop _ _ A I S E).
    + exact (read_trace_noub _ _ A I S Ad E).
Qed.

(** Sample counts that cannot be negative. *)
Definition cnt_ok (h : hdr) : Prop := forall v, hget h "SAMP_NUM" = Some v -> exists z, v = VInt z /\ 0 <= z < 2 ^ 32.

Lemma rd_unsigned p e t c v c' : In t [U8; U16; U24; U32] -> bytes c -> rd_field p e t c = Ok (v, c') ->
  exists z, v = VInt z /\ 0 <= z < 2 ^ 32.
Proof.
  intros H B R. cbn [In] in H. destruct H as [<-|[<-|[<-|[<-|[]]]]]; cbn [rd_field] in R; unfold pmap in R at 1;
    apply pbind_inv in R as (a & c1 & R & E); injection E as <- <-; exists a; split; try reflexivity.
  - apply rd_u_inv in R as (R & _); [|exact B]. cbn in R. lia.
  - apply rd_u_inv in R as (R & _); [|exact B]. cbn in R. lia.
  - unfold rd_u24 in R. apply pbind_inv in R as ([x y] & c2 & R & E).
    assert (E' : a = match e with Native => Z.lor x (Z.shiftl y 16) | Swapped => Z.lor (Z.shiftl (swapb 2 x) 8) y end)
      by (unfold pret in E; congruence).
    rewrite E'. clear E E'.
    assert (G : 0 <= x < 2 ^ 16 /\ 0 <= y < 2 ^ 8).
    { unfold rd_16_8 in R. destruct (p_left_first p).
      - apply pbind_inv in R as (u & c3 & R1 & R). apply pbind_inv in R as (w & c4 & R2 & R). injection R as <- <- <-.
        apply pread_inv in R1 as (R1 & B1); [|exact B]. apply pread_inv in R2 as (R2 & _); [|exact B1].
        cbn in R1, R2. lia.
      - apply pbind_inv in R as (u & c3 & R1 & R). apply pbind_inv in R as (w & c4 & R2 & R). injection R as <- <- <-.
        apply pread_inv in R1 as (R1 & B1); [|exact B]. apply pread_inv in R2 as (R2 & _); [|exact B1].
        cbn in R1, R2. lia. }
    destruct e; cbv iota.
    + rewrite Z.lor_comm. rewrite lor_shift by lia. lia.
    + pose proof (swapb_bound 2 x) as Sw. change (256 ^ Z.of_nat 2) with 65536 in Sw. rewrite lor_shift by lia. lia.
  - apply rd_u_inv in R as (R & _); [|exact B]. cbn in R. lia.
Qed.

Lemma rd_fields_cnt p e blk l : bytes blk ->
  (forall en, In en l -> e_name en = "SAMP_NUM"%string -> In (e_type en) [U8; U16; U24; U32]) ->
  forall h h', cnt_ok h -> rd_fields p e blk l h = Ok h' -> cnt_ok h'.
Proof.
  intros B. induction l as [|a l IH]; intros U h h' C H; cbn [rd_fields] in H; [injection H as <-; exact C|].
  apply bind_ok in H as (c & E1 & H). apply bind_ok in H as ([v c'] & E2 & H).
  apply IH in H; [exact H|intros en K; apply U; right; exact K|].
  intros w Hw. destruct (String.eqb_spec (e_name a) "SAMP_NUM") as [N|N].
  - rewrite N, hget_hset_same in Hw. injection Hw as <-.
    eapply rd_unsigned; [apply (U a (or_introl eq_refl) N)| |exact E2]. eapply at_off_bytes; eassumption.
  - rewrite hget_hset_other in Hw by congruence. apply C, Hw.
Qed.

Lemma rd_headers_cnt p e : forall ls n f h h' f', unsigned_count ls -> bytes (fdata f) -> cnt_ok h ->
  rd_headers p e ls n f h = Ok (h', f') -> cnt_ok h'.
Proof.
  induction ls as [|[nm l] ls IH]; intros n f h h' f' U B C H; cbn [rd_headers] in H;
    (destruct (n <=? 0); [injection H as <- <-; exact C|]).
  - apply bind_ok in H as (f1 & _ & H). injection H as <- <-. exact C.
  - apply bind_ok in H as ([b f1] & E & H). apply bind_ok in H as (h1 & E1 & H).
    pose proof (fread_bytes _ _ _ _ B E) as Bb. apply fread_data in E.
    eapply IH; [|rewrite E; exact B| |exact H].
    + intros a l0 en K. apply (U a l0 en). right. exact K.
    + eapply rd_fields_cnt; [exact Bb| |exact C|exact E1].
      intros en K. apply (U nm l en (or_introl eq_refl) K).
Qed.

Lemma header_var_moves p s h s' : r_inv p s -> is_fixed (i_bh s) = false -> bytes (fdata (i_file s)) ->
  unsigned_count (i_maps s) -> read_header p s = Ok (h, s') -> i_cur s + header_bytes s <= i_cur s'.
Proof.
  intros I FX B U H. pose proof I as (P & C & L & (r & R) & Bp & I32 & Bf & Fx). unfold read_header in H.
  apply bind_ok in H as ([h1 f1] & E & H). pose proof (trc_header_inv _ _ _ _ I E) as (D1 & P1 & R1).
  rewrite FX in H. assert (K : cnt_ok h1).
  { unfold read_trc_header in E. apply bind_ok in E as (n & _ & E).
    eapply rd_headers_cnt; [exact U|exact B| |exact E]. intros v X. discriminate. }
  unfold hidx in H. assert (G : exists z h', 0 <= z < 2 ^ 32 /\
     match hget h1 "SAMP_NUM" with Some v => (v, h1) | None => (VInt 0, hset h1 "SAMP_NUM" (VInt 0)) end = (VInt z, h')).
  { destruct (hget h1 "SAMP_NUM") as [v|] eqn:G.
    - destruct (K v G) as (z & -> & Z). exists z, h1. auto.
    - exists 0. eexists. split; [lia|reflexivity]. }
  destruct G as (z & h' & Z & G). rewrite G in H. cbn [get_int bind] in H.
  apply bind_ok in H as (f2 & E2 & H). injection H as <- <-. cbn [i_set i_cur].
  pose proof (bps_range _ _ _ _ _ R Bp). rewrite (wrapu_small 64) in E2 by lia.
  rewrite wraps_id in E2 by (try lia; unfold in_i; change (64 - 1) with 63; nia).
  apply fseek_cur_inv in E2 as (_ & P2 & _). nia.
Qed.

Lemma read_headers_end p : forall m s, r_inv p s -> safe_layouts (i_maps s) -> add_ok (i_bh s) ->
  bytes (fdata (i_file s)) -> nonempty_traces s -> is_fixed (i_bh s) = true \/ unsigned_count (i_maps s) ->
  2 ^ 63 - i_cur s <= Z.of_nat m -> ended (read_all_headers p m s).
Proof.
  induction m as [|m IH]; intros s I S Ad B NE U M.
  - destruct I as (_ & C & _). lia.
  - cbn [read_all_headers]. destruct (has_trace s) eqn:HT; [|exact HT].
    destruct (read_header p s) as [[t s1]|e|] eqn:E; cbn [bind].
    + pose proof (read_header_inv _ _ _ _ I E) as (I1 & S1 & B1 & W1 & P1).
      assert (K : ended (read_all_headers p m s1)).
      { pose proof S1 as (S1a & S1b & _ & _ & _ & _ & S7 & _ & _ & S10).
        apply IH; [exact I1|rewrite S1b; exact S|rewrite S1a; exact Ad|rewrite S10; exact B| |rewrite S1a, S1b; exact U|].
        - eapply nonempty_same; [|exact NE]. exact S1.
        - assert (i_cur s < i_cur s1); [|lia]. pose proof (header_bytes_moves s) as [H1 H2].
          destruct (is_fixed (i_bh s)) eqn:FX.
          + specialize (P1 eq_refl). pose proof I as (_ & _ & _ & _ & _ & _ & Bf & _).
            destruct NE as [Q|[Q1 Q2]]; [specialize (H2 Q); lia|].
            pose proof (fixed_pos _ _ I FX Q2). lia.
          + destruct U as [U|U]; [discriminate|]. destruct NE as [Q|[Q1 Q2]]; [|congruence].
            specialize (H2 Q). pose proof (header_var_moves _ _ _ _ I FX B U E). lia. }
      destruct (read_all_headers p m s1) as [[ts s2]|e|]; exact K.
    + cbn. intros ->. exact (read_header_noloop _ _ I S E).
    + exact (read_header_noub _ _ I S Ad E).
Qed.

(** A reader that a call leaves unchanged loops for ever. *)
Lemma stuck_trace p s t : has_trace s = true -> read_trace p s = Ok (t, s) -> forall fuel, read_all p fuel s = Throw ELoop.
Proof.
  intros HT H. induction fuel as [|k IH]; cbn [read_all]; rewrite HT; [reflexivity|].
  rewrite H. cbn [bind]. rewrite IH. reflexivity.
Qed.
Lemma stuck_header p s t : has_trace s = true -> read_header p s = Ok (t, s) ->
  forall fuel, read_all_headers p fuel s = Throw ELoop.
Proof.
  intros HT H. induction fuel as [|k IH]; cbn [read_all_headers]; rewrite HT; [reflexivity|].
  rewrite H. cbn [bind]. rewrite IH. reflexivity.
Qed.
