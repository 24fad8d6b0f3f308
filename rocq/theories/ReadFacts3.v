(** Opening arbitrary files: undefined behaviour, text headers, stanzas, the
    header override and truncation (C24-C27, C29). *)
From Verif Require Import BaseFacts Platform Fp TraceHdr SegyTypes SegyCodec CodecFacts SampleFacts
     HdrFacts ISegy OSegy OpenFacts CodecSpec LayoutSpec LayoutFacts BinFacts WriterFacts RoundSpec ReaderFacts
     ReadSpec ReadFacts ReadFacts2.

(** ** Opening is defined (C29) *)
Definition needs {A} (r : P A) (n : nat) : Prop := forall c, (n <= List.length c)%nat ->
  exists v c', r c = Ok (v, c') /\ List.length c' = (List.length c - n)%nat.
Lemma pbind_needs {A B} (r : P A) (g : A -> P B) n m : needs r n -> (forall a, needs (g a) m) -> needs (pbind r g) (n + m).
Proof.
  intros H1 H2 c Hc. destruct (H1 c) as (v & c1 & E1 & L1); [lia|]. rewrite (pbind_ok _ _ _ _ _ E1).
  destruct (H2 v c1) as (w & c2 & E2 & L2); [lia|]. exists w, c2. split; [exact E2|lia].
Qed.
Lemma rd_u_needs e n : needs (rd_u e n) n.
Proof. intros c H. destruct (rd_u_ok e n c H) as (v & E). exists v, (skipn n c). split; [exact E|apply skipn_length]. Qed.
Lemma rd_i_needs e n : needs (rd_i e n) n.
Proof. intros c H. destruct (rd_i_ok e n c H) as (v & E). exists v, (skipn n c). split; [exact E|apply skipn_length]. Qed.
Lemma pret_needs {A} (a : A) : needs (pret a) 0.
Proof. intros c _. exists a, c. split; [reflexivity|lia]. Qed.
Lemma pskip_needs n : needs (pskip n) n.
Proof. intros c H. unfold pskip. apply Nat.leb_le in H. rewrite H. exists tt, (skipn n c). split; [reflexivity|apply skipn_length]. Qed.
Lemma pmap_needs {A B} (g : A -> B) r n : needs r n -> needs (pmap g r) n.
Proof.
  intros H. replace n with (n + 0)%nat by lia. apply pbind_needs; [exact H|]. intros a. apply pret_needs.
Qed.

Definition ok_on {A} (r : P A) (n : nat) : Prop := forall c, (n <= List.length c)%nat -> exists v, r c = Ok v.
Lemma ok_on_bind {A B} (r : P A) (g : A -> P B) n m : needs r n -> (n <= m)%nat -> (forall a, ok_on (g a) (m - n)) ->
  ok_on (pbind r g) m.
Proof.
  intros H1 L H2 c Hc. destruct (H1 c) as (v & c1 & E1 & L1); [lia|]. rewrite (pbind_ok _ _ _ _ _ E1).
  apply H2. lia.
Qed.

Lemma fill_ok e b : ok_on (fill_bin_header e b) 400.
Proof.
  unfold fill_bin_header.
  Ltac step k := apply ok_on_bind with (n := k%nat); [first [apply rd_u_needs|apply rd_i_needs|apply pskip_needs]|lia|cbn [Nat.sub]; intros].
  do 39 (first [step 1%nat | step 2%nat | step 4%nat | step 8%nat | step 204%nat]).
  destruct (1 <? _).
  - apply ok_on_bind with (n := 4%nat); [apply rd_i_needs|lia|cbn [Nat.sub]; intros].
    apply ok_on_bind with (n := 2%nat); [apply rd_i_needs|lia|cbn [Nat.sub]; intros].
    apply ok_on_bind with (n := 8%nat); [apply pmap_needs, rd_i_needs|lia|cbn [Nat.sub]; intros].
    apply ok_on_bind with (n := 8%nat); [apply rd_u_needs|lia|cbn [Nat.sub]; intros].
    apply ok_on_bind with (n := 4%nat); [apply rd_i_needs|lia|cbn [Nat.sub]; intros].
    intros c _. eexists. reflexivity.
  - intros c _. eexists. reflexivity.
Qed.

Lemma fill_ext_range e b c b' c' : fill_bin_header e b c = Ok (b', c') ->
  - 2 ^ 15 <= bh_ext_text_headers_num b' < 2 ^ 15.
Proof.
  unfold fill_bin_header, pbind at 1. intros H.
  do 38 (let a := fresh "a" in let c := fresh "c" in apply pbind_inv in H as (a & c & _ & H) ||
         (match type of H with (match ?x with Ok _ => _ | Throw _ => _ | UB => _ end) = Ok _ =>
            destruct x as [[? ?]| |]; [|discriminate H|discriminate H] end)).
  apply pbind_inv in H as (n & c38 & E & H).
  assert (R : in_i 16 n = true).
  { unfold rd_i, pmap in E. apply pbind_inv in E as (u & cu & _ & E). unfold pret in E.
    assert (n = wraps (8 * Z.of_nat 2) u) by congruence. subst n. apply wraps_range. reflexivity. }
  assert (G : bh_ext_text_headers_num b' = n).
  { destruct (1 <? _).
    - do 5 (apply pbind_inv in H as (? & ? & _ & H)). unfold pret in H. injection H as <- <-. reflexivity.
    - unfold pret in H. injection H as <- <-. reflexivity. }
  rewrite G. unfold in_i in R. change (16 - 1) with 15 in R. lia.
Qed.

Lemma until_noub : forall fuel f acc, noub (read_until_end fuel f acc).
Proof.
  induction fuel as [|k IH]; intros f acc; cbn [read_until_end]; [discriminate|].
  apply noub_bind; [apply fread_not_ub|]. intros [b f1] _. destruct (starts_with _ _); [discriminate|apply IH].
Qed.
Lemma blocks_noub : forall fuel i f acc, - 2 ^ 31 <= i < 2 ^ 31 -> 0 <= fpos f ->
  (i < 0 -> len (fdata f) - fpos f < 3200 * (i + 2 ^ 31)) -> noub (read_blocks fuel i f acc).
Proof.
  induction fuel as [|k IH]; intros i f acc Hi Hp Hl; cbn [read_blocks];
    (destruct (Z.eqb_spec i 0) as [->|N]; [discriminate|]); [discriminate|].
  apply noub_bind; [apply fread_not_ub|]. intros [b f1] E. change TEXT_HEADER_SIZE with 3200 in E.
  pose proof (fread_ok 3200 f b f1 ltac:(lia) E Hp) as (L & _ & D & P).
  unfold fread in E. change (3200 =? 0) with false in E. cbv iota in E.
  destruct (Z.leb_spec (fpos f + 3200) (len (fdata f))); [|discriminate].
  assert (- 2 ^ 31 <= i - 1) by (destruct (Z.lt_ge_cases i 0) as [Q|Q]; [specialize (Hl Q); lia|lia]).
  rewrite sarith_ok by (unfold in_i; change (32 - 1) with 31; lia). cbn [bind].
  apply IH; [lia|lia|]. intros Q. rewrite D, P. destruct (Z.lt_ge_cases i 0) as [Q'|Q']; [specialize (Hl Q'); lia|lia].
Qed.
Lemma at_off_240 b o : len b = 240 -> 0 <= o <= 240 -> at_off b o = Ok (skipn (Z.to_nat o) b).
Proof. intros L H. unfold at_off. replace (_ && _) with true by lia. reflexivity. Qed.
Lemma rd_i_240 {B} e n o b (g : Z * list Z -> outcome B) : len b = 240 -> 0 <= o -> o + Z.of_nat n <= 240 ->
  (forall x, noub (g x)) -> noub (bind (at_off b o) (fun c => bind (rd_i e n c) g)).
Proof.
  intros L H1 H2 H. rewrite at_off_240 by lia. cbn [bind].
  destruct (rd_i_ok e n (skipn (Z.to_nat o) b)) as (v & E); [rewrite skipn_length; unfold len in L; lia|].
  rewrite E. apply H.
Qed.
Lemma rd_u_240 {B} e n o b (g : Z * list Z -> outcome B) : len b = 240 -> 0 <= o -> o + Z.of_nat n <= 240 ->
  (forall x, noub (g x)) -> noub (bind (at_off b o) (fun c => bind (rd_u e n c) g)).
Proof.
  intros L H1 H2 H. rewrite at_off_240 by lia. cbn [bind].
  destruct (rd_u_ok e n (skipn (Z.to_nat o) b)) as (v & E); [rewrite skipn_length; unfold len in L; lia|].
  rewrite E. apply H.
Qed.
Lemma skipvar_noub : forall fuel e ma bps n f, 0 <= fpos f -> noub (skip_var_traces fuel e ma bps n f).
Proof.
  induction fuel as [|k IH]; intros e ma bps n f Hp; cbn [skip_var_traces];
    (destruct (n =? 0); [discriminate|]); [discriminate|].
  apply noub_bind; [apply fread_not_ub|]. intros [b f1] E. change TR_HEADER_SIZE with 240 in *.
  pose proof (fread_ok 240 f b f1 ltac:(lia) E Hp) as (L & _ & D & P).
  apply rd_i_240; [exact L|lia|lia|]. intros [s16 c']. cbv zeta. apply noub_bind.
  - destruct (ma =? 0); [discriminate|]. apply noub_bind; [apply fread_not_ub|]. intros [h2 f2] E2.
    apply fread_ok in E2 as (L2 & _); [|lia|lia].
    apply rd_u_240; [exact L2|lia|lia|]. intros [n2 c2]. apply rd_u_240; [exact L2|lia|lia|]. intros [a0 c0]. cbv zeta.
    apply noub_bind; [apply fseek_noub|]. discriminate.
  - intros [ns f2] _. apply noub_bind; [apply fseek_noub|]. intros f3 E3. apply fseek_cur_inv in E3 as (_ & P3 & R3).
    apply IH. lia.
Qed.

Lemma trailer_noub e b bps spt f : 0 <= fpos f -> in_i 32 (spt * bps) = true ->
  - 2 ^ 31 <= bh_num_of_trailer_stanza b * 3200 < 2 ^ 31 -> len (fdata f) < 2 ^ 42 ->
  noub (read_trailer_stanzas e b bps spt f).
Proof.
  intros Hp I T Lc. unfold read_trailer_stanzas. cbv zeta. destruct (_ =? -1).
  - destruct (_ =? 0); [discriminate|]. destruct (negb _).
    + rewrite sarith_ok by (rewrite Z.mul_comm; exact I). cbn [bind]. apply noub_bind; [apply fseek_noub|].
      intros f1 _. apply noub_bind; [apply until_noub|]. intros [? ?] _. discriminate.
    + apply noub_bind; [apply skipvar_noub, Hp|]. intros f1 _.
      apply noub_bind; [apply until_noub|]. intros [? ?] _. discriminate.
  - change TEXT_HEADER_SIZE with 3200. rewrite sarith_ok by (unfold in_i; change (32 - 1) with 31; lia). cbn [bind].
    apply noub_bind; [apply fseek_noub|]. intros f1 E. apply fseek_end_inv in E as (D & P & R).
    apply noub_bind; [|intros [? ?] _; discriminate].
    apply blocks_noub; [lia|lia|]. intros Q. rewrite D. lia.
Qed.

Lemma open_noub p content maps (ov : bool) b0 : len content < 2 ^ 42 ->
  (forall b bps, bytes_per_sample (bh_format_code b) = Some bps ->
     (if ov then b = set_endianness b0 (wraps 32 (le_dec (slice 3296 4 content)))
      else exists e c, endian_of (marker content) = Ok e /\ fill_bin_header e (set_endianness b0 (wraps 32 (le_dec (slice 3296 4 content)))) (slice 3200 400 content) = Ok (b, c)) ->
     bounded b bps /\ - 2 ^ 15 <= bh_ext_text_headers_num b < 2 ^ 15) ->
  noub (i_open p content maps ov b0).
Proof.
  intros Lc HB. unfold i_open. apply noub_bind; [apply check_not_ub|]. intros _ _.
  apply noub_bind; [apply fread_not_ub|]. intros [t f1] E1.
  apply noub_bind; [apply fread_not_ub|]. intros [bin f2] E2. cbv zeta.
  apply fread_ok in E1 as (_ & _ & D1 & P1); [|unfold TEXT_HEADER_SIZE; lia|cbn; lia].
  change TEXT_HEADER_SIZE with 3200 in P1. cbn [open_in fpos fdata] in P1, D1.
  apply fread_ok in E2 as (L2 & S2 & D2 & P2); [|unfold BIN_HEADER_SIZE; lia|lia].
  change BIN_HEADER_SIZE with 400 in *. rewrite D1, P1 in S2. change (0 + 3200) with 3200 in S2.
  assert (M : le_dec (slice 96 4 bin) = le_dec (slice 3296 4 content)).
  { rewrite S2, slice_slice by lia. reflexivity. }
  rewrite M. set (b1 := set_endianness b0 (wraps 32 (le_dec (slice 3296 4 content)))) in *.
  apply noub_bind; [unfold endian_of, noub; repeat (destruct (_ =? _); try discriminate)|]. intros e Ee.
  apply noub_bind.
  { destruct ov; [discriminate|]. destruct (fill_ok e b1 bin) as ([v c] & K); [unfold len in L2; lia|].
    rewrite K. discriminate. }
  intros b Eb.
  assert (HB' : forall bps, bytes_per_sample (bh_format_code b) = Some bps -> bounded b bps /\ - 2 ^ 15 <= bh_ext_text_headers_num b < 2 ^ 15).
  { intros bps K. apply HB; [exact K|]. destruct ov; [injection Eb as <-; reflexivity|].
    apply bind_ok in Eb as ([b' c] & F & Eb). injection Eb as ->. rewrite S2 in F. exists e, c.
    split; [|exact F]. unfold b1 in Ee. rewrite bh_endianness_set in Ee. exact Ee. }
  apply noub_bind.
  { destruct (fmt_cases (bh_format_code b)) as [S|[R _]]; [|rewrite R; discriminate].
    destruct (supported_ok p e _ S) as [O _]. destruct (sample_reader _ _ _); [discriminate|discriminate O|discriminate O]. }
  intros r Er. pose proof (reader_fmt _ _ _ _ Er) as Sup. destruct (bps_agree _ Sup) as (n & B1 & _ & Hn).
  pose proof (bps_range _ _ _ _ _ Er B1) as B8.
  rewrite B1. destruct (HB' _ B1) as ((H1 & H2) & H3).
  assert (I : in_i 32 ((if bh_ext_samp_per_tr b =? 0 then wrapu 16 (bh_samp_per_tr b) else bh_ext_samp_per_tr b) * Z.of_nat n) = true).
  { unfold in_i. change (32 - 1) with 31. destruct (_ =? 0); [|lia].
    pose proof (wrapu_bound 16 (bh_samp_per_tr b)). nia. }
  set (spt := if bh_ext_samp_per_tr b =? 0 then wrapu 16 (bh_samp_per_tr b) else bh_ext_samp_per_tr b) in *.
  clearbody spt. apply noub_bind.
  { unfold read_ext_text_headers. destruct (bh_ext_text_headers_num b =? 0); [discriminate|].
    destruct (bh_ext_text_headers_num b =? -1); [apply until_noub|].
    apply blocks_noub; [lia|lia|]. intros _. rewrite D2, D1, P2, P1. lia. }
  intros [texts f3] E3. pose proof (ext_pos _ _ _ _ _ E3 ltac:(lia)) as P3. apply ext_data in E3.
  apply noub_bind.
  { destruct (_ =? 0); [discriminate|]. apply noub_bind; [apply fseek_noub|]. discriminate. }
  intros [first f4] E4. assert (G : fdata f4 = content /\ 0 <= fpos f4).
  { destruct (_ =? 0) in E4; [injection E4 as <- <-; split; [congruence|exact P3]|].
    apply bind_ok in E4 as (g & Eg & E4). injection E4 as <- <-. apply fseek_inv in Eg as (D4 & P4 & R4).
    split; [congruence|lia]. }
  destruct G as (D4 & P4).
  apply noub_bind; [apply trailer_noub; [exact P4|exact I|exact H2|rewrite D4; exact Lc]|]. intros [[eod st] f5] _.
  apply noub_bind; [apply fseek_noub|]. intros f6 _. rewrite sarith_ok by exact I. cbn [bind].
  apply noub_bind; [unfold resize_to, noub; cbv zeta; destruct (_ <=? _); discriminate|]. discriminate.
Qed.

(** ** The parts of a successful opening *)
Lemma open_parts p content maps (ov : bool) b0 s : i_open p content maps ov b0 = Ok s ->
  3600 <= len content /\
  (if ov then i_bh s = set_endianness b0 (marker content)
   else exists c, fill_bin_header (i_endian s) (set_endianness b0 (marker content)) (slice 3200 400 content) = Ok (i_bh s, c)) /\
  endian_of (marker content) = Ok (i_endian s) /\
  exists f3 f4 f5,
    read_ext_text_headers (bh_ext_text_headers_num (i_bh s)) (mkFile content 3600) [slice 0 3200 content] = Ok (i_text s, f3) /\
    (if bh_byte_off_of_first_tr (i_bh s) =? 0 then Ok (fpos f3, f3)
     else let* f4 := fseek (wraps 64 (bh_byte_off_of_first_tr (i_bh s))) f3 in
          Ok (wraps 64 (bh_byte_off_of_first_tr (i_bh s)), f4)) = Ok (i_first s, f4) /\
    read_trailer_stanzas (i_endian s) (i_bh s) (i_bps s) (i_spt s) f4 = Ok (i_eod s, i_stanzas s, f5).
Proof.
  intros H. unfold i_open in H. apply bind_ok in H as (u & E0 & H). destruct u.
  apply bind_ok in H as ([t f1] & E1 & H). apply bind_ok in H as ([bin f2] & E2 & H).
  cbv zeta in H. apply bind_ok in H as (e & E3 & H). apply bind_ok in H as (b & E4 & H).
  apply bind_ok in H as (r & E5 & H).
  destruct (bytes_per_sample (bh_format_code b)) as [bps|] eqn:E6; [|discriminate].
  apply bind_ok in H as ([texts f3] & E7 & H). apply bind_ok in H as ([first f4] & E8 & H).
  apply bind_ok in H as ([[eod st] f5] & E9 & H).
  apply bind_ok in H as (f6 & E10 & H). apply bind_ok in H as (n & E11 & H).
  apply bind_ok in H as (sz & E12 & H). injection H as <-.
  cbn [i_endian i_bh i_bps i_text i_stanzas i_eod i_first i_spt].
  apply fread_ok in E1 as (_ & S1 & D1 & P1); [|unfold TEXT_HEADER_SIZE; lia|cbn; lia].
  change TEXT_HEADER_SIZE with 3200 in *. cbn [open_in fpos fdata] in S1, P1, D1. change (0 + 3200) with 3200 in P1.
  change BIN_HEADER_SIZE with 400 in *.
  assert (Lc : 3600 <= len content).
  { unfold fread in E2. change (400 =? 0) with false in E2. cbv iota in E2. rewrite P1, D1 in E2.
    destruct (Z.leb_spec (3200 + 400) (len content)); [lia|discriminate]. }
  apply fread_ok in E2 as (L2 & S2 & D2 & P2); [|lia|lia].
  rewrite D1, P1 in S2. rewrite P1 in P2. change (3200 + 400) with 3600 in P2.
  assert (M : le_dec (slice 96 4 bin) = le_dec (slice 3296 4 content)).
  { rewrite S2, slice_slice by lia. reflexivity. }
  rewrite M in *. fold (marker content) in *.
  assert (F2 : f2 = mkFile content 3600) by (destruct f2 as [d2 q2]; cbn [fdata fpos] in *; congruence).
  split; [exact Lc|]. split; [|split; [exact E3|]].
  - destruct ov; [injection E4 as <-; reflexivity|].
    apply bind_ok in E4 as ([b' c] & F & E4). injection E4 as ->. exists c. rewrite S2 in F. exact F.
  - exists f3, f4, f5. rewrite F2, S1 in E7. repeat split; assumption.
Qed.

(** ** Text headers (C25) *)
Lemma starts_with_spec : forall pre l, starts_with pre l = true <-> firstn (List.length pre) l = pre.
Proof.
  induction pre as [|a pre IH]; intros l; [split; reflexivity|]. destruct l as [|b l]; cbn [starts_with List.length firstn].
  - split; discriminate.
  - rewrite andb_true_iff, Z.eqb_eq, IH. split; [intros [-> ->]; reflexivity|]. intros H. injection H as -> ->. auto.
Qed.
Lemma is_end_spec b : starts_with end_text b = true <-> is_end b.
Proof. apply starts_with_spec. Qed.

Lemma blocks_at_cons content pos b bs : pos + 3200 <= len content -> b = slice pos 3200 content ->
  blocks_at content (pos + 3200) bs -> blocks_at content pos (b :: bs).
Proof.
  intros L E H [|i] x Hx; cbn [nth_error] in Hx.
  - injection Hx as <-. change (Z.of_nat 0) with 0. rewrite Z.mul_0_r, Z.add_0_r. split; [lia|exact E].
  - destruct (H i x Hx) as [H1 H2]. split; [lia|]. rewrite H2. f_equal. lia.
Qed.

Lemma until_inv : forall fuel f acc r f', read_until_end fuel f acc = Ok (r, f') -> 0 <= fpos f ->
  exists bs b, r = acc ++ bs ++ [b] /\ f' = mkFile (fdata f) (fpos f + 3200 * (len bs + 1)) /\
    blocks_at (fdata f) (fpos f) (bs ++ [b]) /\ Forall (fun x => ~ is_end x) bs /\ is_end b.
Proof.
  induction fuel as [|k IH]; intros f acc r f' H Hp; cbn [read_until_end] in H; [discriminate|].
  apply bind_ok in H as ([b f1] & E & H). change TEXT_HEADER_SIZE with 3200 in E.
  pose proof (fread_ok 3200 f b f1 ltac:(lia) E Hp) as (L & S & D & P).
  unfold fread in E. change (3200 =? 0) with false in E. cbv iota in E.
  destruct (Z.leb_spec (fpos f + 3200) (len (fdata f))) as [Le|]; [|discriminate]. clear E.
  destruct (starts_with end_text b) eqn:T.
  - injection H as <- <-. exists [], b. split; [reflexivity|]. split; [|split; [|split]].
    + change (len []) with 0. destruct f1 as [d1 q1]; cbn [fdata fpos] in *. rewrite D, P. f_equal; lia.
    + apply blocks_at_cons; [exact Le|exact S|]. intros [|i] x Hx; discriminate.
    + constructor.
    + apply is_end_spec, T.
  - apply IH in H as (bs & b' & -> & -> & B & F & T'); [|lia]. rewrite D, P in *.
    exists (b :: bs), b'. split; [rewrite <- app_assoc; reflexivity|]. split; [|split; [|split]].
    + rewrite len_cons. f_equal. lia.
    + apply blocks_at_cons; [exact Le|exact S|exact B].
    + constructor; [|exact F]. intros Q. apply is_end_spec in Q. congruence.
    + exact T'.
Qed.

Lemma blocks_inv : forall fuel i f acc r f', read_blocks fuel i f acc = Ok (r, f') -> 0 <= fpos f -> 0 <= i ->
  exists bs, r = acc ++ bs /\ len bs = i /\ f' = mkFile (fdata f) (fpos f + 3200 * i) /\ blocks_at (fdata f) (fpos f) bs.
Proof.
  induction fuel as [|k IH]; intros i f acc r f' H Hp Hi; cbn [read_blocks] in H;
    (destruct (Z.eqb_spec i 0) as [->|N];
     [injection H as <- <-; exists []; rewrite app_nil_r; split; [reflexivity|]; split; [reflexivity|];
      split; [destruct f as [d q]; cbn [fdata fpos]; f_equal; lia|intros [|j] x Hx; discriminate]|]); [discriminate|].
  apply bind_ok in H as ([b f1] & E & H). change TEXT_HEADER_SIZE with 3200 in E.
  pose proof (fread_ok 3200 f b f1 ltac:(lia) E Hp) as (L & S & D & P).
  unfold fread in E. change (3200 =? 0) with false in E. cbv iota in E.
  destruct (Z.leb_spec (fpos f + 3200) (len (fdata f))) as [Le|]; [|discriminate]. clear E.
  apply bind_ok in H as (i' & Ei & H). unfold sarith in Ei. destruct (in_i _ _); [|discriminate]. injection Ei as <-.
  apply IH in H as (bs & -> & Lb & -> & B); [|lia|lia]. rewrite D, P in *.
  exists (b :: bs). split; [rewrite <- app_assoc; reflexivity|]. rewrite len_cons. split; [lia|].
  split; [f_equal; lia|]. apply blocks_at_cons; assumption.
Qed.

Lemma blocks_neg : forall fuel i f acc r, i < 0 -> read_blocks fuel i f acc <> Ok r.
Proof.
  induction fuel as [|k IH]; intros i f acc r Hi H; cbn [read_blocks] in H;
    (destruct (Z.eqb_spec i 0); [lia|]); [discriminate|].
  apply bind_ok in H as ([b f1] & E & H). apply bind_ok in H as (i' & Ei & H).
  unfold sarith in Ei. destruct (in_i _ _); [|discriminate]. injection Ei as <-.
  apply (IH (i - 1)) in H; [exact H|lia].
Qed.

(** ** Trailer stanzas (C26) *)
Lemma trailer_never e b bps spt f x : 0 <= fpos f -> bh_num_of_trailer_stanza b <> 0 -> bh_num_of_trailer_stanza b <> -1 ->
  read_trailer_stanzas e b bps spt f <> Ok x.
Proof.
  intros Hp N0 N1 H. unfold read_trailer_stanzas in H. cbv zeta in H.
  destruct (Z.eqb_spec (bh_num_of_trailer_stanza b) (-1)); [contradiction|].
  apply bind_ok in H as (off & E & H). unfold sarith in E. destruct (in_i _ _); [|discriminate]. injection E as <-.
  change TEXT_HEADER_SIZE with 3200 in H. apply bind_ok in H as (f1 & E1 & H).
  apply fseek_end_inv in E1 as (D & P & R). apply bind_ok in H as ([st f2] & E2 & H). clear H.
  destruct (Z.lt_ge_cases (bh_num_of_trailer_stanza b) 0) as [Q|Q]; [exact (blocks_neg _ _ _ _ _ Q E2)|].
  unfold file_fuel in E2. cbn [read_blocks] in E2. destruct (Z.eqb_spec (bh_num_of_trailer_stanza b) 0); [contradiction|].
  apply bind_ok in E2 as ([b2 f3] & E3 & _). unfold fread in E3. change (TEXT_HEADER_SIZE =? 0) with false in E3.
  cbv iota in E3. rewrite D, P in E3.
  destruct (Z.leb_spec (len (fdata f) + bh_num_of_trailer_stanza b * 3200 + TEXT_HEADER_SIZE) (len (fdata f))); [|discriminate].
  change TEXT_HEADER_SIZE with 3200 in *. lia.
Qed.
