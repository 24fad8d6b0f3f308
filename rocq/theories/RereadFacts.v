(** Lemmas about readers that go on after an exception (C64, C65). *)
From Verif Require Import BaseFacts Platform Fp TraceHdr SegyTypes SegyCodec SampleFacts ISegy OpenFacts Sorted1D StepX ISegyX RereadSpec.

(** ** What never throws *)
Definition quietp {A} (q : P A) : Prop := forall c x, q c <> Throw x.
Lemma quiet_ret {A} (a : A) : quietp (pret a).
Proof. intros c x. discriminate. Qed.
Lemma quiet_bind {A B} (q : P A) (k : A -> P B) : quietp q -> (forall a, quietp (k a)) -> quietp (pbind q k).
Proof. intros H K c x. unfold pbind. destruct (q c) as [[a c']|e|] eqn:E; [apply K|exfalso; exact (H _ _ E)|discriminate]. Qed.
Lemma quiet_map {A B} (f : A -> B) (q : P A) : quietp q -> quietp (pmap f q).
Proof. intros H. apply quiet_bind; [exact H|]. intros a. apply quiet_ret. Qed.
Lemma quiet_take n : quietp (ptake n).
Proof. intros c x. unfold ptake. destruct (Nat.leb _ _); discriminate. Qed.
Lemma quiet_read n : quietp (pread n).
Proof. apply quiet_map, quiet_take. Qed.
Lemma quiet_rd_u e n : quietp (rd_u e n).
Proof. apply quiet_bind; [apply quiet_read|]. intros a. apply quiet_ret. Qed.
Lemma quiet_rd_i e n : quietp (rd_i e n).
Proof. apply quiet_map, quiet_rd_u. Qed.
Lemma quiet_rd_u24 p e : quietp (rd_u24 p e).
Proof.
  apply quiet_bind; [|intros [a b]; apply quiet_ret]. unfold rd_16_8.
  destruct (p_left_first p); (apply quiet_bind; [apply quiet_read|]; intros a; apply quiet_bind; [apply quiet_read|]; intros b; apply quiet_ret).
Qed.
Lemma quiet_rd_i24 p e : quietp (rd_i24 p e).
Proof. apply quiet_bind; [apply quiet_rd_u24|]. intros a. apply quiet_ret. Qed.
Lemma quiet_field p e t : quietp (rd_field p e t).
Proof.
  destruct t; cbn [rd_field]; apply quiet_map; unfold rd_ibm, rd_f32, rd_f64;
    first [apply quiet_rd_i24|apply quiet_rd_u24|apply quiet_rd_i|apply quiet_rd_u|apply quiet_map, quiet_rd_u].
Qed.
Lemma quiet_sample p e fmt q : sample_reader p e fmt = Ok q -> quietp q.
Proof.
  intros H. destruct (fmt_cases fmt) as [F|[F _]]; [|rewrite F in H; discriminate].
  repeat (destruct F as [<-|F]; [cbn [sample_reader] in H; injection H as <-; unfold rd_ibm, rd_f32, rd_f64;
    first [apply quiet_map, quiet_rd_i24|apply quiet_map, quiet_rd_u24|apply quiet_map, quiet_rd_i|apply quiet_map, quiet_rd_u|apply quiet_rd_u]|]).
  destruct F.
Qed.
Lemma quiet_prep {A} (q : P A) n : quietp q -> quietp (prep q n).
Proof.
  intros H. induction n as [|n IH]; cbn [prep]; [apply quiet_ret|]. apply quiet_bind; [exact H|]. intros a.
  apply quiet_bind; [exact IH|]. intros l. apply quiet_ret.
Qed.
Lemma quiet_fields p e b x : forall l h, rd_fields p e b l h <> Throw x.
Proof.
  induction l as [|en l IH]; intros h; cbn [rd_fields]; [discriminate|]. unfold at_off.
  destruct (_ && _); [|discriminate]. cbn [bind].
  destruct (rd_field p e (e_type en) _) as [[v c]|e1|] eqn:E; cbn [bind]; [apply IH|exfalso; exact (quiet_field _ _ _ _ _ E)|discriminate].
Qed.

(** ** Readers of the same file *)
Definition sound (p : platform) (s : isegy) : Prop :=
  0 <= fpos (i_file s) /\ 0 <= i_bufsz s <= p_max_alloc p /\
  exists q, sample_reader p (i_endian s) (bh_format_code (i_bh s)) = Ok q.

(** Equal but for the position and the size of the buffer. *)
Definition like (p : platform) (a b : isegy) : Prop :=
  i_bh b = i_bh a /\ i_maps b = i_maps a /\ i_text b = i_text a /\ i_stanzas b = i_stanzas a /\ i_endian b = i_endian a /\
  i_bps b = i_bps a /\ i_spt b = i_spt a /\ i_first b = i_first a /\ i_eod b = i_eod a /\
  fdata (i_file b) = fdata (i_file a) /\ (is_fixed (i_bh a) = true -> i_bufsz b = i_bufsz a) /\ sound p b.

Lemma like_refl p s : sound p s -> like p s s.
Proof. intros H. unfold like. do 10 (split; [reflexivity|]). split; [auto|exact H]. Qed.
Lemma like_trans p a b c : like p a b -> like p b c -> like p a c.
Proof.
  intros (A1 & A2 & A3 & A4 & A5 & A6 & A7 & A8 & A9 & A10 & A11 & _) (B1 & B2 & B3 & B4 & B5 & B6 & B7 & B8 & B9 & B10 & B11 & B12).
  unfold like. rewrite B1, B2, B3, B4, B5, B6, B7, B8, B9, B10. repeat (split; [assumption|]). split; [|exact B12].
  intros F. rewrite B11 by (rewrite A1; exact F). exact (A11 F).
Qed.
Lemma like_sound p a b : like p a b -> sound p b.
Proof. intros (_ & _ & _ & _ & _ & _ & _ & _ & _ & _ & _ & H). exact H. Qed.

Lemma like_put p s f cur : sound p s -> fdata f = fdata (i_file s) -> 0 <= fpos f -> like p s (i_put s f cur (i_bufsz s)).
Proof.
  intros (S1 & S2 & S3) D F. unfold like. cbn [i_put i_bh i_maps i_text i_stanzas i_endian i_bps i_spt i_first i_eod i_file i_bufsz].
  do 9 (split; [reflexivity|]). split; [exact D|]. split; [reflexivity|]. split; [exact F|]. split; assumption.
Qed.

Lemma fread_data n f b f' : fread n f = Ok (b, f') -> 0 <= fpos f -> 0 <= n -> fdata f' = fdata f /\ 0 <= fpos f'.
Proof.
  unfold fread. intros H P N. destruct (n =? 0); [injection H as _ <-; auto|].
  destruct (_ <=? _); [|discriminate]. injection H as _ <-. cbn [fdata fpos]. split; [reflexivity|lia].
Qed.
Lemma fread_throw n f e : fread n f = Throw e -> e = EIO.
Proof. unfold fread. destruct (n =? 0); [discriminate|]. destruct (_ <=? _); [discriminate|]. congruence. Qed.
Lemma fseek_data n f f' : fseek n f = Ok f' -> fdata f' = fdata f /\ 0 <= fpos f' /\ fpos f' = n.
Proof.
  unfold fseek. destruct ((0 <=? n) && (n <? 2 ^ 63)) eqn:E; [|discriminate]. intros H. injection H as <-.
  apply andb_prop in E as [E _]. apply Z.leb_le in E. cbn [fdata fpos]. auto.
Qed.
Lemma fseek_throw n f e : fseek n f = Throw e -> e = EIO.
Proof. unfold fseek. destruct (_ && _); [discriminate|congruence]. Qed.

(** A call on a living reader has the outcome of the reader of ISegy.v. *)
Definition agree (p : platform) {A} (s : isegy) (res : outcome A * reader) (o : outcome (A * isegy)) : Prop :=
  match o with
  | Ok (a, s') => res = (Ok a, fresh s') /\ like p s s'
  | Throw x => exists r', res = (Throw x, r') /\ like p s (x_i r') /\ (x = EIO <-> x_fail r' = true)
  | UB => fst res = UB
  end.

Lemma fill_buf_agree p n s : 0 <= n -> sound p s ->
  match fread n (i_file s) with
  | Ok (b, f) => fill_buf n (fresh s) = (Ok b, fresh (i_put s f (fpos f) (i_bufsz s))) /\ like p s (i_put s f (fpos f) (i_bufsz s))
  | Throw x => x = EIO /\ fill_buf n (fresh s) = (Throw EIO, mkR s true)
  | UB => False
  end.
Proof.
  intros N S0. unfold fill_buf, on_file, fresh. cbn [x_fail x_i]. destruct (fread n (i_file s)) as [[b f]|x|] eqn:E.
  - split; [reflexivity|]. destruct (fread_data _ _ _ _ E (proj1 S0) N) as [D F]. apply like_put; assumption.
  - apply fread_throw in E as ->. split; reflexivity.
  - unfold fread in E. destruct (n =? 0); [discriminate|]. destruct (_ <=? _); discriminate.
Qed.

Lemma skip_agree p off s : sound p s ->
  match fseek_cur off (i_file s) with
  | Ok f => skip_bytes off (fresh s) = (Ok tt, fresh (i_put s f (fpos f) (i_bufsz s))) /\ like p s (i_put s f (fpos f) (i_bufsz s))
  | Throw x => x = EIO /\ skip_bytes off (fresh s) = (Throw EIO, mkR s true)
  | UB => False
  end.
Proof.
  intros S0. unfold skip_bytes, on_file, fresh, fseek_cur. cbn [x_fail x_i].
  destruct (fseek (fpos (i_file s) + off) (i_file s)) as [f|x|] eqn:E; cbn [bind].
  - split; [reflexivity|]. apply fseek_data in E as (D & F & _). apply like_put; assumption.
  - apply fseek_throw in E as ->. split; reflexivity.
  - unfold fseek in E. destruct (_ && _); discriminate.
Qed.

Lemma seek_agree p pos s : sound p s ->
  match seek_base s pos with
  | Ok s' => seek_to pos (fresh s) = (Ok tt, fresh s') /\ like p s s'
  | Throw x => x = EIO /\ seek_to pos (fresh s) = (Throw EIO, mkR s true)
  | UB => False
  end.
Proof.
  intros S0. unfold seek_to, on_file, fresh, seek_base. cbn [x_fail x_i].
  destruct (fseek pos (i_file s)) as [f|x|] eqn:E; cbn [bind].
  - split; [reflexivity|]. apply fseek_data in E as (D & F & _). apply like_put; assumption.
  - apply fseek_throw in E as ->. split; reflexivity.
  - unfold fseek in E. destruct (_ && _); discriminate.
Qed.

(** The seeks over blocks without a layout, one by one or at once. *)
Lemma skip_blocks p e h : forall n s, sound p s ->
  match fseek_cur (Z.of_nat (S n) * TR_HEADER_SIZE) (i_file s) with
  | Ok f => xrd_headers p e [] (S n) h (fresh s) = (Ok h, fresh (i_put s f (fpos f) (i_bufsz s)))
  | Throw x => x = EIO /\ exists s', xrd_headers p e [] (S n) h (fresh s) = (Throw EIO, mkR s' true) /\ like p s s'
  | UB => False
  end.
Proof.
  induction n as [|n IH]; intros s S0.
  - pose proof (skip_agree p TR_HEADER_SIZE s S0) as K. change (Z.of_nat 1 * TR_HEADER_SIZE) with TR_HEADER_SIZE.
    change (xrd_headers p e [] 1 h) with (xbind (skip_bytes TR_HEADER_SIZE) (fun _ : unit => xret (S := reader) h)).
    unfold xbind. destruct (fseek_cur TR_HEADER_SIZE (i_file s)) as [f|x|]; [| |exact K].
    + destruct K as [K _]. rewrite K. reflexivity.
    + destruct K as [-> K]. split; [reflexivity|]. rewrite K. exists s. split; [reflexivity|apply like_refl; exact S0].
  - pose proof (skip_agree p TR_HEADER_SIZE s S0) as K.
    change (xrd_headers p e [] (S (S n)) h) with (xbind (skip_bytes TR_HEADER_SIZE) (fun _ : unit => xrd_headers p e [] (S n) h)).
    unfold xbind. pose proof (proj1 S0) as P0. unfold fseek_cur at 1 in K. change TR_HEADER_SIZE with 240 in *.
    unfold fseek_cur, fseek at 1.
    destruct (fseek (fpos (i_file s) + 240) (i_file s)) as [f|x|] eqn:E; [| |destruct K].
    + destruct K as [K L1]. rewrite K. pose proof (IH _ (like_sound _ _ _ L1)) as Q.
      apply fseek_data in E as (D & F & Pf). unfold fseek_cur, fseek at 1 in Q. cbn [i_put i_file i_bufsz fpos] in Q.
      replace (fpos f + Z.of_nat (S n) * 240) with (fpos (i_file s) + Z.of_nat (S (S n)) * 240) in Q by lia.
      destruct ((0 <=? _) && _).
      * rewrite D in Q. exact Q.
      * destruct Q as (_ & s' & Q & L2). split; [reflexivity|]. exists s'. split; [exact Q|]. exact (like_trans _ _ _ _ L1 L2).
    + destruct K as [_ K]. rewrite K. unfold fseek in E.
      destruct ((0 <=? fpos (i_file s) + 240) && (fpos (i_file s) + 240 <? 2 ^ 63)) eqn:C; [discriminate|].
      assert (C2 : (0 <=? fpos (i_file s) + Z.of_nat (S (S n)) * 240) && (fpos (i_file s) + Z.of_nat (S (S n)) * 240 <? 2 ^ 63) = false).
      { apply andb_false_iff in C as [C|C]; apply andb_false_iff.
        - apply Z.leb_gt in C. lia.
        - right. apply Z.ltb_ge in C. apply Z.ltb_ge. lia. }
      rewrite C2. split; [reflexivity|]. exists s. split; [reflexivity|apply like_refl; exact S0].
Qed.

Lemma rd_headers_agree p e : forall n ls s h, sound p s ->
  match rd_headers p e ls (Z.of_nat n) (i_file s) h with
  | Ok (h', f) => exists cur, xrd_headers p e ls n h (fresh s) = (Ok h', fresh (i_put s f cur (i_bufsz s))) /\
                    fdata f = fdata (i_file s) /\ 0 <= fpos f
  | Throw x => x = EIO /\ exists s', xrd_headers p e ls n h (fresh s) = (Throw EIO, mkR s' true) /\ like p s s'
  | UB => fst (xrd_headers p e ls n h (fresh s)) = UB
  end.
Proof.
  induction n as [|n IH]; intros ls s h S0.
  - assert (Q : rd_headers p e ls (Z.of_nat 0) (i_file s) h = Ok (h, i_file s)) by (destruct ls; reflexivity).
    rewrite Q. exists (i_cur s). split; [|split; [reflexivity|exact (proj1 S0)]]. destruct s; reflexivity.
  - destruct ls as [|[nm l] ls].
    + assert (Q : rd_headers p e [] (Z.of_nat (S n)) (i_file s) h =
         let* f1 := fseek_cur (Z.of_nat (S n) * TR_HEADER_SIZE) (i_file s) in Ok (h, f1)) by reflexivity.
      rewrite Q. pose proof (skip_blocks p e h n s S0) as K.
      destruct (fseek_cur _ (i_file s)) as [f|x|] eqn:E; cbn [bind]; [|exact K|destruct K].
      exists (fpos f). split; [exact K|]. apply fseek_data in E as (D & F & _). auto.
    + assert (Q : rd_headers p e ((nm, l) :: ls) (Z.of_nat (S n)) (i_file s) h =
         let* (block, f1) := fread TR_HEADER_SIZE (i_file s) in
         let* h1 := rd_fields p e block l h in rd_headers p e ls (Z.of_nat n) f1 h1).
      { cbn [rd_headers]. replace (Z.of_nat (S n) <=? 0) with false by (symmetry; apply Z.leb_gt; lia).
        replace (Z.of_nat (S n) - 1) with (Z.of_nat n) by lia. reflexivity. }
      assert (XQ : xrd_headers p e ((nm, l) :: ls) (S n) h (fresh s) =
         match fill_buf TR_HEADER_SIZE (fresh s) with
         | (Ok b, r1) => match rd_fields p e b l h with
                         | Ok h1 => xrd_headers p e ls n h1 r1
                         | Throw x => (Throw x, r1)
                         | UB => (UB, r1)
                         end
         | (Throw x, r1) => (Throw x, r1)
         | (UB, r1) => (UB, r1)
         end) by reflexivity.
      rewrite Q, XQ. clear Q XQ.
      pose proof (fill_buf_agree p TR_HEADER_SIZE s ltac:(vm_compute; discriminate) S0) as K.
      destruct (fread TR_HEADER_SIZE (i_file s)) as [[b f]|x|] eqn:E; cbn [bind]; [| |destruct K].
      * destruct K as [K L1]. rewrite K.
        destruct (rd_fields p e b l h) as [h1|x|] eqn:Ef; cbn [bind]; [|exfalso; exact (quiet_fields _ _ _ _ _ _ Ef)|reflexivity].
        pose proof (IH ls _ h1 (like_sound _ _ _ L1)) as R1. cbn [i_put i_file] in R1.
        destruct (fread_data _ _ _ _ E (proj1 S0) ltac:(vm_compute; discriminate)) as [D1 P1].
        destruct (rd_headers p e ls (Z.of_nat n) f h1) as [[h' f']|x|]; [| |exact R1].
        -- destruct R1 as (cur & R1 & D & F). exists cur. rewrite R1. split; [reflexivity|]. split; [congruence|exact F].
        -- destruct R1 as (-> & s' & R1 & L2). split; [reflexivity|]. exists s'. split; [exact R1|]. exact (like_trans _ _ _ _ L1 L2).
      * destruct K as [-> K]. rewrite K. split; [reflexivity|]. exists s. split; [reflexivity|apply like_refl; exact S0].
Qed.

Lemma rd_headers_nat p e ls n f h : rd_headers p e ls n f h = rd_headers p e ls (Z.of_nat (Z.to_nat n)) f h.
Proof.
  destruct (Z.leb_spec n 0) as [L|L].
  - replace (Z.of_nat (Z.to_nat n)) with 0 by lia. destruct ls; cbn [rd_headers]; (replace (n <=? 0) with true by (symmetry; apply Z.leb_le; lia)); reflexivity.
  - rewrite Z2Nat.id by lia. reflexivity.
Qed.

Lemma trc_header_agree p s : sound p s ->
  match read_trc_header p s with
  | Ok (h, f) => exists cur, xread_trc_header p (fresh s) = (Ok h, fresh (i_put s f cur (i_bufsz s))) /\
                    fdata f = fdata (i_file s) /\ 0 <= fpos f
  | Throw x => x = EIO /\ exists s', xread_trc_header p (fresh s) = (Throw EIO, mkR s' true) /\ like p s s'
  | UB => fst (xread_trc_header p (fresh s)) = UB
  end.
Proof.
  intros S0. unfold read_trc_header, xread_trc_header. cbn [xbind xget fresh x_i].
  destruct (sarith 32 _) as [n|x|] eqn:E; cbn [xlift bind]; [| |reflexivity].
  - rewrite rd_headers_nat. exact (rd_headers_agree p (i_endian s) (Z.to_nat n) (i_maps s) s [] S0).
  - unfold sarith in E. destruct (in_i 32 _); discriminate.
Qed.

Lemma xread_smpls_eq p r : xread_smpls p r =
  match fill_buf (i_bufsz (x_i r)) r with
  | (Ok b, r1) => match sample_reader p (i_endian (x_i r)) (bh_format_code (i_bh (x_i r))) with
                  | Ok q => match prep q (Z.to_nat (i_bufsz (x_i r) / i_bps (x_i r))) b with
                            | Ok (smp, _) => (Ok smp, r1)
                            | Throw x => (Throw x, r1)
                            | UB => (UB, r1)
                            end
                  | Throw x => (Throw x, r1)
                  | UB => (UB, r1)
                  end
  | (Throw x, r1) => (Throw x, r1)
  | (UB, r1) => (UB, r1)
  end.
Proof.
  unfold xread_smpls, xbind, xget, xlift. destruct (fill_buf _ r) as [[b|x|] r1]; try reflexivity.
  destruct (sample_reader _ _ _) as [q|x|]; try reflexivity. destruct (prep q _ b) as [[smp c]|x|]; reflexivity.
Qed.

Lemma smpls_agree p s : sound p s ->
  match read_smpls p s (i_bufsz s) (i_file s) with
  | Ok (smp, f) => xread_smpls p (fresh s) = (Ok smp, fresh (i_put s f (fpos f) (i_bufsz s))) /\ like p s (i_put s f (fpos f) (i_bufsz s))
  | Throw x => x = EIO /\ xread_smpls p (fresh s) = (Throw EIO, mkR s true)
  | UB => fst (xread_smpls p (fresh s)) = UB
  end.
Proof.
  intros S0. pose proof S0 as (_ & (B0 & _) & q & Eq). rewrite xread_smpls_eq. unfold read_smpls. cbn [fresh x_i]. fold (fresh s).
  pose proof (fill_buf_agree p (i_bufsz s) s B0 S0) as K.
  destruct (fread (i_bufsz s) (i_file s)) as [[b f]|x|]; cbn [bind]; [| |destruct K].
  - destruct K as [K L]. rewrite K, Eq. cbn [bind].
    destruct (prep q (Z.to_nat (i_bufsz s / i_bps s)) b) as [[smp c]|x|] eqn:Ep; cbn [bind].
    + split; [reflexivity|exact L].
    + exfalso. exact (quiet_prep q _ (quiet_sample _ _ _ _ Eq) _ _ Ep).
    + reflexivity.
  - destruct K as [-> K]. rewrite K. split; reflexivity.
Qed.

(** ** read_trace and read_header *)
Definition xtail (p : platform) (h : hdr) (r : reader) : outcome trace * reader :=
  if is_fixed (i_bh (x_i r)) then
    match xread_smpls p r with
    | (Ok smp, r1) => (Ok (mkTrace h smp), r1)
    | (Throw x, r1) => (Throw x, r1)
    | (UB, r1) => (UB, r1)
    end
  else
    let (v, h') := hidx h "SAMP_NUM" in
    match get_int v with
    | Ok n =>
      let want := wrapu 64 (wrapu 64 n * i_bps (x_i r)) in
      match (if i_bufsz (x_i r) =? want then Ok want else resize_to p want) with
      | Ok sz =>
        match xread_smpls p (mkR (i_put (x_i r) (i_file (x_i r)) (i_cur (x_i r)) sz) (x_fail r)) with
        | (Ok smp, r1) => (Ok (mkTrace h' smp), r1)
        | (Throw x, r1) => (Throw x, r1)
        | (UB, r1) => (UB, r1)
        end
      | Throw x => (Throw x, r)
      | UB => (UB, r)
      end
    | Throw x => (Throw x, r)
    | UB => (UB, r)
    end.

Lemma xread_trace_eq p r : xread_trace p r =
  match xread_trc_header p r with
  | (Ok h, r1) => xtail p h r1
  | (Throw x, r1) => (Throw x, r1)
  | (UB, r1) => (UB, r1)
  end.
Proof.
  unfold xread_trace, xbind at 1. destruct (xread_trc_header p r) as [[h|x|] r1]; try reflexivity.
  unfold xtail. cbn [xbind xget]. destruct (is_fixed _).
  - unfold xbind. destruct (xread_smpls p r1) as [[smp|x|] r2]; try reflexivity.
  - destruct (hidx h "SAMP_NUM") as [v h']. unfold xbind, xlift, set_buf, xret. destruct (get_int v) as [n|x|]; reflexivity.
Qed.

Definition xhtail (h : hdr) (r : reader) : outcome hdr * reader :=
  if is_fixed (i_bh (x_i r)) then
    match sarith 32 (i_spt (x_i r) * i_bps (x_i r)) with
    | Ok off => match skip_bytes off r with
                | (Ok _, r1) => (Ok h, r1)
                | (Throw x, r1) => (Throw x, r1)
                | (UB, r1) => (UB, r1)
                end
    | Throw x => (Throw x, r)
    | UB => (UB, r)
    end
  else
    let (v, h') := hidx h "SAMP_NUM" in
    match get_int v with
    | Ok n => match skip_bytes (wraps 64 (wrapu 64 n * i_bps (x_i r))) r with
              | (Ok _, r1) => (Ok h', r1)
              | (Throw x, r1) => (Throw x, r1)
              | (UB, r1) => (UB, r1)
              end
    | Throw x => (Throw x, r)
    | UB => (UB, r)
    end.

Lemma xread_header_eq p r : xread_header p r =
  match xread_trc_header p r with
  | (Ok h, r1) => xhtail h r1
  | (Throw x, r1) => (Throw x, r1)
  | (UB, r1) => (UB, r1)
  end.
Proof.
  unfold xread_header, xbind at 1. destruct (xread_trc_header p r) as [[h|x|] r1]; try reflexivity.
  unfold xhtail. cbn [xbind xget]. destruct (is_fixed _).
  - unfold xbind, xlift. destruct (sarith 32 _) as [off|x|]; reflexivity.
  - destruct (hidx h "SAMP_NUM") as [v h']. unfold xbind, xlift, xret. destruct (get_int v) as [n|x|]; reflexivity.
Qed.

Lemma get_int_throw v x : get_int v = Throw x -> x = EVariant.
Proof. destruct v; [discriminate|]. cbn [get_int]. congruence. Qed.

Lemma resize_range p n sz : resize_to p n = Ok sz -> 0 <= sz <= p_max_alloc p /\ sz = wrapu 64 n.
Proof.
  unfold resize_to. cbv zeta. destruct (Z.leb_spec (wrapu 64 n) (p_max_alloc p)); [|discriminate]. intros H0. injection H0 as <-.
  pose proof (wrapu_bound 64 n ltac:(lia)). split; [lia|reflexivity].
Qed.

Lemma want_range p s n sz : sound p s -> (if i_bufsz s =? wrapu 64 n then Ok (wrapu 64 n) else resize_to p (wrapu 64 n)) = Ok sz ->
  0 <= sz <= p_max_alloc p /\ sz = wrapu 64 n.
Proof.
  intros (_ & B & _) H. destruct (Z.eqb_spec (i_bufsz s) (wrapu 64 n)) as [E|E].
  - injection H as <-. rewrite <- E. auto.
  - apply resize_range in H as [H1 H2]. split; [exact H1|]. rewrite H2. apply wrapu_small. apply wrapu_bound. lia.
Qed.

Lemma like_buf p s f cur sz : sound p s -> fdata f = fdata (i_file s) -> 0 <= fpos f -> 0 <= sz <= p_max_alloc p ->
  is_fixed (i_bh s) = false -> like p s (i_put s f cur sz).
Proof.
  intros (S1 & S2 & S3) D F B X. unfold like. cbn [i_put i_bh i_maps i_text i_stanzas i_endian i_bps i_spt i_first i_eod i_file i_bufsz].
  do 9 (split; [reflexivity|]). split; [exact D|]. split; [congruence|]. split; [exact F|]. split; assumption.
Qed.

Lemma trace_agree p s : sound p s -> agree p s (xread_trace p (fresh s)) (read_trace p s).
Proof.
  intros S0. rewrite xread_trace_eq. unfold read_trace. pose proof (trc_header_agree p s S0) as K.
  destruct (read_trc_header p s) as [[h f]|x|]; cbn [bind].
  2:{ destruct K as (-> & s' & K & L). rewrite K. exists (mkR s' true). cbn [x_i x_fail]. split; [reflexivity|]. split; [assumption|]. split; reflexivity. }
  2:{ destruct (xread_trc_header p (fresh s)) as [[h|x|] r1]; try discriminate K. reflexivity. }
  destruct K as (cur & K & D & F). rewrite K. clear K. set (s1 := i_put s f cur (i_bufsz s)).
  assert (L1 : like p s s1) by (apply like_put; assumption). pose proof (like_sound _ _ _ L1) as S1.
  unfold xtail. cbn [fresh x_i x_fail]. change (i_bh s1) with (i_bh s). change (i_bps s1) with (i_bps s). change (i_bufsz s1) with (i_bufsz s).
  fold (fresh s1). destruct (is_fixed (i_bh s)) eqn:Fx.
  - pose proof (smpls_agree p s1 S1) as K. change (read_smpls p s1 (i_bufsz s1) (i_file s1)) with (read_smpls p s (i_bufsz s) f) in K.
    destruct (read_smpls p s (i_bufsz s) f) as [[smp f2]|x|]; cbn [bind agree].
    + destruct K as [K L]. rewrite K. split; [reflexivity|]. exact (like_trans _ _ _ _ L1 L).
    + destruct K as [-> K]. rewrite K. exists (mkR s1 true). split; [reflexivity|]. split; [exact L1|]. split; reflexivity.
    + destruct (xread_smpls p (fresh s1)) as [[smp|x|] r1]; try discriminate K. reflexivity.
  - destruct (hidx h "SAMP_NUM") as [v h']. destruct (get_int v) as [n|x|] eqn:Eg; cbn [bind agree].
    + cbv zeta. destruct (if i_bufsz s =? _ then _ else _) as [sz|x|] eqn:Ez; cbn [bind agree].
      * destruct (want_range p s _ _ S0 Ez) as [Bz _].
        change (i_put s1 (i_file s1) (i_cur s1) sz) with (i_put s f cur sz).
        assert (L2 : like p s (i_put s f cur sz)) by (apply like_buf; assumption).
        pose proof (smpls_agree p _ (like_sound _ _ _ L2)) as K. fold (fresh (i_put s f cur sz)).
        change (read_smpls p (i_put s f cur sz) (i_bufsz (i_put s f cur sz)) (i_file (i_put s f cur sz))) with (read_smpls p s sz f) in K.
        destruct (read_smpls p s sz f) as [[smp f2]|x|]; cbn [bind agree].
        -- destruct K as [K L]. rewrite K. split; [reflexivity|]. exact (like_trans _ _ _ _ L2 L).
        -- destruct K as [-> K]. rewrite K. exists (mkR (i_put s f cur sz) true). split; [reflexivity|]. split; [exact L2|]. split; reflexivity.
        -- destruct (xread_smpls p _) as [[smp|x|] r1]; try discriminate K. reflexivity.
      * exists (fresh s1). split; [reflexivity|]. split; [exact L1|]. split; [|discriminate]. intros ->. exfalso.
        destruct (i_bufsz s =? _); [discriminate|]. unfold resize_to in Ez. destruct (_ <=? _); discriminate.
      * reflexivity.
    + apply get_int_throw in Eg as ->. exists (fresh s1). split; [reflexivity|]. split; [exact L1|]. split; discriminate.
    + reflexivity.
Qed.

Lemma header_agree p s : sound p s -> agree p s (xread_header p (fresh s)) (read_header p s).
Proof.
  intros S0. rewrite xread_header_eq. unfold read_header. pose proof (trc_header_agree p s S0) as K.
  destruct (read_trc_header p s) as [[h f]|x|]; cbn [bind].
  2:{ destruct K as (-> & s' & K & L). rewrite K. exists (mkR s' true). cbn [x_i x_fail]. split; [reflexivity|]. split; [assumption|]. split; reflexivity. }
  2:{ destruct (xread_trc_header p (fresh s)) as [[h|x|] r1]; try discriminate K. reflexivity. }
  destruct K as (cur & K & D & F). rewrite K. clear K. set (s1 := i_put s f cur (i_bufsz s)).
  assert (L1 : like p s s1) by (apply like_put; assumption). pose proof (like_sound _ _ _ L1) as S1.
  unfold xhtail. cbn [fresh x_i x_fail]. change (i_bh s1) with (i_bh s). change (i_bps s1) with (i_bps s). change (i_spt s1) with (i_spt s).
  fold (fresh s1). destruct (is_fixed (i_bh s)) eqn:Fx.
  - destruct (sarith 32 _) as [off|x|] eqn:Es; cbn [bind agree].
    + pose proof (skip_agree p off s1 S1) as K. change (i_file s1) with f in K.
      destruct (fseek_cur off f) as [f2|x|]; cbn [bind agree]; [| |destruct K].
      * destruct K as [K L]. rewrite K. split; [reflexivity|]. exact (like_trans _ _ _ _ L1 L).
      * destruct K as [-> K]. rewrite K. exists (mkR s1 true). split; [reflexivity|]. split; [exact L1|]. split; reflexivity.
    + unfold sarith in Es. destruct (in_i 32 _); discriminate.
    + reflexivity.
  - destruct (hidx h "SAMP_NUM") as [v h']. destruct (get_int v) as [n|x|] eqn:Eg; cbn [bind agree].
    + pose proof (skip_agree p (wraps 64 (wrapu 64 n * i_bps s)) s1 S1) as K. change (i_file s1) with f in K.
      destruct (fseek_cur _ f) as [f2|x|]; cbn [bind agree]; [| |destruct K].
      * destruct K as [K L]. rewrite K. split; [reflexivity|]. exact (like_trans _ _ _ _ L1 L).
      * destruct K as [-> K]. rewrite K. exists (mkR s1 true). split; [reflexivity|]. split; [exact L1|]. split; reflexivity.
    + apply get_int_throw in Eg as ->. exists (fresh s1). split; [reflexivity|]. split; [exact L1|]. split; discriminate.
    + reflexivity.
Qed.

(** ** A reader whose stream has failed *)
Definition dead (r : reader) : Prop := x_fail r = true.

Lemma on_file_dead {A} b (op : file -> outcome (A * file)) r : dead r -> on_file b op r = (Throw EIO, r).
Proof. intros H. unfold on_file. rewrite H. reflexivity. Qed.

Lemma xrd_headers_dead p e ls n h r : dead r -> (n = 0)%nat \/ xrd_headers p e ls n h r = (Throw EIO, r).
Proof.
  intros H. destruct n as [|n]; [auto|right]. cbn [xrd_headers]. destruct ls as [|[nm l] ls]; unfold xbind.
  - unfold skip_bytes. rewrite on_file_dead by exact H. reflexivity.
  - unfold fill_buf. rewrite on_file_dead by exact H. reflexivity.
Qed.

Lemma trc_header_dead p r o r1 : dead r -> xread_trc_header p r = (o, r1) ->
  r1 = r /\ (o = UB \/ o = Throw EIO \/ o = Ok []).
Proof.
  intros H. unfold xread_trc_header. cbn [xbind xget]. unfold xbind, xlift. destruct (sarith 32 _) as [n|x|] eqn:Es.
  - destruct (xrd_headers_dead p (i_endian (x_i r)) (i_maps (x_i r)) (Z.to_nat n) [] r H) as [E|E].
    + rewrite E. destruct (i_maps (x_i r)); cbn [xrd_headers xret]; intros K; injection K as <- <-; auto.
    + rewrite E. intros K. injection K as <- <-. auto.
  - unfold sarith in Es. destruct (in_i 32 _); discriminate.
  - intros K. injection K as <- <-. auto.
Qed.

Lemma smpls_dead p r : dead r -> xread_smpls p r = (Throw EIO, r).
Proof. intros H. rewrite xread_smpls_eq. unfold fill_buf. rewrite on_file_dead by exact H. reflexivity. Qed.

Definition kept (r r1 : reader) : Prop := dead r1 /\ i_cur (x_i r1) = i_cur (x_i r) /\ i_eod (x_i r1) = i_eod (x_i r).

Lemma trace_dead p r o r1 : 0 <= p_max_alloc p -> dead r -> xread_trace p r = (o, r1) -> kept r r1 /\ (o = UB \/ o = Throw EIO).
Proof.
  intros HA H. rewrite xread_trace_eq. destruct (xread_trc_header p r) as [o1 r2] eqn:E.
  apply trc_header_dead in E as [-> E]; [|exact H]. destruct E as [-> | [-> | ->]].
  - intros K. injection K as <- <-. repeat split; auto.
  - intros K. injection K as <- <-. repeat split; auto.
  - unfold xtail. destruct (is_fixed _).
    + rewrite smpls_dead by exact H. intros K. injection K as <- <-. repeat split; auto.
    + cbn [hidx hget get_int]. cbv zeta. change (wrapu 64 (wrapu 64 0 * i_bps (x_i r))) with (wrapu 64 (0 * i_bps (x_i r))).
      rewrite Z.mul_0_l. change (wrapu 64 0) with 0.
      assert (Q : (if i_bufsz (x_i r) =? 0 then Ok 0 else resize_to p 0) = Ok 0).
      { destruct (_ =? _); [reflexivity|]. unfold resize_to. change (wrapu 64 0) with 0. cbv zeta.
        replace (0 <=? p_max_alloc p) with true by (symmetry; apply Z.leb_le; exact HA). reflexivity. }
      rewrite Q. rewrite smpls_dead by exact H. intros K. injection K as <- <-. repeat split; auto.
Qed.

Lemma header_dead p r o r1 : dead r -> xread_header p r = (o, r1) -> kept r r1 /\ (o = UB \/ o = Throw EIO).
Proof.
  intros H. rewrite xread_header_eq. destruct (xread_trc_header p r) as [o1 r2] eqn:E.
  apply trc_header_dead in E as [-> E]; [|exact H]. destruct E as [-> | [-> | ->]].
  - intros K. injection K as <- <-. repeat split; auto.
  - intros K. injection K as <- <-. repeat split; auto.
  - unfold xhtail. destruct (is_fixed _).
    + destruct (sarith 32 _) as [off|x|] eqn:Es.
      * unfold skip_bytes. rewrite on_file_dead by exact H. intros K. injection K as <- <-. repeat split; auto.
      * unfold sarith in Es. destruct (in_i 32 _); discriminate.
      * intros K. injection K as <- <-. repeat split; auto.
    + cbn [hidx hget get_int]. unfold skip_bytes. rewrite on_file_dead by exact H. intros K. injection K as <- <-. repeat split; auto.
Qed.
