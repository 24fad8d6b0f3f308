(** Lemmas about the SEG-Y writers: the file is a preamble followed by one
    record per trace (C16-C21). *)
From Verif Require Import BaseFacts Platform Fp TraceHdr SegyTypes SegyCodec CodecFacts SampleFacts
     HdrFacts ISegy OSegy OpenFacts LayoutSpec LayoutFacts BinFacts.

Definition at_end (f : file) : Prop := fpos f = len (fdata f).

Lemma fwrite_end d f : at_end f -> fdata (fwrite d f) = fdata f ++ d /\ at_end (fwrite d f).
Proof.
  unfold at_end. intros H. unfold fwrite. rewrite H, len_to_nat. cbn [fdata fpos].
  rewrite Nat.sub_diag. cbn [repeat]. rewrite app_nil_r, firstn_all, skipn_all2 by lia.
  rewrite app_nil_r. split; [reflexivity|]. rewrite len_app. reflexivity.
Qed.

Lemma empty_end : at_end empty_file.
Proof. reflexivity. Qed.

(** Overwriting inside the file. *)
Lemma fwrite_mid a b c d f : fdata f = a ++ b ++ c -> fpos f = len a -> len d = len b ->
  fdata (fwrite d f) = a ++ d ++ c /\ fpos (fwrite d f) = len a + len d.
Proof.
  intros E P L. unfold fwrite. cbn [fdata fpos]. rewrite P, len_to_nat, E. split; [|reflexivity].
  unfold len in L. rewrite !app_length.
  replace (List.length a - _)%nat with 0%nat by lia. cbn [repeat]. rewrite app_nil_r.
  rewrite firstn_app, Nat.sub_diag, firstn_all2 by lia. cbn [firstn]. rewrite app_nil_r. f_equal. f_equal.
  rewrite skipn_app. rewrite skipn_all2 by lia. cbn [app].
  replace (List.length a + List.length d - List.length a)%nat with (List.length b) by lia.
  rewrite skipn_app, Nat.sub_diag, skipn_all2 by lia. reflexivity.
Qed.

Lemma len_text (t : list Z) : 3200 <= len t -> len (firstn (Z.to_nat TEXT_HEADER_SIZE) t) = 3200.
Proof. unfold len. intros H. rewrite firstn_length. change (Z.to_nat TEXT_HEADER_SIZE) with (Z.to_nat 3200). lia. Qed.

Lemma write_text_end t f : at_end f -> 
  fdata (write_text t f) = fdata f ++ firstn (Z.to_nat TEXT_HEADER_SIZE) t /\ at_end (write_text t f).
Proof. apply fwrite_end. Qed.

Lemma write_bin_header_end e b f f' : len (fdata f) = 3200 -> write_bin_header e b f = Ok f' ->
  fdata f' = fdata f ++ bin_block e b /\ at_end f' /\ fpos f' = 3600.
Proof.
  intros L. unfold write_bin_header. rewrite bin_header_bytes_eq. cbn [bind].
  intros H. apply bind_ok in H as (f1 & E & H). injection H as <-.
  apply fseek_inv in E as (D & P & _).
  assert (A : at_end f1) by (unfold at_end; rewrite P, D, L; reflexivity).
  destruct (fwrite_end (bin_block e b) f1 A) as [E1 E2]. rewrite D in E1. split; [exact E1|]. split; [exact E2|].
  unfold at_end in E2. rewrite E2, E1, len_app, len_bin_block, L. reflexivity.
Qed.

Lemma write_bin_header_mid e b f f' a o c : fdata f = a ++ o ++ c -> len a = 3200 -> len o = 400 ->
  write_bin_header e b f = Ok f' ->
  fdata f' = a ++ bin_block e b ++ c /\ fpos f' = 3600.
Proof.
  intros D La Lo. unfold write_bin_header. rewrite bin_header_bytes_eq. cbn [bind].
  intros H. apply bind_ok in H as (f1 & E & H). injection H as <-.
  apply fseek_inv in E as (D1 & P & _). change TEXT_HEADER_SIZE with 3200 in P.
  destruct (fwrite_mid a o c (bin_block e b) f1) as [E1 E2]; try congruence.
  - rewrite len_bin_block. congruence.
  - split; [exact E1|]. rewrite E2, len_bin_block, La. reflexivity.
Qed.

(** ** Additional header blocks *)
Fixpoint add_blocks (p : platform) (e : endian) (ls : layouts) (h : hdr) (n : nat) : outcome (list Z) :=
  match n with
  | O => Ok []
  | S n' => match ls with
            | [] => let* r := add_blocks p e [] h n' in Ok (zeros 240 ++ r)
            | (_, l) :: ls' =>
              let* b := hdr_block p e l h in
              let* r := add_blocks p e ls' h n' in Ok (b ++ r)
            end
  end.

Lemma hdr_block_len p e l h b : hdr_block p e l h = Ok b -> len b = 240.
Proof.
  unfold hdr_block. assert (L : len (zeros TR_HEADER_SIZE) = 240) by reflexivity. revert L.
  generalize (zeros TR_HEADER_SIZE). induction l as [|a l IH]; intros z L H; cbn [wr_fields] in H.
  - injection H as <-. exact L.
  - apply bind_ok in H as (d & _ & H). apply bind_ok in H as (z1 & E & H). apply (IH z1); [|exact H].
    rewrite (upd_length _ _ _ _ E). exact L.
Qed.

Lemma write_additional_end p e h n : forall ls f f', at_end f -> write_additional p e ls h n f = Ok f' ->
  exists r, add_blocks p e ls h n = Ok r /\ fdata f' = fdata f ++ r /\ at_end f' /\ len r = 240 * Z.of_nat n.
Proof.
  induction n as [|n IH]; intros ls f f' A H.
  - cbn [write_additional] in H. destruct ls; injection H as <-; exists []; rewrite app_nil_r; auto.
  - destruct ls as [|[nm l] ls]; cbn [write_additional add_blocks] in *.
    + destruct (fwrite_end (zeros TR_HEADER_SIZE) f A) as [E1 E2].
      apply IH in H as (r & R & D & A' & L); [|exact E2]. rewrite R. cbn [bind]. eexists. split; [reflexivity|].
      split; [|split; [exact A'|]].
      * rewrite D, E1, <- app_assoc. reflexivity.
      * rewrite len_app, L, len_zeros by lia. lia.
    + apply bind_ok in H as (b & B & H). destruct (fwrite_end b f A) as [E1 E2].
      apply IH in H as (r & R & D & A' & L); [|exact E2]. rewrite B, R. cbn [bind]. eexists. split; [reflexivity|].
      split; [|split; [exact A'|]].
      * rewrite D, E1, <- app_assoc. reflexivity.
      * rewrite len_app, L, (hdr_block_len _ _ _ _ _ B). lia.
Qed.

(** ** Sample buffers *)
Lemma fill_samples_inv p e fmt smp sb sb' : fill_samples p e fmt smp sb = Ok sb' ->
  exists w encs, sample_writer p e fmt = Ok w /\ mapM w smp = Ok encs /\
    sb' = concat encs ++ skipn (List.length (concat encs)) sb /\ len sb' = len sb /\
    len (concat encs) <= len sb.
Proof.
  unfold fill_samples. intros H. apply bind_ok in H as (w & W & H). apply bind_ok in H as (encs & M & H).
  exists w, encs. split; [exact W|]. split; [exact M|]. assert (L := upd_length _ _ _ _ H).
  unfold upd in H. destruct (_ && _) eqn:C; [|discriminate]. injection H as <-.
  split; [|split; [exact L|lia]]. change (Z.to_nat 0) with 0%nat. cbn [firstn app].
  f_equal. f_equal. unfold len. lia.
Qed.

Lemma concat_len_const {A} (n : nat) (l : list (list A)) : Forall (fun x => List.length x = n) l ->
  len (concat l) = Z.of_nat n * len l.
Proof.
  induction 1 as [|x l Hx _ IH]; cbn [concat]; [unfold len; cbn; lia|]. rewrite len_app, len_cons, IH.
  unfold len at 1. lia.
Qed.

Lemma encs_len p e fmt w bps smp encs : sample_writer p e fmt = Ok w -> o_bytes_per_sample fmt = Some bps ->
  mapM w smp = Ok encs -> Forall (fun x => List.length x = Z.to_nat bps) encs /\
  len (concat encs) = bps * len smp /\ 1 <= bps.
Proof.
  intros W B M. destruct (sample_writer_width _ _ _ _ W) as (n & B' & Hn & K).
  rewrite B in B'. injection B' as ->.
  assert (F : Forall (fun x => List.length x = n) encs).
  { apply mapM_ok in M. clear - M K. induction M as [|a b la lb H _ IH]; constructor; auto. apply (K a b H). }
  rewrite Nat2Z.id. split; [exact F|]. split; [|lia].
  rewrite (concat_len_const _ _ F). apply mapM_length in M. unfold len. rewrite M. reflexivity.
Qed.

(** ** One trace *)

(** The bytes a trace is stored as, given the sample buffer before the call:
    header block, additional header blocks, sample area. *)
Definition add_count (s : osegy) : nat :=
  if o_add s then Z.to_nat (bh_max_num_add_tr_headers (o_bh s) - 1) else 0.

(** [stored p s sb t r smp]: [r] is what writer [s] with sample buffer [sb]
    stores for trace [t]; [smp] is the sample part, left in the buffer. *)
Definition stored (p : platform) (s : osegy) (sb : list Z) (t : trace) (r smp : list Z) : Prop :=
  exists hb ab, r = hb ++ ab ++ smp /\ len hb = 240 /\ len ab = 240 * Z.of_nat (add_count s) /\
    match o_maps s with [] => False | (_, l) :: ls =>
      hdr_block p (o_endian s) l (t_hdr t) = Ok hb /\
      add_blocks p (o_endian s) ls (t_hdr t) (add_count s) = Ok ab end /\
    exists sb1, (if o_var s then var_buf p (t_hdr t) (o_bps s) sb = Ok sb1 else sb1 = sb) /\
      fill_samples p (o_endian s) (bh_format_code (o_bh s)) (t_smp t) sb1 = Ok smp.

Fixpoint stored_all (p : platform) (s : osegy) (sb : list Z) (ts : list trace) (recs : list (list Z)) : Prop :=
  match ts, recs with
  | [], [] => True
  | t :: ts', r :: recs' => exists smp, stored p s sb t r smp /\ stored_all p s smp ts' recs'
  | _, _ => False
  end.

Lemma stored_len p s sb t r smp : stored p s sb t r smp -> 240 <= len r.
Proof.
  intros (hb & ab & -> & L & _). rewrite !len_app. pose proof (len_nonneg ab). pose proof (len_nonneg smp). lia.
Qed.

(** Everything but the file, the sample buffer and the binary header. *)
Definition same_cfg (s s' : osegy) : Prop :=
  o_maps s' = o_maps s /\ o_text s' = o_text s /\ o_stanzas s' = o_stanzas s /\ o_endian s' = o_endian s /\
  o_bps s' = o_bps s /\ o_first s' = o_first s /\ o_min s' = o_min s /\ o_add s' = o_add s /\ o_var s' = o_var s.

Lemma same_cfg_refl s : same_cfg s s.
Proof. repeat split. Qed.
Lemma same_cfg_trans a b c : same_cfg a b -> same_cfg b c -> same_cfg a c.
Proof. unfold same_cfg. intuition congruence. Qed.

Lemma o_upd_cfg s f b sb : same_cfg s (o_upd s f b sb).
Proof. repeat split. Qed.

(** The part of write_trace after the binary header was completed. *)
Definition write_body (p : platform) (s1 : osegy) (t : trace) : outcome osegy :=
  let* f1 := write_trace_header p (o_endian s1) (o_maps s1) (t_hdr t) (o_file s1) in
  let* f2 := (if o_add s1
              then write_additional p (o_endian s1) (tl (o_maps s1)) (t_hdr t)
                     (Z.to_nat (bh_max_num_add_tr_headers (o_bh s1) - 1)) f1
              else Ok f1) in
  let* sb := (if o_var s1 then var_buf p (t_hdr t) (o_bps s1) (o_sbuf s1)
              else Ok (o_sbuf s1)) in
  let* sb' := fill_samples p (o_endian s1) (bh_format_code (o_bh s1)) (t_smp t) sb in
  Ok (o_upd s1 (fwrite sb' f2) (o_bh s1) sb').

Lemma write_trace_body p s t : write_trace p s t =
  let* s1 := (match o_min s with MNone => Ok s | m => set_min p m (t_hdr t) s end) in write_body p s1 t.
Proof. reflexivity. Qed.

Lemma write_body_inv p s t s' : at_end (o_file s) -> write_body p s t = Ok s' ->
  exists r, stored p s (o_sbuf s) t r (o_sbuf s') /\ fdata (o_file s') = fdata (o_file s) ++ r /\
    at_end (o_file s') /\ same_cfg s s' /\ o_bh s' = o_bh s.
Proof.
  intros A H. unfold write_body in H. apply bind_ok in H as (f1 & E1 & H).
  apply bind_ok in H as (f2 & E2 & H). apply bind_ok in H as (sb1 & E3 & H).
  apply bind_ok in H as (smp & E4 & H). injection H as <-.
  unfold write_trace_header in E1. destruct (o_maps s) as [|[n l] ls] eqn:Em; [discriminate|].
  apply bind_ok in E1 as (hb & Eb & E1). injection E1 as <-.
  destruct (fwrite_end hb _ A) as [D1 A1].
  assert (X : exists ab, add_blocks p (o_endian s) ls (t_hdr t) (add_count s) = Ok ab /\
     fdata f2 = fdata (fwrite hb (o_file s)) ++ ab /\ at_end f2 /\ len ab = 240 * Z.of_nat (add_count s)).
  { unfold add_count. destruct (o_add s).
    - apply write_additional_end in E2 as (r & R & D & A' & L); [|exact A1]. cbn [tl] in R. eauto.
    - injection E2 as <-. exists []. cbn [add_blocks]. rewrite app_nil_r. auto. }
  destruct X as (ab & Ea & D2 & A2 & La).
  destruct (fwrite_end smp _ A2) as [D3 A3].
  exists (hb ++ ab ++ smp). cbn [o_upd o_file o_sbuf o_bh]. split; [|split; [|split; [|split]]].
  - exists hb, ab. split; [reflexivity|]. split; [eapply hdr_block_len; exact Eb|]. split; [exact La|].
    rewrite Em. split; [split; assumption|].
    exists sb1. split; [|exact E4]. destruct (o_var s); [exact E3|]. congruence.
  - rewrite D3, D2, D1, <- !app_assoc. reflexivity.
  - exact A3.
  - apply o_upd_cfg.
  - reflexivity.
Qed.

Lemma stored_cfg p s s' sb t r smp : same_cfg s s' -> o_bh s' = o_bh s ->
  stored p s sb t r smp -> stored p s' sb t r smp.
Proof.
  intros (C1 & C2 & C3 & C4 & C5 & C6 & C7 & C8 & C9) B (hb & ab & R & L1 & L2 & M & S).
  unfold stored, add_count in *. rewrite C1, C4, C5, C8, C9, B. exists hb, ab. auto.
Qed.
Lemma stored_all_cfg p s s' : same_cfg s s' -> o_bh s' = o_bh s ->
  forall ts sb recs, stored_all p s sb ts recs -> stored_all p s' sb ts recs.
Proof.
  intros C B. induction ts as [|t ts IH]; intros sb recs H; destruct recs as [|r recs]; cbn [stored_all] in *; auto.
  destruct H as (smp & H1 & H2). exists smp. split; [eapply stored_cfg; eassumption|auto].
Qed.
Lemma same_cfg_sym a b : same_cfg a b -> same_cfg b a.
Proof. unfold same_cfg. intuition congruence. Qed.

(** ** Completing the binary header *)
Lemma set_min_inv p m h s s1 : set_min p m h s = Ok s1 ->
  (s1 = s /\ fpos (o_file s) <> o_first s) \/
  (fpos (o_file s) = o_first s /\ same_cfg s s1 /\
   exists n si, hget h "SAMP_NUM" = Some (VInt n) /\ n <= 32767 /\
     o_bh s1 = set_samp_int (set_samp_per_tr (o_bh s) (wraps 16 n)) si /\ in_i 16 si = true /\
     in_i 64 (n * o_bps s) = true /\ resize_buf p (n * o_bps s) (o_sbuf s) = Ok (o_sbuf s1) /\
     write_bin_header (o_endian s) (o_bh s1) (o_file s) = Ok (o_file s1)).
Proof.
  unfold set_min. destruct (Z.eqb_spec (fpos (o_file s)) (o_first s)) as [E|E]; cbn [negb].
  2:{ intros H. injection H as <-. left. auto. }
  intros H. right. split; [exact E|].
  apply bind_ok in H as (v & Ev & H). apply bind_ok in H as (n & En & H).
  destruct (Z.ltb_spec 32767 n) as [Ln|Ln]; [discriminate|]. cbv zeta in H.
  apply bind_ok in H as (v2 & Ev2 & H). apply bind_ok in H as (d & Ed & H).
  destruct (d_lt _ _); [discriminate|]. apply bind_ok in H as (si & Es & H).
  destruct (Z.eqb_spec si 0) as [Zs|Zs]; [discriminate|].
  apply bind_ok in H as (bs & Eb & H). apply bind_ok in H as (sb & Er & H).
  apply bind_ok in H as (f1 & Ef & H). injection H as <-.
  split; [apply o_upd_cfg|]. exists n, si.
  unfold get_req in Ev. destruct (hget h "SAMP_NUM") as [v'|]; [|discriminate]. injection Ev as ->.
  destruct v as [z|dd]; [|discriminate]. injection En as ->.
  unfold sarith in Eb. destruct (in_i 64 _) eqn:I64; [|discriminate]. injection Eb as <-.
  cbn [o_upd o_bh o_sbuf o_file]. repeat split; auto.
  clear - Es. unfold d2s in Es. destruct (d_trunc d) as [z|].
  - destruct (in_i 16 z) eqn:E; [injection Es as <-; exact E|].
    destruct (p_d2u p 16 (Some z)); [|discriminate]. injection Es as <-. apply wraps_range. lia.
  - destruct (p_d2u p 16 None); [|discriminate]. injection Es as <-. apply wraps_range. lia.
Qed.

Lemma write_none p : forall ts s s', at_end (o_file s) -> o_min s = MNone \/ o_first s < fpos (o_file s) ->
  write_traces p s ts = Ok s' ->
  exists recs, stored_all p s (o_sbuf s) ts recs /\ fdata (o_file s') = fdata (o_file s) ++ concat recs /\
    at_end (o_file s') /\ same_cfg s s' /\ o_bh s' = o_bh s.
Proof.
  induction ts as [|t ts IH]; intros s s' A M H; cbn [write_traces] in H.
  - injection H as <-. exists []. cbn [stored_all concat]. rewrite app_nil_r. repeat split; auto.
  - apply bind_ok in H as (s2 & E & H). rewrite write_trace_body in E.
    apply bind_ok in E as (s1 & E1 & E2).
    assert (s1 = s) as ->.
    { destruct (o_min s) eqn:Em; [injection E1 as <-; reflexivity| |];
      (destruct M as [M|M]; [discriminate|]); apply set_min_inv in E1 as [[K _]|(K & _)]; auto; lia. }
    apply write_body_inv in E2 as (r & S & D & A2 & C & B); [|exact A].
    assert (M2 : o_min s2 = MNone \/ o_first s2 < fpos (o_file s2)).
    { destruct M as [M|M]; [left; destruct C as (_&_&_&_&_&_&C&_); congruence|right].
      assert (o_first s2 = o_first s) as -> by (destruct C as (_&_&_&_&_&C&_); exact C).
      unfold at_end in *. rewrite A2, D, len_app. pose proof (len_nonneg r). lia. }
    destruct (IH s2 s' A2 M2 H) as (recs & SA & D2 & A3 & C2 & B2).
    exists (r :: recs). cbn [stored_all concat]. split; [|split; [|split; [|split]]].
    + exists (o_sbuf s2). split; [exact S|]. eapply stored_all_cfg; [apply same_cfg_sym; exact C|congruence|exact SA].
    + rewrite D2, D, <- app_assoc. reflexivity.
    + exact A3.
    + eapply same_cfg_trans; eassumption.
    + congruence.
Qed.

(** A freshly opened writer: text header, binary header [b], extended text. *)
Definition ready (s : osegy) (txt : list Z) (b : bin_hdr) (ext : list Z) : Prop :=
  fdata (o_file s) = txt ++ bin_block (o_endian s) b ++ ext /\ len txt = 3200 /\
  at_end (o_file s) /\ o_first s = fpos (o_file s) /\ (o_min s <> MNone -> ext = []).

(** How the first trace completed the header of a writer opened with an
    all-zero binary header. *)
Definition completed (p : platform) (s : osegy) (h : hdr) (b : bin_hdr) (sb : list Z) : Prop :=
  exists n si, hget h "SAMP_NUM" = Some (VInt n) /\ n <= 32767 /\ in_i 16 si = true /\
    b = set_samp_int (set_samp_per_tr (o_bh s) (wraps 16 n)) si /\
    in_i 64 (n * o_bps s) = true /\ resize_buf p (n * o_bps s) (o_sbuf s) = Ok sb.

Lemma write_all p s txt b ext ts s' : ready s txt b ext -> write_traces p s ts = Ok s' ->
  exists s1 recs, same_cfg s s1 /\ same_cfg s s' /\ o_bh s' = o_bh s1 /\ at_end (o_file s') /\
    stored_all p s1 (o_sbuf s1) ts recs /\
    (((o_min s = MNone \/ ts = []) /\ s1 = s /\
      fdata (o_file s') = txt ++ bin_block (o_endian s) b ++ ext ++ concat recs) \/
     (exists t ts', o_min s <> MNone /\ ts = t :: ts' /\ completed p s (t_hdr t) (o_bh s1) (o_sbuf s1) /\
      fdata (o_file s') = txt ++ bin_block (o_endian s) (o_bh s1) ++ concat recs)).
Proof.
  intros (D & L & A & F & M) H.
  assert (Q : o_min s = MNone \/ o_min s <> MNone) by (destruct (o_min s); [left; reflexivity|right; discriminate..]).
  destruct Q as [Q|Q].
  - apply write_none in H as (recs & S & D' & A' & C & B); auto.
    exists s, recs. split; [apply same_cfg_refl|]. repeat (split; [assumption|]). left.
    split; [auto|]. split; [reflexivity|]. rewrite D', D, <- !app_assoc. reflexivity.
  - rewrite (M Q) in *. destruct ts as [|t ts].
    + injection H as <-. exists s, []. split; [apply same_cfg_refl|]. split; [apply same_cfg_refl|].
      split; [reflexivity|]. split; [exact A|]. split; [exact I|]. left. split; [auto|]. split; [reflexivity|].
      cbn [concat]. rewrite !app_nil_r. rewrite D, app_nil_r. reflexivity.
    + cbn [write_traces] in H. apply bind_ok in H as (s2 & E & H). rewrite write_trace_body in E.
      apply bind_ok in E as (s1 & E1 & E2).
      assert (E1' : set_min p (o_min s) (t_hdr t) s = Ok s1) by (destruct (o_min s); [contradiction|exact E1..]).
      clear E1. apply set_min_inv in E1' as [[_ K]|(_ & C1 & n & si & G & Ln & Eb & Hsi & I64 & Er & Ew)]; [lia|].
      rewrite app_nil_r in D.
      destruct (write_bin_header_mid _ _ _ _ txt (bin_block (o_endian s) b) [] ltac:(rewrite app_nil_r; exact D) L (len_bin_block _ _) Ew) as [D1 P1].
      rewrite app_nil_r in D1.
      assert (A1 : at_end (o_file s1)) by (unfold at_end; rewrite P1, D1, len_app, len_bin_block, L; reflexivity).
      apply write_body_inv in E2 as (r & S & D2 & A2 & C2 & B2); [|exact A1].
      assert (P2 : o_first s2 < fpos (o_file s2)).
      { assert (o_first s2 = o_first s) as ->.
        { destruct C1 as (_&_&_&_&_&C1&_), C2 as (_&_&_&_&_&C2&_). congruence. }
        rewrite F. unfold at_end in A, A2. rewrite A, A2, D2, D1, D, !len_app, !len_bin_block.
        apply stored_len in S. lia. }
      apply write_none in H as (recs & SA & D3 & A3 & C3 & B3); auto.
      exists s1, (r :: recs). split; [exact C1|]. split; [eapply same_cfg_trans; [exact C1|eapply same_cfg_trans; eassumption]|].
      split; [congruence|]. split; [exact A3|]. split.
      * cbn [stored_all]. exists (o_sbuf s2). split; [exact S|].
        eapply stored_all_cfg; [apply same_cfg_sym; exact C2|congruence|exact SA].
      * right. exists t, ts. split; [exact Q|]. split; [reflexivity|]. split.
        { exists n, si. auto 10. }
        rewrite D3, D2, D1. cbn [concat]. rewrite <- !app_assoc. reflexivity.
Qed.

(** ** Opening *)
Lemma combine_eqb : forall l1 l2 : list Z, List.length l1 = List.length l2 ->
  forallb (fun xy => fst xy =? snd xy) (combine l1 l2) = true -> l1 = l2.
Proof.
  induction l1 as [|x l1 IH]; intros [|y l2] L H; try discriminate; [reflexivity|].
  cbn [combine forallb fst snd] in H. apply andb_prop in H as [H1 H2]. apply Z.eqb_eq in H1.
  f_equal; [exact H1|]. apply IH; [injection L as L; exact L|exact H2].
Qed.
Lemma bin_eqb_eq a b : bin_eqb a b = true -> a = b.
Proof.
  unfold bin_eqb. intros H. apply combine_eqb in H; [|reflexivity].
  destruct a, b. unfold bin_fields in H. cbn in H. injection H as -> -> -> -> -> -> -> -> -> -> -> -> -> -> -> -> -> -> -> -> -> -> -> -> -> -> -> -> -> -> -> -> -> -> -> -> -> -> -> -> -> -> -> ->.
  reflexivity.
Qed.

(** The binary header with the default format filled in. *)
Definition with_fmt (b : bin_hdr) (d : Z) : bin_hdr := if bh_format_code b =? 0 then set_format_code b d else b.

Lemma resize_buf_inv p n b sb : resize_buf p n b = Ok sb ->
  len sb = wrapu 64 n /\ wrapu 64 n <= p_max_alloc p.
Proof.
  unfold resize_buf, resize_to. cbv zeta. destruct (Z.leb_spec (wrapu 64 n) (p_max_alloc p)) as [L|L]; [|discriminate].
  cbn [bind]. intros H. injection H as <-. split; [|exact L].
  pose proof (wrapu_bound 64 n ltac:(lia)).
  unfold len. rewrite app_length, firstn_length, repeat_length. lia.
Qed.

Definition first_text (t : list Z) : list Z := firstn (Z.to_nat TEXT_HEADER_SIZE) t.

Lemma first_text_id t : len t = 3200 -> first_text t = t.
Proof. intros H. unfold first_text. apply firstn_all2. unfold len in H. change TEXT_HEADER_SIZE with 3200. lia. Qed.

Lemma rev0_open_inv p txt bh ls s : rev0_open p txt bh ls = Ok s ->
  check_tr_hdr_map bh ls = Ok tt /\
  exists t, ((txt = [] /\ t = rev0_default_text) \/ (txt = t /\ len txt = 3200)) /\
    o_text s = [t] /\ ready s (first_text t) (o_bh s) [] /\ o_maps s = ls /\ o_add s = false /\ o_var s = false /\
    o_bh s = with_fmt bh 1 /\
    ((o_min s = MNone /\ resize_buf p (wrapu 16 (bh_samp_per_tr bh) * o_bps s) [] = Ok (o_sbuf s)) \/
     (o_min s <> MNone /\ o_sbuf s = [] /\ o_bh s = set_format_code bin_zero 1)).
Proof.
  unfold rev0_open. intros H. apply bind_ok in H as (u & E0 & H). destruct u.
  split; [exact E0|]. apply bind_ok in H as (t & Et & H). exists t. cbv zeta in H.
  split.
  { destruct txt as [|c txt]; [left; injection Et as <-; auto|right].
    unfold is_3200 in Et. destruct (Z.eqb_spec (len (c :: txt)) TEXT_HEADER_SIZE) as [E|E]; [|discriminate].
    injection Et as <-. split; [reflexivity|exact E]. }
  fold (with_fmt bh 1) in H. apply bind_ok in H as (e & Ee & H). apply bind_ok in H as (f2 & Ef & H).
  apply bind_ok in H as (w & _ & H). destruct (o_bytes_per_sample _) as [bps|]; [|discriminate].
  assert (Lt : len (first_text t) = 3200).
  { apply len_text. destruct txt as [|c txt]; [injection Et as <-; vm_compute; discriminate|].
    unfold is_3200 in Et. destruct (Z.eqb_spec (len (c :: txt)) TEXT_HEADER_SIZE) as [E|E]; [|discriminate].
    injection Et as <-. rewrite E. vm_compute. discriminate. }
  destruct (write_text_end t empty_file empty_end) as [D1 A1]. cbn [empty_file fdata app] in D1.
  apply write_bin_header_end in Ef as (D2 & A2 & P2); [|rewrite D1; exact Lt].
  rewrite D1 in D2. fold (first_text t) in D2.
  assert (Sp : bh_samp_per_tr (with_fmt bh 1) = bh_samp_per_tr bh) by (unfold with_fmt; destruct (_ =? 0); reflexivity).
  destruct (same_as _ _ _) eqn:Es.
  - injection H as <-. unfold ready. cbn [o_text o_file o_bh o_maps o_add o_var o_min o_sbuf o_first o_endian o_bps].
    rewrite app_nil_r. repeat split; auto. right. repeat split; try discriminate.
    unfold same_as in Es. apply andb_prop in Es as [Es _]. apply bin_eqb_eq, Es.
  - apply bind_ok in H as (sb & Er & H).
    injection H as <-. unfold ready. cbn [o_text o_file o_bh o_maps o_add o_var o_min o_sbuf o_first o_endian o_bps].
    rewrite app_nil_r. repeat split; auto. left. rewrite Sp in Er. auto.
Qed.

Lemma write_ext_end ts : forall f, at_end f ->
  let f' := fold_left (fun f t => write_text t f) ts f in
  fdata f' = fdata f ++ concat (map first_text ts) /\ at_end f'.
Proof.
  induction ts as [|t ts IH]; intros f A; cbn [fold_left map concat]; cbv zeta.
  - rewrite app_nil_r. auto.
  - destruct (write_text_end t f A) as [D1 A1]. destruct (IH _ A1) as [D2 A2].
    split; [|exact A2]. rewrite D2, D1, <- app_assoc. reflexivity.
Qed.

(** [texts d given used]: the text headers in use for those the caller gave. *)
Definition texts_used (d : list Z) (txts ts : list (list Z)) : Prop :=
  (txts = [] /\ ts = [d]) \/ (txts = ts /\ ts <> [] /\ Forall (fun t => len t = 3200) ts).

Lemma open12_file p d txts bh ts b e bps f : open_12 p d txts bh = Ok (ts, b, e, bps, f) ->
  3200 <= len d ->
  texts_used d txts ts /\
  b = set_ext_text_headers_num (with_fmt bh 5) (wraps 16 (wraps 32 (len ts - 1))) /\
  at_end f /\ exists t0 tr, ts = t0 :: tr /\ len (first_text t0) = 3200 /\
  fdata f = first_text t0 ++ bin_block e (with_fmt bh 5) ++ concat (map first_text tr).
Proof.
  unfold open_12. intros H Ld. apply bind_ok in H as (l & E1 & H). destruct l as [|t0 l]; [discriminate|].
  cbv zeta in H. fold (with_fmt bh 5) in H. apply bind_ok in H as (e' & E2 & H). apply bind_ok in H as (f2 & E3 & H).
  apply bind_ok in H as (w & E4 & H).
  destruct (o_bytes_per_sample _) as [bps'|]; [|discriminate]. injection H as <- <- <- <- <-.
  assert (U : texts_used d txts (t0 :: l)).
  { destruct txts as [|x txts]; [left; injection E1 as <- <-; auto|right].
    destruct (forallb is_3200 (x :: txts)) eqn:F; [|discriminate]. injection E1 as <- <-.
    split; [reflexivity|]. split; [discriminate|]. apply Forall_forall. rewrite forallb_forall in F.
    intros y Hy. apply F in Hy. apply Z.eqb_eq in Hy. exact Hy. }
  split; [exact U|]. split; [reflexivity|].
  assert (Lt : len (first_text t0) = 3200).
  { apply len_text. destruct U as [[_ U]|[_ [_ U]]]; [injection U as <- _; exact Ld|].
    inversion U; subst. lia. }
  destruct (write_text_end t0 empty_file empty_end) as [D1 A1]. cbn [empty_file fdata app] in D1.
  apply write_bin_header_end in E3 as (D2 & A2 & P2); [|rewrite D1; exact Lt].
  unfold write_ext_text. cbn [tl]. destruct (write_ext_end l f2 A2) as [D3 A3]. split; [exact A3|].
  exists t0, l. split; [reflexivity|]. split; [exact Lt|]. rewrite D3, D2, D1, <- app_assoc. reflexivity.
Qed.

Lemma ext_zero {A} (ts : list A) : ts <> [] -> len ts <= 65536 -> wraps 16 (wraps 32 (len ts - 1)) = 0 -> len ts = 1.
Proof.
  intros N L H. assert (1 <= len ts) by (destruct ts; [congruence|rewrite len_cons; pose proof (len_nonneg ts); lia]).
  rewrite (wraps_id 32) in H; [|lia|unfold in_i; change (32 - 1) with 31; lia].
  assert (K : wrapu 16 (wraps 16 (len ts - 1)) = 0) by (rewrite H; reflexivity).
  rewrite wrapu_wraps, wrapu_small in K by lia. lia.
Qed.

Definition set_ext_num (bh : bin_hdr) (ts : list (list Z)) : bin_hdr :=
  set_ext_text_headers_num bh (wraps 16 (wraps 32 (len ts - 1))).

Lemma rev1_open_inv p txts bh ls s : rev1_open p txts bh ls = Ok s -> len txts <= 65536 ->
  check_tr_hdr_map bh ls = Ok tt /\
  exists t0 tr, let ts := t0 :: tr in texts_used rev1_default_text txts ts /\
    o_text s = ts /\ ready s (first_text t0) (with_fmt bh 5) (concat (map first_text tr)) /\
    o_maps s = ls /\ o_add s = false /\ o_bh s = set_ext_num (with_fmt bh 5) ts /\
    ((o_min s <> MNone /\ o_sbuf s = [] /\ o_bh s = set_format_code bin_zero 5 /\ o_var s = true) \/
     (o_min s = MNone /\ bh_fixed_tr_length bh <> 0 /\ o_var s = false /\
      resize_buf p (wrapu 16 (bh_samp_per_tr bh) * o_bps s) [] = Ok (o_sbuf s)) \/
     (o_min s = MNone /\ bh_fixed_tr_length bh = 0 /\ o_var s = true /\ o_sbuf s = [])).
Proof.
  unfold rev1_open. intros H Hn. apply bind_ok in H as (u & E0 & H). destruct u.
  split; [exact E0|]. apply bind_ok in H as ([[[[ts b] e] bps] f] & E & H).
  apply open12_file in E as (U & Eb & A & t0 & tr & -> & L & D); [|vm_compute; discriminate].
  exists t0, tr. cbv zeta. split; [exact U|].
  assert (Lts : len (t0 :: tr) <= 65536).
  { destruct U as [[_ U]|[U _]]; [injection U as -> ->; vm_compute; discriminate|congruence]. }
  assert (Sp : bh_samp_per_tr b = bh_samp_per_tr bh) by (rewrite Eb; unfold with_fmt; destruct (bh_format_code bh =? 0); reflexivity).
  assert (Fx : bh_fixed_tr_length b = bh_fixed_tr_length bh) by (rewrite Eb; unfold with_fmt; destruct (bh_format_code bh =? 0); reflexivity).
  destruct (same_as _ _ _) eqn:Es; [|destruct (Z.eqb_spec (bh_fixed_tr_length b) 0) as [Z0|Z0]; cbn [negb] in H].
  - injection H as <-. unfold ready. cbn [o_text o_file o_bh o_maps o_add o_var o_min o_sbuf o_first o_endian o_bps].
    unfold same_as in Es. apply andb_prop in Es as [Es _]. apply bin_eqb_eq in Es.
    assert (tr = []) as ->.
    { rewrite Eb in Es. apply (f_equal bh_ext_text_headers_num) in Es. cbn [bh_ext_text_headers_num set_ext_text_headers_num] in Es.
      apply ext_zero in Es; [|discriminate|exact Lts]. rewrite len_cons in Es. apply len_0. lia. }
    repeat split; auto. left. repeat split; auto. discriminate.
  - injection H as <-. unfold ready. cbn [o_text o_file o_bh o_maps o_add o_var o_min o_sbuf o_first o_endian o_bps].
    repeat split; auto; try congruence. right. right. repeat split; auto; congruence.
  - apply bind_ok in H as (sb & Er & H). injection H as <-. unfold ready. cbn [o_text o_file o_bh o_maps o_add o_var o_min o_sbuf o_first o_endian o_bps].
    repeat split; auto; try congruence. right. left. rewrite Sp in Er. repeat split; auto; congruence.
Qed.

Lemma rev2_open_inv p txts bh st ls s : rev2_open p txts bh st ls = Ok s -> len txts <= 65536 ->
  check_tr_hdr_map bh ls = Ok tt /\ Forall (fun t => len t = 3200) st /\ o_stanzas s = st /\
  exists t0 tr, let ts := t0 :: tr in texts_used rev2_default_text txts ts /\
    o_text s = ts /\ ready s (first_text t0) (with_fmt bh 5) (concat (map first_text tr)) /\
    o_maps s = ls /\ o_add s = negb (bh_max_num_add_tr_headers bh =? 0) /\ o_bh s = set_ext_num (with_fmt bh 5) ts /\
    ((o_min s <> MNone /\ o_sbuf s = [] /\ o_bh s = set_format_code bin_zero 5 /\ o_var s = true) \/
     (o_min s = MNone /\ bh_fixed_tr_length bh <> 0 /\ o_var s = false /\
      resize_buf p (wrapu 16 (bh_samp_per_tr bh) * o_bps s) [] = Ok (o_sbuf s)) \/
     (o_min s = MNone /\ bh_fixed_tr_length bh = 0 /\ o_var s = true /\ o_sbuf s = [])).
Proof.
  unfold rev2_open. intros H Hn. apply bind_ok in H as (u & E0 & H). destruct u.
  split; [exact E0|]. apply bind_ok in H as (u1 & _ & H). apply bind_ok in H as (u2 & Est & H).
  split.
  { destruct (forallb is_3200 st) eqn:F; [|discriminate]. apply Forall_forall. rewrite forallb_forall in F.
    intros y Hy. apply F in Hy. apply Z.eqb_eq in Hy. exact Hy. }
  apply bind_ok in H as ([[[[ts b] e] bps] f] & E & H). cbv zeta in H.
  apply open12_file in E as (U & Eb & A & t0 & tr & -> & L & D); [|vm_compute; discriminate].
  assert (Lts : len (t0 :: tr) <= 65536).
  { destruct U as [[_ U]|[U _]]; [injection U as -> ->; vm_compute; discriminate|congruence]. }
  assert (Sp : bh_samp_per_tr b = bh_samp_per_tr bh) by (rewrite Eb; unfold with_fmt; destruct (bh_format_code bh =? 0); reflexivity).
  assert (Fx : bh_fixed_tr_length b = bh_fixed_tr_length bh) by (rewrite Eb; unfold with_fmt; destruct (bh_format_code bh =? 0); reflexivity).
  assert (Ad : bh_max_num_add_tr_headers b = bh_max_num_add_tr_headers bh) by (rewrite Eb; unfold with_fmt; destruct (bh_format_code bh =? 0); reflexivity).
  destruct (same_as _ _ _) eqn:Es; [|destruct (Z.eqb_spec (bh_fixed_tr_length b) 0) as [Z0|Z0]; cbn [negb] in H].
  - injection H as <-. unfold ready. cbn [o_text o_file o_bh o_maps o_add o_var o_min o_sbuf o_first o_endian o_bps o_stanzas].
    unfold same_as in Es. apply andb_prop in Es as [Es _]. apply bin_eqb_eq in Es.
    split; [reflexivity|]. exists t0, tr. cbv zeta. split; [exact U|].
    assert (tr = []) as ->.
    { rewrite Eb in Es. apply (f_equal bh_ext_text_headers_num) in Es. cbn [bh_ext_text_headers_num set_ext_text_headers_num] in Es.
      apply ext_zero in Es; [|discriminate|exact Lts]. rewrite len_cons in Es. apply len_0. lia. }
    rewrite Ad.
    repeat split; auto. left. repeat split; auto; [discriminate|]. rewrite Es. reflexivity.
  - injection H as <-. unfold ready. cbn [o_text o_file o_bh o_maps o_add o_var o_min o_sbuf o_first o_endian o_bps o_stanzas].
    split; [reflexivity|]. exists t0, tr. cbv zeta. rewrite Ad.
    repeat split; auto; try congruence. right. right. repeat split; auto; congruence.
  - apply bind_ok in H as (sb & Er & H). injection H as <-. unfold ready. cbn [o_text o_file o_bh o_maps o_add o_var o_min o_sbuf o_first o_endian o_bps o_stanzas].
    split; [reflexivity|]. exists t0, tr. cbv zeta. rewrite Ad.
    repeat split; auto; try congruence. right. left. rewrite Sp in Er. repeat split; auto; congruence.
Qed.
