(** Opening an arbitrary SEG-D file of revision 3. *)
From Coq Require Import Reals Lra.
From Verif Require Import BaseFacts Bcd BcdSpec BcdFacts BcdFacts2 Platform CodecSpec CodecFacts Fp FpSpec TraceHdr
  SegyTypes SegyCodec ISegy SegdTypes SegdSpec SegdDecSpec Segd3Spec ISegd OpenFacts ReadFacts2 NibFacts SegdHdrFacts
  SegdFileFacts SegdDecFacts SegdOpenFacts.
Local Open Scope Z_scope.

(** ** General headers 2 and 3 *)

Lemma gh2_dec3 p o b : p_left_first p = true -> bytes b -> List.length b = 32%nat ->
  exists g c, rd_gh2_rev3 p (byt b 10) (byt b 11) o b = Ok (g, c) /\ gh2_front b g /\
    g2_add_blocks g = big b 18 2 /\ g2_external_blocks g = big b 22 3 /\
    g2_record_len g = g2_record_len o /\ g2_record_set g = big b 16 2 /\
    g2_sampling_int g = big b 20 2 /\ g2_block_num g = byt b 26.
Proof.
  intros Hp Hb L. eexists _, _. split.
  - change b with (skipn 0 b) at 3. unfold rd_gh2_rev3. repeat dstep. reflexivity.
  - unfold gh2_front. cbn. conj.
Qed.

Lemma gh3_dec b : bytes b -> List.length b = 32%nat -> exists g c, rd_gh3 b = Ok (g, c) /\ gh3_of b g.
Proof.
  intros Hb L. eexists _, _. split.
  - change b with (skipn 0 b) at 1. unfold rd_gh3. repeat dstep. reflexivity.
  - unfold gh3_of. cbn. conj.
Qed.

(** ** Additional blocks *)

Definition fsize (f : bfield) : nat :=
  match f with BU n => n | BI16 => 2 | BU24 => 3 | BFix => 5 | BBcd2 => 1 | BTxt n => n | BPad n => n end.
Definition fval (b : list Z) (o : nat) (f : bfield) : list bval :=
  match f with
  | BU n => [BInt (big b o n)]
  | BI16 => [BInt (wraps 16 (big b o 2))]
  | BU24 => [BInt (big b o 3)]
  | BFix => [BDbl (fix16 (big b o 3) (big b (o + 3) 2))]
  | BBcd2 => [BInt (dec b (2 * o) 2)]
  | BTxt n => [BText (firstn n (skipn o b))]
  | BPad n => []
  end.
Fixpoint fvals (b : list Z) (o : nat) (fs : list bfield) : list bval :=
  match fs with [] => [] | f :: fs' => fval b o f ++ fvals b (o + fsize f) fs' end.
Definition fsizes (fs : list bfield) : nat := fold_right (fun f n => fsize f + n)%nat 0%nat fs.

Lemma rd_bfield_dec p b k f : p_left_first p = true -> bytes b -> (k + fsize f <= List.length b)%nat ->
  rd_bfield p f (skipn k b) = Ok (fval b k f, skipn (k + fsize f) b).
Proof.
  intros Hp Hb Hl. destruct f; cbn [rd_bfield fval fsize] in *.
  - eapply S_u; [assumption|lia|reflexivity|]. reflexivity.
  - eapply S_u; [assumption|lia|reflexivity|]. reflexivity.
  - eapply S_u24; [assumption|assumption|lia|reflexivity|]. reflexivity.
  - eapply S_u24; [assumption|assumption|lia|reflexivity|]. eapply S_u; [assumption|lia|reflexivity|].
    replace (k + 3 + 2)%nat with (k + 5)%nat by lia. reflexivity.
  - eapply S_bcd; [assumption|lia|cbn; lia|reflexivity|reflexivity|]. cbn [lead].
    replace (2 * k + 0)%nat with (2 * k)%nat by lia. reflexivity.
  - eapply S_take; [lia|reflexivity|]. reflexivity.
  - eapply S_skip; [lia|reflexivity|]. reflexivity.
Qed.

Lemma rd_bfields_dec p b : p_left_first p = true -> bytes b -> forall fs k, (k + fsizes fs <= List.length b)%nat ->
  rd_bfields p fs (skipn k b) = Ok (fvals b k fs, skipn (k + fsizes fs) b).
Proof.
  intros Hp Hb. induction fs as [|f fs IH]; intros k Hl; cbn [rd_bfields fvals fsizes fold_right] in *.
  - rewrite Nat.add_0_r. reflexivity.
  - fold (fsizes fs) in *. rewrite (pbind_ok _ _ _ _ _ (rd_bfield_dec p b k f Hp Hb ltac:(lia))).
    rewrite (pbind_ok _ _ _ _ _ (IH (k + fsize f)%nat ltac:(lia))). rewrite Nat.add_assoc. reflexivity.
Qed.

Lemma fix5_pos b k : bytes b -> (k + 5 <= List.length b)%nat -> byt b k < 128 ->
  fixv (fix16 (big b k 3) (big b (k + 3) 2)) (as_signed 5 (big b k 5)) 16.
Proof.
  intros Hb Hl H. pose proof (fix5 b k Hb Hl) as F.
  replace (wraps 24 (big b k 3)) with (big b k 3) in F; [exact F|]. symmetry.
  pose proof (big_app b k 1 2 ltac:(lia)) as E. change (1 + 2)%nat with 3%nat in E. rewrite big1 in E by lia.
  pose proof (big_range b (k + 1) 2 Hb ltac:(lia)) as R. change (256 ^ Z.of_nat 2) with 65536 in *.
  pose proof (byt_range b k Hb). unfold wraps. change (24 - 1) with 23. rewrite Z.mod_small by lia. destruct (Z.ltb_spec (big b k 3) (2 ^ 23)); lia.
Qed.

Definition table_types : list Z :=
  [0x10; 0x11; 0x12; 0x13; 0x14; 0x15; 0x16; 0x17; 0x18; 0x19; 0x1f; 0x20; 0x21; 0x43; 0x44; 0x45; 0x50; 0x51; 0x52;
   0x55; 0x56; 0x60; 0x61].

Ltac each_type H := cbn [In table_types] in H; repeat (destruct H as [H|H]; [|]); [..|destruct H].

Lemma fields_cases ty fs : block_fields ty = Some fs -> ty = 0x41 \/ In ty table_types.
Proof.
  unfold block_fields. intros H.
  repeat match type of H with
         | match ?x with _ => _ end = _ => is_var x; destruct x
         end; try discriminate H; vm_compute; tauto.
Qed.

Lemma block_dec p b ty : p_left_first p = true -> bytes b -> List.length b = 32%nat -> In ty table_types ->
  exists fs vs c t, block_fields ty = Some fs /\ rd_bfields p fs b = Ok (vs, c) /\ rpeek c = Ok (t, c) /\
    (block_members ty <> None -> t = byt b 31) /\ block_shown ty b vs.
Proof.
  intros Hp Hb L H.
  assert (X : forall fs, block_fields ty = Some fs -> (fsizes fs < 32)%nat ->
    (block_members ty <> None -> fsizes fs = 31%nat) -> block_shown ty b (fvals b 0 fs) ->
    exists fs vs c t, block_fields ty = Some fs /\ rd_bfields p fs b = Ok (vs, c) /\ rpeek c = Ok (t, c) /\
    (block_members ty <> None -> t = byt b 31) /\ block_shown ty b vs).
  { intros fs E S M B. pose proof (rd_bfields_dec p b Hp Hb fs 0 ltac:(lia)) as D. cbn [skipn] in D.
    exists fs, (fvals b 0 fs), (skipn (0 + fsizes fs) b), (byt b (0 + fsizes fs)). split; [exact E|]. split; [exact D|].
    split; [apply D_peek; lia|]. split; [intros N; rewrite (M N); reflexivity|exact B]. }
  assert (F3 := fix5_pos b 3 Hb ltac:(lia)). assert (F8 := fix5_pos b 8 Hb ltac:(lia)). cbn [Nat.add] in F3, F8.
  assert (Sg : forall k, wraps 16 (big b k 2) = as_signed 2 (big b k 2)) by (intros k; rewrite as_signed_wraps by lia; reflexivity).
  each_type H; subst ty; (eapply X; [reflexivity|vm_compute; lia|first [intros _; reflexivity|intros N; exfalso; apply N; reflexivity]|]); unfold block_shown; cbn [block_members source_mid];
    cbn [fvals fval fsize Nat.add app].
  all: try (repeat constructor; fail).
  all: match goal with |- exists vs1 vs2, ?l = _ /\ _ =>
         exists (firstn (List.length l - 4) l), (skipn (List.length l - 4) l) end;
       (split; [symmetry; apply firstn_skipn|]); (split; [reflexivity|]); intros N1 N2;
       cbn [List.length Nat.sub firstn];
       repeat (constructor; [first [reflexivity | (eexists; split; [reflexivity|]; auto; fail) | (cbn [shows]; rewrite Sg; reflexivity)]|]).
  all: constructor.
Qed.

(** The blocks [bl] have been read into the map [m]. *)
Definition blk3_inv (bl : list (list Z)) (m : blkmap) : Prop :=
  sorted m /\
  (forall kb, In kb m -> exists x vs t, snd kb = A3 (fst kb) vs t /\ In (fst kb) table_types /\
     last_of bl (fst kb) x /\ (block_members (fst kb) <> None -> t = fst kb) /\
     (bytes x /\ List.length x = 32%nat) /\ block_shown (fst kb) x vs) /\
  (forall x, In x bl -> In (type_of x) table_types -> In (type_of x) (map fst m)).

Lemma last_of_snoc bl k x y : last_of bl k x -> type_of y <> k -> last_of (bl ++ [y]) k x.
Proof.
  intros (i & Li & Lk & Lj) N. exists i. assert (Qi : (i < List.length bl)%nat) by (apply nth_error_Some; congruence).
  split; [rewrite nth_error_app1 by exact Qi; exact Li|]. split; [exact Lk|].
  intros j z Hj Hn. destruct (Nat.ltb_spec j (List.length bl)) as [Q|Q].
  - rewrite nth_error_app1 in Hn by exact Q. exact (Lj j z Hj Hn).
  - rewrite nth_error_app2 in Hn by exact Q. destruct (j - List.length bl)%nat as [|[|]]; cbn in Hn; try discriminate.
    injection Hn as <-. exact N.
Qed.
Lemma last_of_last bl x : last_of (bl ++ [x]) (type_of x) x.
Proof.
  exists (List.length bl). split; [rewrite nth_error_app2, Nat.sub_diag by lia; reflexivity|]. split; [reflexivity|].
  intros j y Hj Hn. exfalso. assert (Q : nth_error (bl ++ [x]) j <> None) by congruence. apply nth_error_Some in Q.
  rewrite app_length in Q. cbn in Q. lia.
Qed.

Lemma types_small : forall ty, In ty table_types -> 0 <= ty < 128.
Proof.
  assert (F : forallb (fun t => (0 <=? t) && (t <? 128)) table_types = true) by reflexivity.
  rewrite forallb_forall in F. intros ty H. specialize (F ty H). lia.
Qed.

Lemma blk3_step p bl m b : p_left_first p = true -> bytes b -> List.length b = 32%nat -> blk3_inv bl m ->
  (type_of b = 0x41 /\ rd_r3_block p m b = UB) \/
  (type_of b <> 0x41 /\ exists m', rd_r3_block p m b = Ok m' /\ blk3_inv (bl ++ [b]) m').
Proof.
  intros Hp Hb L (S & I & K). unfold rd_r3_block.
  assert (A : at_off b 31 = Ok (skipn 31 b)).
  { unfold at_off. unfold len. rewrite L. reflexivity. }
  rewrite A. cbn [bind]. rewrite (D_peek b 31) by lia. cbn [bind]. fold (type_of b).
  assert (R : 0 <= type_of b < 256) by apply byt_range, Hb.
  destruct (Z.ltb_spec (type_of b) 128) as [Sm|Big].
  - replace (wraps 8 (type_of b)) with (type_of b)
      by (unfold wraps; change (8 - 1) with 7; rewrite Z.mod_small by lia; destruct (Z.ltb_spec (type_of b) (2 ^ 7)); lia).
    destruct (block_fields (type_of b)) as [fs|] eqn:Ef.
    + destruct (fields_cases _ _ Ef) as [E|Hin].
      * left. split; [exact E|]. rewrite E in Ef. cbn in Ef. injection Ef as <-.
        change (rd_bfields p [BU 8; BU 4; BU 1; BTxt 28] b) with
          (pbind (rd_bfield p (BU 8)) (fun v => pbind (rd_bfields p [BU 4; BU 1; BTxt 28]) (fun vs => pret (v ++ vs))) (skipn 0 b)).
        rewrite (pbind_ok _ _ _ _ _ (rd_bfield_dec p b 0 (BU 8) Hp Hb ltac:(cbn; lia))). cbn [fsize Nat.add].
        change (rd_bfields p [BU 4; BU 1; BTxt 28]) with
          (pbind (rd_bfield p (BU 4)) (fun v => pbind (rd_bfields p [BU 1; BTxt 28]) (fun vs => pret (v ++ vs)))).
        unfold pbind at 1. rewrite (pbind_ok _ _ _ _ _ (rd_bfield_dec p b 8 (BU 4) Hp Hb ltac:(cbn; lia))). cbn [fsize Nat.add].
        change (rd_bfields p [BU 1; BTxt 28]) with
          (pbind (rd_bfield p (BU 1)) (fun v => pbind (rd_bfields p [BTxt 28]) (fun vs => pret (v ++ vs)))).
        unfold pbind at 1. rewrite (pbind_ok _ _ _ _ _ (rd_bfield_dec p b 12 (BU 1) Hp Hb ltac:(cbn; lia))). cbn [fsize Nat.add].
        unfold rd_bfields, pbind at 1 2, rd_bfield, pbind at 1, ptake.
        destruct (Nat.leb_spec 28 (List.length (skipn 13 b))) as [Q|Q]; [rewrite skipn_length in Q; lia|reflexivity].
      * right. split; [intros E; rewrite E in Hin; vm_compute in Hin; intuition discriminate|].
        destruct (block_dec p b _ Hp Hb L Hin) as (fs' & vs & c & t & Ef' & Er & Et & Hty & Hs).
        assert (fs' = fs) by congruence. subst fs'. rewrite Er. cbn [bind]. rewrite Et. cbn [bind]. eexists. split; [reflexivity|].
        split; [apply bset_sorted, S|]. split.
        -- intros kb Hkb. destruct (bset_in' _ _ _ _ S Hkb) as [->|[H1 H2]].
           ++ exists b, vs, t. cbn [fst snd]. split; [reflexivity|]. split; [exact Hin|]. split; [apply last_of_last|]. split; [exact Hty|]. split; [split; [exact Hb|exact L]|exact Hs].
           ++ destruct (I kb H1) as (x & vs' & t' & E1 & E2 & E3 & E4 & E5). exists x, vs', t'. split; [exact E1|]. split; [exact E2|].
              split; [apply last_of_snoc; [exact E3|auto]|]. split; [exact E4|exact E5].
        -- intros x Hx Ht. rewrite bset_keys. apply in_app_iff in Hx as [Hx|[<-|[]]]; [right; exact (K x Hx Ht)|left; auto].
    + right. assert (N : ~ In (type_of b) table_types).
      { intros Hin. destruct (block_dec p b _ Hp Hb L Hin) as (fs' & _ & _ & _ & Ef' & _). congruence. }
      split; [intros E; rewrite E in Ef; discriminate|]. exists m. split; [reflexivity|]. split; [exact S|]. split.
      * intros kb Hkb. destruct (I kb Hkb) as (x & vs' & t' & E1 & E2 & E3 & E4 & E5). exists x, vs', t'. split; [exact E1|].
        split; [exact E2|]. split; [apply last_of_snoc; [exact E3|congruence]|]. split; [exact E4|exact E5].
      * intros x Hx Ht. apply in_app_iff in Hx as [Hx|[<-|[]]]; [exact (K x Hx Ht)|contradiction].
  - right. split; [lia|].
    assert (W : wraps 8 (type_of b) = type_of b - 256).
    { unfold wraps. change (8 - 1) with 7. rewrite Z.mod_small by lia. destruct (Z.ltb_spec (type_of b) (2 ^ 7)); lia. }
    destruct (block_fields (wraps 8 (type_of b))) as [fs|] eqn:Ef.
    { exfalso. destruct (fields_cases _ _ Ef) as [E|Hin]; [lia|]. apply types_small in Hin. lia. }
    exists m. split; [reflexivity|]. split; [exact S|]. split.
    + intros kb Hkb. destruct (I kb Hkb) as (x & vs' & t' & E1 & E2 & E3 & E4 & E5). exists x, vs', t'. split; [exact E1|].
      split; [exact E2|]. split; [apply last_of_snoc; [exact E3|intros E; apply types_small in E2; lia]|]. split; [exact E4|exact E5].
    + intros x Hx Ht. apply in_app_iff in Hx as [Hx|[<-|[]]]; [exact (K x Hx Ht)|]. apply types_small in Ht. lia.
Qed.

(** [reads] with the safety part under the condition [C]. *)
Definition reads_if {A} (C : Prop) (x : outcome (A * file)) (f : file) (n : Z) (R : A -> Prop) : Prop :=
  (C -> x <> UB) /\
  (forall a f', x = Ok (a, f') -> fdata f' = fdata f /\ fpos f' = fpos f + n /\ R a) /\
  (C -> fpos f + n <= len (fdata f) -> exists r, x = Ok r).

Definition no_sensor (bl : list (list Z)) : Prop := forall x, In x bl -> type_of x <> 0x41.

Lemma rd_r3_blocks_reads p n : p_left_first p = true -> forall f m bl, good_file f -> blk3_inv bl m ->
  reads_if (no_sensor (blocks32 (fdata f) (fpos f) n)) (rd_r3_blocks p n f m) f (32 * Z.of_nat n)
    (blk3_inv (bl ++ blocks32 (fdata f) (fpos f) n)).
Proof.
  intros Hp. induction n as [|n IH]; intros f m bl G I; cbn [rd_r3_blocks].
  - split; [discriminate|]. split; [|intros _ _; eexists; reflexivity]. intros a f' E. injection E as <- <-.
    cbn. rewrite app_nil_r. split; [reflexivity|]. split; [lia|exact I].
  - destruct (reads_fread f G) as (U & S & C). change GEN_HDR_SIZE with 32.
    destruct (fread 32 f) as [[b f1]|e|]; [|split; [discriminate|]; split; [discriminate|];
      intros _ H; destruct C as [? C]; [lia|discriminate]|contradiction].
    destruct (S _ _ eq_refl) as (D1 & P1 & B & Bb & L & _). cbn [bind].
    assert (G1 : good_file f1).
    { destruct G as (Gb & Gp & Gl). unfold good_file. rewrite D1, P1. split; [exact Gb|]. split; [lia|exact Gl]. }
    assert (Eb : blocks32 (fdata f) (fpos f) (Datatypes.S n) = b :: blocks32 (fdata f1) (fpos f1) n)
      by (rewrite blocks32_S, <- B, D1, P1; reflexivity).
    rewrite Eb. destruct (blk3_step p bl m b Hp Bb L I) as [[Et Eu]|[Nt (m' & Em & I')]].
    + rewrite Eu. cbn [bind]. split; [intros N; exfalso; exact (N b (or_introl eq_refl) Et)|]. split; [discriminate|].
      intros N. exfalso. exact (N b (or_introl eq_refl) Et).
    + rewrite Em. cbn [bind]. destruct (IH f1 m' (bl ++ [b]) G1 I') as (U1 & S1 & C1).
      assert (W : no_sensor (b :: blocks32 (fdata f1) (fpos f1) n) -> no_sensor (blocks32 (fdata f1) (fpos f1) n)).
      { intros N x Hx. apply N. right. exact Hx. }
      split; [auto|]. split.
      * intros a f' E. destruct (S1 a f' E) as (E1 & E2 & E3). rewrite E1, E2, P1, D1. split; [reflexivity|].
        split; [lia|]. rewrite <- app_assoc, D1, P1 in E3. exact E3.
      * intros N H. apply C1; [auto|]. rewrite D1, P1. lia.
Qed.

(** ** Channel sets *)

Lemma chset_dec3 p b : p_left_first p = true -> bytes b -> List.length b = 96%nat ->
  exists v c, rd_chset_r3 p b = Ok (v, c) /\ chset_of3 b v /\ c_descale v = i2d (big b 16 4) /\
    c_filter_delay v = Some (wrapu 8 (big b 64 4)).
Proof.
  intros Hp Hb L. eexists _, _. split.
  - change b with (skipn 0 b) at 1. unfold rd_chset_r3. repeat dstep. reflexivity.
  - unfold chset_of3. cbn [c_scan_type c_number c_start c_end c_descale c_filter_delay
      c_channels c_type c_subscans c_gain c_alias_freq c_alias_slope c_low_freq c_low_slope c_notch1 c_notch2
      c_notch3 c_ext_num c_ext_flag c_hdr_ext c_vert_stack c_streamer c_array c_r3]. split; [|split; reflexivity].
    conj.
    + change 56%nat with (2 * 28)%nat. rewrite (high_nib b 28) by (rewrite L; lia). apply flag_dec. apply byt_range, Hb.
    + apply (low_nib b 28). rewrite L; lia.
    + eexists. split; [reflexivity|]. cbn. conj.
Qed.

Lemma reads_fread96 f : good_file f -> reads (fread 96 f) f 96
  (fun b => b = slice (fpos f) 96 (fdata f) /\ bytes b /\ List.length b = 96%nat).
Proof.
  intros (Gb & Gp & Gl). split; [apply fread_not_ub|]. split.
  - intros b f' E. pose proof (fread_bytes _ _ _ _ Gb E) as Bb.
    destruct (fread_ok 96 f b f' ltac:(lia) E Gp) as (L & S & D & P). split; [exact D|]. split; [exact P|].
    split; [exact S|]. split; [exact Bb|]. unfold len in L; lia.
  - intros H. unfold fread. destruct (Z.leb_spec (fpos f + 96) (len (fdata f))) as [L|L]; [|lia].
    eexists. reflexivity.
Qed.

Lemma blocks96_S b o n : blocks96 b o (S n) = slice o 96 b :: blocks96 b (o + 96) n.
Proof.
  unfold blocks96. cbn [seq map]. f_equal; [f_equal; lia|]. rewrite <- seq_shift, map_map. apply map_ext.
  intros i. f_equal. lia.
Qed.

(** What the reader makes of a channel set block. *)
Definition chset_read3 (b : list Z) (c : chset) : Prop :=
  chset_of3 b c /\ c_descale c = i2d (big b 16 4) /\ c_filter_delay c = Some (wrapu 8 (big b 64 4)).

Lemma read_ch_sets_reads3 p n : p_left_first p = true -> forall f, good_file f ->
  reads (read_ch_sets p true n f) f (96 * Z.of_nat n) (Forall2 chset_read3 (blocks96 (fdata f) (fpos f) n)).
Proof.
  intros Hp. induction n as [|n IH]; intros f G; cbn [read_ch_sets].
  - apply reads_ret. constructor.
  - eapply reads_weak; [| |intros a H; exact H].
    + eapply (reads_bind _ _ f (96 + 0) (96 * Z.of_nat n + 0)); [exact G|lia|lia| |].
      * unfold read_ch_set_hdr. eapply (reads_bind _ _ f 96 0); [exact G|lia|lia|apply reads_fread96, G|].
        intros b f1 G1 D1 P1 (B & Bb & L).
        destruct (chset_dec3 p b Hp Bb L) as (v & c & E & Hv).
        apply (reads_ok (v, c)); [exact E|]. apply reads_ret.
        instantiate (1 := fun c => chset_read3 (slice (fpos f) 96 (fdata f)) c).
        rewrite <- B. exact Hv.
      * intros c f1 G1 D1 P1 Hc. eapply reads_bind; [exact G1|lia|lia|apply IH, G1|].
        intros cs f2 G2 D2 P2 E. apply reads_ret. rewrite blocks96_S.
        constructor; [exact Hc|]. rewrite D1, P1 in E. replace (fpos f + (96 + 0)) with (fpos f + 96) in E by lia. exact E.
    + lia.
Qed.

Definition scan_off3 (st : Z) (o : Z) (n : nat) (d : list Z) (ns : nat) : list (list (list Z)) :=
  map (fun i => blocks96 d (o + Z.of_nat i * st) ns) (seq 0 n).
Lemma scan_off3_S st o n d ns : scan_off3 st o (S n) d ns = blocks96 d o ns :: scan_off3 st (o + st) n d ns.
Proof.
  unfold scan_off3. cbn [seq map]. f_equal; [f_equal; lia|]. rewrite <- seq_shift, map_map. apply map_ext.
  intros i. f_equal. lia.
Qed.

Lemma read_scan_types_reads3 p ns skew n : p_left_first p = true -> 0 <= skew -> forall f, good_file f ->
  reads (read_scan_types p true ns skew n f) f (Z.of_nat n * (96 * Z.of_nat ns + 32 * skew))
    (Forall2 (Forall2 chset_read3) (scan_off3 (96 * Z.of_nat ns + 32 * skew) (fpos f) n (fdata f) ns)).
Proof.
  intros Hp Hs. induction n as [|n IH]; intros f G; cbn [read_scan_types].
  - apply reads_ret. constructor.
  - eapply reads_weak; [| |intros a H; exact H].
    + eapply (reads_bind _ _ f (96 * Z.of_nat ns) (32 * skew + (Z.of_nat n * (96 * Z.of_nat ns + 32 * skew) + 0)));
        [exact G|lia|nia|apply read_ch_sets_reads3; assumption|].
      intros cs f1 G1 D1 P1 Ec. cbn beta iota.
      change (fseek_cur (skew * SKEW_BLOCK_SIZE) f1) with (fseek (fpos f1 + skew * 32) f1).
      unfold fseek. destruct ((0 <=? fpos f1 + skew * 32) && (fpos f1 + skew * 32 <? 2 ^ 63)) eqn:T.
      * cbn [bind]. apply andb_true_iff in T as [T1 T2].
        set (f2 := mkFile (fdata f1) (fpos f1 + skew * 32)).
        assert (G2 : good_file f2) by (unfold good_file, f2; cbn [fdata fpos]; split; [apply G1|]; split; [lia|apply G1]).
        assert (Q : reads (bind (read_scan_types p true ns skew n f2) (fun x => let (rest, f3) := x in Ok (cs :: rest, f3)))
                      f2 (Z.of_nat n * (96 * Z.of_nat ns + 32 * skew) + 0)
                      (Forall2 (Forall2 chset_read3) (scan_off3 (96 * Z.of_nat ns + 32 * skew) (fpos f) (S n) (fdata f) ns))).
        { eapply reads_bind; [exact G2|nia|lia|apply IH, G2|]. intros ss f3 G3 D3 P3 Es. apply reads_ret.
          rewrite scan_off3_S. constructor; [exact Ec|].
          unfold f2 in Es. cbn [fdata fpos] in Es. rewrite D1, P1 in Es.
          replace (fpos f + (96 * Z.of_nat ns + 32 * skew)) with (fpos f + 96 * Z.of_nat ns + skew * 32) by lia. exact Es. }
        destruct Q as (U & S & C). split; [exact U|]. split.
        -- intros a f' E. destruct (S a f' E) as (Q1 & Q2 & Q3). split; [exact Q1|]. split; [|exact Q3].
           rewrite Q2. unfold f2. cbn [fpos]. lia.
        -- intros H. apply C. unfold f2. cbn [fdata fpos]. lia.
      * split; [discriminate|]. split; [discriminate|]. intros H. exfalso.
        destruct G1 as (_ & G1p & G1l). apply andb_false_iff in T as [T|T]; nia.
    + lia.
Qed.

(** ** General headers *)

Lemma reads_if_bind {A B} C (x : outcome (A * file)) (k : A * file -> outcome (B * file)) f n m R R2 :
  good_file f -> 0 <= n -> 0 <= m -> reads x f n R ->
  (forall a f', good_file f' -> fdata f' = fdata f -> fpos f' = fpos f + n -> R a -> reads_if C (k (a, f')) f' m R2) ->
  reads_if C (bind x k) f (n + m) R2.
Proof.
  intros G Hn Hm (U & S & K) Hk. destruct x as [[a f1]|e|]; [|split; [discriminate|]; split; [discriminate|];
    intros _ H; destruct K as [? K]; [lia|discriminate]|contradiction].
  destruct (S _ _ eq_refl) as (D & P & Ra). cbn [bind].
  assert (G1 : good_file f1).
  { destruct G as (Gb & Gp & Gl). unfold good_file. rewrite D, P. split; [exact Gb|]. split; [lia|exact Gl]. }
  destruct (Hk a f1 G1 D P Ra) as (U1 & S1 & C1). split; [exact U1|]. split.
  - intros b f' E. destruct (S1 b f' E) as (E1 & E2 & E3). rewrite E1, E2, D, P. split; [reflexivity|]. split; [lia|exact E3].
  - intros HC H. apply C1; [exact HC|]. rewrite D, P. lia.
Qed.
Lemma reads_if_ok {A B} C (a : A) (x : outcome A) (k : A -> outcome (B * file)) f n R :
  x = Ok a -> reads_if C (k a) f n R -> reads_if C (bind x k) f n R.
Proof. intros ->. auto. Qed.
Lemma reads_if_map {A B} C (x : outcome (A * file)) (g : A -> B) f n (R : A -> Prop) (R2 : B -> Prop) :
  reads_if C x f n R -> (forall a, R a -> R2 (g a)) ->
  reads_if C (bind x (fun y => let (a, f') := y in Ok (g a, f'))) f n R2.
Proof.
  intros (U & S & K) H. destruct x as [[a f1]|e|]; cbn [bind].
  - split; [discriminate|]. split; [|intros _ _; eexists; reflexivity].
    intros b f' E. injection E as <- <-. destruct (S _ _ eq_refl) as (D & P & Ra). auto.
  - split; [discriminate|]. split; [discriminate|]. intros HC Hl. destruct (K HC Hl). discriminate.
  - split; [intros HC; destruct (U HC eq_refl)|]. split; [discriminate|]. intros HC Hl. destruct (K HC Hl). discriminate.
Qed.

(** The number of additional blocks and of external blocks the reader takes. *)
Definition nblk (b : list Z) : Z :=
  wrapu 16 ((if add_of b =? 15 then big b 50 2 else add_of b) - 2).
Definition nextl (b : list Z) : Z := esc3_of b 31 (big b 54 3).

Definition gh_shown3 (b : list Z) (x : gh1 * gh2 * gh3 * blkmap) : Prop :=
  let '(g1, g2, g3, m) := x in
  gh1_of (slice 0 32 b) g1 /\ gh2_front (slice 32 32 b) g2 /\ gh3_of (slice 64 32 b) g3 /\
  g2_external_blocks g2 = big b 54 3 /\ g2_record_len g2 = 0 /\
  blk3_inv (blocks32 b 96 (Z.to_nat (nblk b))) m /\ 96 <= len b.

Lemma general_reads3 p content s : p_left_first p = true -> bytes content -> len content < 2 ^ 63 ->
  rev3 content -> d_file s = open_in content -> d_g2 s = gh2_zero -> d_blocks s = [] ->
  reads_if (no_sensor (blocks32 content 96 (Z.to_nat (nblk content))))
    (read_general_headers p s) (open_in content) (96 + 32 * nblk content) (gh_shown3 content).
Proof.
  intros Hp Hb Hl (Ho & H3) Ef E2 Em. unfold read_general_headers. rewrite Ef, E2, Em.
  assert (A : 0 <= add_of content < 16) by (apply nib_range; exact Hb).
  assert (N : 0 <= nblk content) by (unfold nblk, wrapu; apply Z.mod_pos_bound; reflexivity).
  assert (G0 : good_file (open_in content)) by (unfold good_file, open_in; cbn [fdata fpos]; auto with zarith).
  replace (96 + 32 * nblk content) with (32 + (32 + (32 + 32 * nblk content))) by lia.
  eapply reads_if_bind; [exact G0|lia|lia|apply reads_fread, G0|].
  intros b1 f1 G1 D1 P1 (B1 & Bb1 & L1 & Q1). cbn [open_in fdata fpos] in *.
  destruct (gh1_dec b1 Bb1 L1) as (g1 & c1 & E1 & H1). apply (reads_if_ok _ (g1, c1)); [exact E1|]. cbn beta iota.
  assert (Ea : g1_add_blocks g1 = add_of content).
  { destruct H1 as (_ & _ & _ & _ & H1 & _). rewrite H1, B1. apply nib_slice. lia. }
  rewrite Ea. destruct (Z.eqb_spec (add_of content) 0) as [Z0|Nz]; [contradiction|].
  eapply reads_if_bind; [exact G1|lia|lia|apply reads_fread, G1|].
  intros b2 f2 G2 D2 P2 (B2 & Bb2 & L2 & Q2). rewrite D1, P1 in B2, Q2. change (0 + 32) with 32 in *.
  destruct (rev_dec b2 Bb2 L2) as (cr & Er). eapply reads_if_ok; [exact Er|]. cbn beta iota.
  assert (Ex : byt b2 10 = byt content 42) by (rewrite B2; apply byt_slice; lia).
  destruct (Z.ltb_spec (byt b2 10) 3) as [M|M]; [lia|].
  destruct (gh2_dec3 p gh2_zero b2 Hp Bb2 L2) as (g2 & c2 & Eg & H2 & Hadd & Hext & Hlen & _).
  apply (reads_if_ok _ (g2, c2)); [exact Eg|]. cbn beta iota.
  eapply reads_if_bind; [exact G2|lia|lia|apply reads_fread, G2|].
  intros b3 f3 G3 D3 P3 (B3 & Bb3 & L3 & Q3). rewrite D2, P2, D1, P1 in B3, Q3. change (32 + 32) with 64 in *.
  destruct (gh3_dec b3 Bb3 L3) as (g3 & c3 & Eg3 & Hg3). apply (reads_if_ok _ (g3, c3)); [exact Eg3|]. cbn beta iota.
  assert (Ha : g2_add_blocks g2 = big content 50 2).
  { rewrite Hadd, B2. rewrite big_slice by lia. reflexivity. }
  assert (Hx : g2_external_blocks g2 = big content 54 3).
  { rewrite Hext, B2. rewrite big_slice by lia. reflexivity. }
  rewrite Ha. fold (nblk content).
  assert (Hr := rd_r3_blocks_reads p (Z.to_nat (nblk content)) Hp f3 [] [] G3).
  assert (I0 : blk3_inv [] []).
  { split; [constructor|]. split; [intros kb []|intros x []]. }
  specialize (Hr I0). rewrite D3, P3, D2, P2, D1, P1, Z2Nat.id in Hr by lia. change (64 + 32) with 96 in Hr.
  eapply (reads_if_map _ _ (fun m => (g1, g2, g3, m))); [exact Hr|].
  intros m Hm. cbn [app] in Hm. unfold gh_shown3. rewrite <- B1, <- B2, <- B3. conj; assumption.
Qed.

Lemma big3_range b k : bytes b -> 0 <= big b k 3 < 2 ^ 24.
Proof.
  intros H. destruct (Nat.leb_spec (k + 3) (List.length b)) as [L|L].
  - pose proof (big_range b k 3 H L) as R. exact R.
  - unfold big. pose proof (bytes_skipn k b H) as B.
    assert (Ls : (List.length (skipn k b) < 3)%nat) by (rewrite skipn_length; lia).
    destruct (skipn k b) as [|x [|y [|z l]]]; cbn; [lia| | |cbn in Ls; lia].
    + inversion B; subst. unfold is_byte in *. lia.
    + inversion B as [|? ? ? B']; subst. inversion B'; subst. unfold is_byte in *. destruct x; lia.
Qed.

Lemma counts3 b g1 g2 g3 m : bytes b -> rev3 b -> gh_shown3 b (g1, g2, g3, m) ->
  g1_scan_types g1 = scans_of b /\ nsets_of g1 g2 = sets_of b /\ skew_of g1 g2 = skews3_of b /\
  extended_of g1 g2 = extds3_of b /\ external_of g1 g2 = nextl b /\
  is_rev3 g1 g2 = true /\ g1_format_code g1 = dec b 4 4.
Proof.
  intros Hb (Hz & H3) (H1 & H2 & _ & Hxt & _ & _ & L).
  assert (Ln : (96 <= List.length b)%nat) by (unfold len in L; lia).
  destruct H1 as (_ & Hf & _ & _ & Ha & _ & _ & _ & _ & _ & _ & _ & _ & _ & _ & _ & _ & Hsc & Hcs & Hsk & Hxd & Hxl).
  rewrite dec_slice in Hf, Hsc, Hcs, Hsk, Hxd, Hxl by lia. rewrite nib_slice in Ha by lia. fold (add_of b) in Ha.
  destruct H2 as (_ & _ & Gx & Gs & Gm & _). rewrite big_slice in Gx, Gs by lia. rewrite byt_slice in Gm by lia.
  change (Z.to_nat 32 + 5)%nat with 37%nat in Gx. change (Z.to_nat 32 + 8)%nat with 40%nat in Gs.
  change (Z.to_nat 32 + 10)%nat with 42%nat in Gm.
  split; [exact Hsc|]. split.
  { unfold nsets_of. rewrite Hcs. fold (sets_of b). pose proof (dec2_range b 56 Hb) as R. fold (sets_of b) in R.
    destruct (Z.eqb_spec (sets_of b) 1665); [lia|]. apply wrapu_small. lia. }
  split.
  { unfold skew_of, skews3_of, esc3_of. rewrite Hsk, Gs. change 58%nat with (2 * 29)%nat. rewrite (esc_165 b 29 Hb) by lia.
    pose proof (big2_range b 40 Hb). pose proof (dec2_range b (2 * 29) Hb).
    destruct (byt b 29 =? 255); apply wrapu_small; lia. }
  split.
  { unfold extended_of, extds3_of, esc3_of. rewrite Hxd, Gx. change 60%nat with (2 * 30)%nat. rewrite (esc_165 b 30 Hb) by lia.
    pose proof (big3_range b 37 Hb). pose proof (dec2_range b (2 * 30) Hb).
    destruct (byt b 30 =? 255); apply wrapu_small; lia. }
  split.
  { unfold external_of, nextl, esc3_of. rewrite Hxl, Hxt. change 62%nat with (2 * 31)%nat. rewrite (esc_165 b 31 Hb) by lia.
    pose proof (big3_range b 54 Hb). pose proof (dec2_range b (2 * 31) Hb).
    destruct (byt b 31 =? 255); apply wrapu_small; lia. }
  split; [|exact Hf].
  unfold is_rev3. rewrite Ha, Gm. destruct (Z.eqb_spec (add_of b) 0); [contradiction|].
  destruct (Z.ltb_spec (byt b 42) 3); [lia|reflexivity].
Qed.

(** ** Opening *)

(** The places the reader uses. *)
Definition rsets_at (b : list Z) : Z := 96 + 32 * nblk b.
Definition rextds_at (b : list Z) : Z := rsets_at b + scans_of b * scan3_size b.
Definition rtraces_at (b : list Z) : Z := rextds_at b + 32 * (extds3_of b + nextl b).

Definition shown3 (b : list Z) (s : isegd) : Prop :=
  gh_shown3 b (d_g1 s, d_g2 s, d_g3 s, d_blocks s) /\
  Forall2 (Forall2 chset_read3)
    (map (fun i => blocks96 b (rsets_at b + Z.of_nat i * scan3_size b) (Z.to_nat (sets_of b)))
       (seq 0 (Z.to_nat (scans_of b)))) (d_sets s) /\
  d_extd s = blocks32 b (rextds_at b) (Z.to_nat (extds3_of b)) /\
  d_extl s = blocks32 b (rextds_at b + 32 * extds3_of b) (Z.to_nat (nextl b)) /\
  fdata (d_file s) = b /\ fpos (d_file s) = rtraces_at b /\ d_eod s = len b /\
  d_chans s = fold_right Z.add 0 (map c_channels (concat (d_sets s))) /\ d_read s = 0.

Lemma esc3_range b i k : bytes b -> 0 <= esc3_of b i (big b k 3) < 2 ^ 24.
Proof.
  intros H. unfold esc3_of. pose proof (big3_range b k H). pose proof (dec2_range b (2 * i) H).
  destruct (byt b i =? 255); lia.
Qed.

Lemma open3 p content ls : p_left_first p = true -> bytes content -> len content < 2 ^ 63 -> rev3 content ->
  let C := no_sensor (blocks32 content 96 (Z.to_nat (nblk content))) in
  (C -> isegd_open p content ls <> UB) /\
  (forall s, isegd_open p content ls = Ok s -> shown3 content s /\ d_layouts s = ls) /\
  (C -> rtraces_at content <= len content -> In (dec content 4 4) known_formats -> 24 * 2 ^ 24 <= p_max_alloc p ->
   exists s, isegd_open p content ls = Ok s).
Proof.
  intros Hp Hb Hl Ho C. unfold isegd_open, read_headers_before_traces.
  set (s0 := mkD (open_in content) gh1_zero gh2_zero gh3_zero [] [] [] [] ls (len content) 0 0).
  assert (Sr := dec2_range content 54 Hb). assert (Nr := dec2_range content 56 Hb).
  assert (Kr : 0 <= skews3_of content).
  { unfold skews3_of, esc3_of. pose proof (big2_range content 40 Hb). pose proof (dec2_range content (2 * 29) Hb).
    destruct (_ =? _); lia. }
  assert (Dr := esc3_range content 30 37 Hb). assert (Lr := esc3_range content 31 54 Hb).
  fold (extds3_of content) in Dr. fold (nextl content) in Lr.
  fold (scans_of content) in Sr. fold (sets_of content) in Nr.
  assert (Ar : 0 <= nblk content) by (unfold nblk, wrapu; apply Z.mod_pos_bound; reflexivity).
  assert (Zr : 0 <= scans_of content * scan3_size content) by (unfold scan3_size; nia).
  destruct (general_reads3 p content s0 Hp Hb Hl Ho eq_refl eq_refl eq_refl) as (U0 & S0 & C0). fold C in U0, C0.
  destruct (read_general_headers p s0) as [[[[[g1 g2] g3] m] f1]|e|];
    [|split; [discriminate|]; split; [discriminate|]; intros Hc T; exfalso;
      destruct (C0 Hc) as [? C0']; [|discriminate]; unfold rtraces_at, rextds_at, rsets_at in T; cbn [open_in fpos fdata]; lia
     |split; [intros Hc; destruct (U0 Hc eq_refl)|]; split; [discriminate|]; intros Hc; destruct (U0 Hc eq_refl)].
  destruct (S0 _ _ eq_refl) as (D1 & P1 & H1). clear S0 C0 U0. cbn [open_in fdata fpos] in D1, P1.
  destruct (counts3 content g1 g2 g3 m Hb Ho H1) as (K1 & K2 & K3 & K4 & K5 & K6 & K7).
  cbn [bind]. rewrite K6, K1, K2, K3, K4, K5, K7.
  assert (G1 : good_file f1).
  { unfold good_file. rewrite D1, P1. split; [exact Hb|]. split; [lia|exact Hl]. }
  destruct (d_sample_reader p (dec content 4 4)) as [rd|e|] eqn:Er;
    [|split; [discriminate|]; split; [discriminate|]; intros _ _ T _; exfalso;
      destruct (reader_known' p _ T) as [? T']; congruence|exfalso; exact (reader_not_ub _ _ Er)].
  cbn [bind].
  destruct (read_scan_types_reads3 p (Z.to_nat (sets_of content)) (skews3_of content) (Z.to_nat (scans_of content)) Hp Kr f1 G1)
    as (U2 & S2 & C2).
  rewrite D1, P1 in S2. rewrite !Z2Nat.id in S2, C2 by lia. fold (scan3_size content) in S2, C2.
  destruct (read_scan_types p true (Z.to_nat (sets_of content)) (skews3_of content) (Z.to_nat (scans_of content)) f1)
    as [[sets f2]|e|];
    [|split; [discriminate|]; split; [discriminate|]; intros _ T; exfalso;
      destruct C2 as [? C2]; [|discriminate]; rewrite D1, P1; unfold rtraces_at, rextds_at, rsets_at in T; lia|congruence].
  destruct (S2 _ _ eq_refl) as (D2 & P2 & Hc). clear S2 C2 U2. cbn [bind].
  assert (G2 : good_file f2).
  { unfold good_file. rewrite D2, P2. split; [exact Hb|]. split; [lia|exact Hl]. }
  assert (Rz : forall n, 0 <= n < 2 ^ 24 -> resize_to p (24 * n) <> UB /\ (24 * 2 ^ 24 <= p_max_alloc p -> exists u, resize_to p (24 * n) = Ok u)).
  { intros n Hn'. unfold resize_to. rewrite wrapu_small by lia. destruct (Z.leb_spec (24 * n) (p_max_alloc p)).
    - split; [discriminate|]. intros _. eexists. reflexivity.
    - split; [discriminate|]. lia. }
  destruct (Rz _ Dr) as (Ud & Cd). destruct (Rz _ Lr) as (Ul & Cl).
  destruct (resize_to p (24 * extds3_of content)) as [u|e|];
    [|split; [discriminate|]; split; [discriminate|]; intros _ _ _ T; destruct (Cd T); discriminate|congruence].
  cbn [bind].
  destruct (read_blks_reads (Z.to_nat (extds3_of content)) f2 G2) as (U3 & S3 & C3).
  rewrite D2, P2 in S3. rewrite Z2Nat.id in S3, C3 by lia.
  destruct (read_blks (Z.to_nat (extds3_of content)) f2) as [[extd f3]|e|];
    [|split; [discriminate|]; split; [discriminate|]; intros _ T; exfalso;
      destruct C3 as [? C3]; [|discriminate]; rewrite D2, P2; unfold rtraces_at, rextds_at, rsets_at in T; lia|congruence].
  destruct (S3 _ _ eq_refl) as (D3 & P3 & Hd). clear S3 C3 U3. cbn [bind].
  assert (G3 : good_file f3).
  { unfold good_file. rewrite D3, P3. split; [exact Hb|]. split; [lia|exact Hl]. }
  destruct (resize_to p (24 * nextl content)) as [u'|e|];
    [|split; [discriminate|]; split; [discriminate|]; intros _ _ _ T; destruct (Cl T); discriminate|congruence].
  cbn [bind].
  destruct (read_blks_reads (Z.to_nat (nextl content)) f3 G3) as (U4 & S4 & C4).
  rewrite D3, P3 in S4. rewrite Z2Nat.id in S4, C4 by lia.
  destruct (read_blks (Z.to_nat (nextl content)) f3) as [[extl f4]|e|];
    [|split; [discriminate|]; split; [discriminate|]; intros _ T; exfalso;
      destruct C4 as [? C4]; [|discriminate]; rewrite D3, P3; unfold rtraces_at, rextds_at, rsets_at in T; lia|congruence].
  destruct (S4 _ _ eq_refl) as (D4 & P4 & He). clear S4 C4 U4. cbn [bind].
  split; [discriminate|]. split; [|intros _ _ _ _; eexists; reflexivity].
  intros s E. injection E as <-. split; [|reflexivity].
  unfold shown3, rextds_at, rtraces_at, rsets_at in *.
  cbn [d_g1 d_g2 d_g3 d_blocks d_sets d_extd d_extl d_file d_eod d_chans d_read d_layouts] in *.
  conj; try assumption; try reflexivity.
  unfold rextds_at, rsets_at. lia.
Qed.

(** When both counts are in general header 1 the places are those of the
    standard. *)
Lemma places3 b : bytes b -> 2 <= add_of b < 15 -> byt b 31 <> 255 ->
  nblk b = add3_of b - 2 /\ nextl b = extls3_of b /\ rsets_at b = sets3_at b /\ rextds_at b = extds3_at b /\
  rtraces_at b = traces3_at b.
Proof.
  intros Hb Ha Hx. assert (N : nblk b = add3_of b - 2).
  { unfold nblk, add3_of. destruct (Z.eqb_spec (add_of b) 15); [lia|]. apply wrapu_small. lia. }
  assert (E : nextl b = extls3_of b).
  { unfold nextl, extls3_of, esc3_of. destruct (Z.eqb_spec (byt b 31) 255); [lia|reflexivity]. }
  unfold rtraces_at, rextds_at, rsets_at, traces3_at, extds3_at, sets3_at. rewrite N, E. repeat split; lia.
Qed.
