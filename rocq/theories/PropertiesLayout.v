(** C11-C14, C34: trace header layouts, header blocks, the header map. *)
From Coq Require Import Reals.
From Verif Require Import BaseFacts Platform Fp FpSpec FpReal TraceHdr SegyTypes SegyCodec CodecSpec CodecFacts
     HdrFacts SampleReal ISegy OSegy OpenFacts LayoutSpec LayoutFacts PropertiesCodec.
Open Scope Z_scope.

(** C11.  A layout with which any of the four objects was constructed is safe,
    if its first field ends inside the header and no field ends beyond 2^32
    (the constructor checks neither). *)
Theorem C11_accepted_layouts_safe_partial : forall ls n l,
  layouts_wf ls = true -> In (n, l) ls ->
  (match l with [] => True | en :: _ => e_off en + width (e_type en) <= 240 end) ->
  (forall en, In en l -> e_off en + width (e_type en) < 2 ^ 32) ->
  (exists p content ov b s, i_open p content ls ov b = Ok s) \/
  (exists p t b s, rev0_open p t b ls = Ok s) \/
  (exists p t b s, rev1_open p t b ls = Ok s) \/
  (exists p t b st s, rev2_open p t b st ls = Ok s) ->
  safe_layout l /\ String.length n = 8%nat.
Proof.
  intros ls n l Hwf Hin Hf Hn Hc.
  assert (C : exists b, check_tr_hdr_map b ls = Ok tt).
  { destruct Hc as [(p & c & ov & b & s & H)|[(p & t & b & s & H)|[(p & t & b & s & H)|(p & t & b & st & s & H)]]].
    - exists b. apply i_open_inv in H. tauto.
    - exists b. apply bind_ok in H as ([] & H & _). exact H.
    - exists b. apply bind_ok in H as ([] & H & _). exact H.
    - exists b. apply bind_ok in H as ([] & H & _). exact H. }
  destruct C as (b & C). assert (Ck := check_map_ok _ _ C _ Hin).
  unfold layouts_wf in Hwf. rewrite forallb_forall in Hwf. specialize (Hwf _ Hin). cbn [snd] in Hwf.
  apply (check_layout_safe n l Hwf Hn Hf) in Ck. tauto.
Qed.

(** Both provisos are needed: these two layouts are accepted by the writer and
    the writer then stores outside the 240-byte header buffer. *)
Definition bad_first : layouts := [("SEG00000"%string, [(1000, ("X"%string, I32))])].
Definition bad_wrap : layouts := [("SEG00000"%string, [(0, ("X"%string, I32)); (4294967295, ("Y"%string, I8))])].
Definition one_sample : bin_hdr := set_samp_per_tr (set_format_code bin_zero 6) 1.

Theorem C11_accepted_layouts_safe_refuted : forall ls, In ls [bad_first; bad_wrap] ->
  layouts_wf ls = true /\
  exists s, rev0_open plat_example [] one_sample ls = Ok s /\
    write_trace plat_example s (mkTrace [("X"%string, VInt 7); ("Y"%string, VInt 7)] [0]) = UB.
Proof.
  intros ls H.
  assert (K : layouts_wf ls = true /\ is_ok (rev0_open plat_example [] one_sample ls) = true /\
    (let* s := rev0_open plat_example [] one_sample ls in
     write_trace plat_example s (mkTrace [("X"%string, VInt 7); ("Y"%string, VInt 7)] [0])) = UB).
  { destruct H as [<-|[<-|[]]]; vm_compute; repeat split. }
  destruct K as (K1 & K2 & K3). split; [exact K1|].
  destruct (rev0_open plat_example [] one_sample ls) as [s| |]; try discriminate. exists s. split; [reflexivity|exact K3].
Qed.

Example C11_case : In ("SEG00000"%string, snd (hd (""%string, []) default_trace_header)) default_trace_header /\
  is_ok (rev0_open plat_example [] one_sample default_trace_header) = true.
Proof. split; [left; reflexivity|vm_compute; reflexivity]. Qed.

(** C12.  Layouts that are safe, with 8-character names and a consistent
    number of additional headers, pass the check, so whether an object can be
    constructed does not depend on which of them is used. *)
Definition valid_layouts (b : bin_hdr) (ls : layouts) : Prop :=
  layouts_wf ls = true /\ safe_layouts ls /\
  (forall n l, In (n, l) ls -> String.length n = 8%nat) /\
  (bh_SEGY_rev_major_ver b <= 1 \/ bh_max_num_add_tr_headers b = 0 \/
   bh_max_num_add_tr_headers b = len ls - 1).

Theorem C12_valid_layouts_accepted : forall b ls1 ls2,
  valid_layouts b ls1 -> valid_layouts b ls2 ->
  check_tr_hdr_map b ls1 = Ok tt /\
  (forall p content ov, is_ok (i_open p content ls1 ov b) = is_ok (i_open p content ls2 ov b)) /\
  (forall p t, is_ok (rev0_open p t b ls1) = is_ok (rev0_open p t b ls2)) /\
  (forall p t, is_ok (rev1_open p t b ls1) = is_ok (rev1_open p t b ls2)) /\
  (forall p t st, is_ok (rev2_open p t b st ls1) = is_ok (rev2_open p t b st ls2)).
Proof.
  intros b ls1 ls2 V1 V2.
  assert (K : forall ls, valid_layouts b ls -> check_tr_hdr_map b ls = Ok tt).
  { intros ls (Hwf & Hs & Hn & Hc). apply check_map_intro; [exact Hc|]. intros [n l] Hin.
    unfold layouts_wf in Hwf. rewrite forallb_forall in Hwf. specialize (Hwf _ Hin).
    specialize (Hs _ _ Hin). apply check_layout_safe; auto using safe_no_wrap, safe_first.
    split; [eapply Hn; exact Hin|exact Hs]. }
  apply K in V1, V2. split; [exact V1|].
  split; [|split; [|split]].
  - intros. unfold i_open. rewrite V1, V2. cbn [bind].
    repeat match goal with
    | |- is_ok (bind ?x _) = is_ok (bind ?x _) => destruct x as [[? ?]| |]; cbn [bind]; try reflexivity
    | |- is_ok (bind ?x _) = is_ok (bind ?x _) => destruct x as [[[? ?] ?]| |]; cbn [bind]; try reflexivity
    | |- is_ok (bind ?x _) = is_ok (bind ?x _) => destruct x; cbn [bind]; try reflexivity
    | |- is_ok (match ?x with _ => _ end) = is_ok (match ?x with _ => _ end) => destruct x; try reflexivity
    end.
  - intros. unfold rev0_open. rewrite V1, V2. cbn [bind].
    repeat match goal with
    | |- is_ok (bind ?x _) = is_ok (bind ?x _) => destruct x; cbn [bind]; try reflexivity
    | |- is_ok (match ?x with _ => _ end) = is_ok (match ?x with _ => _ end) => destruct x; try reflexivity
    end.
  - intros. unfold rev1_open. rewrite V1, V2. cbn [bind].
    destruct (open_12 _ _ _ _) as [[[[[? ?] ?] ?] ?]| |]; cbn [bind]; try reflexivity.
    destruct (same_as _ _ _); [reflexivity|]. destruct (negb _); [|reflexivity].
    destruct (resize_buf _ _ _); reflexivity.
  - intros. unfold rev2_open. rewrite V1, V2. cbn [bind].
    destruct (match t with [] => _ | _ => _ end); cbn [bind]; try reflexivity.
    destruct (if forallb is_3200 st then _ else _); cbn [bind]; try reflexivity.
    destruct (open_12 _ _ _ _) as [[[[[? ?] ?] ?] ?]| |]; cbn [bind]; try reflexivity.
    cbv zeta. destruct (same_as _ _ _); [reflexivity|].
    destruct (negb (bh_fixed_tr_length _ =? 0)); [|reflexivity].
    destruct (resize_buf _ _ _); reflexivity.
Qed.

(** The built-in layout is valid for every header that announces at most one
    additional trace header. *)
Theorem C12_default_layout_valid : forall b,
  bh_SEGY_rev_major_ver b <= 1 \/ bh_max_num_add_tr_headers b = 0 \/ bh_max_num_add_tr_headers b = 1 ->
  valid_layouts b default_trace_header.
Proof.
  intros b H. split; [vm_compute; reflexivity|]. split; [|split].
  - intros n l Hin.
    assert (C : check_layout (n, l) = Ok tt).
    { cbn [default_trace_header In] in Hin. repeat destruct Hin as [Hin|Hin]; try contradiction;
        injection Hin as <- <-; vm_compute; reflexivity. }
    assert (W : keys_sorted l = true /\ forallb (fun en => e_off en + width (e_type en) <=? 240) l = true).
    { cbn [default_trace_header In] in Hin. repeat destruct Hin as [Hin|Hin]; try contradiction;
        injection Hin as <- <-; vm_compute; split; reflexivity. }
    destruct W as [W1 W2]. rewrite forallb_forall in W2.
    apply (check_layout_safe n l W1) in C; [tauto| |].
    + intros en K. specialize (W2 en K). lia.
    + destruct l as [|en l]; [exact I|]. specialize (W2 en (or_introl eq_refl)). cbn. lia.
  - intros n l Hin. cbn [default_trace_header In] in Hin. repeat destruct Hin as [Hin|Hin]; try contradiction;
        injection Hin as <- <-; reflexivity.
  - change (len default_trace_header - 1) with 1. exact H.
Qed.

Example C12_case : valid_layouts bin_zero default_trace_header /\
  is_ok (rev2_open plat_example [] bin_zero [] default_trace_header) = true.
Proof. split; [apply C12_default_layout_valid; cbn; lia|vm_compute; reflexivity]. Qed.

(** C13.  Header block round trip: if every number given for a field is an
    integer (and the layout has no float fields) the block can be written;
    whenever it was written, reading it back gives every integer field its
    number reduced to the field, nothing for other names; bytes outside the
    fields are zero. *)
Theorem C13_header_block_can_be_written : forall p e l h,
  safe_layout l ->
  (forall en, In en l -> int_field (e_type en) <> None /\ given h (e_name en) <> None) ->
  exists blk, hdr_block p e l h = Ok blk.
Proof.
  intros p e l h S G. destruct (hdr_block p e l h) as [blk| |] eqn:E; [eauto| |]; exfalso.
  all: assert (K : is_ok (hdr_block p e l h) = true); [|rewrite E in K; discriminate].
  all: apply wr_fields_ok; [apply S| |reflexivity].
  all: intros en Hin; destruct (G en Hin) as [G1 G2]; unfold wr_field, given in *;
    destruct (hget h (e_name en)) as [[z|d]|]; try congruence; cbn [get_int bind];
    destruct (e_type en); try reflexivity; cbn in G1; congruence.
Qed.

Theorem C13_header_fields_round_trip : forall p e l h blk,
  safe_layout l -> NoDup (names l) -> p_left_first p = true ->
  hdr_block p e l h = Ok blk ->
  List.length blk = 240%nat /\
  (forall i, 0 <= i < 240 -> ~ covered l i -> nth_error blk (Z.to_nat i) = Some 0) /\
  exists h', rd_fields p e blk l [] = Ok h' /\
    (forall en f z, In en l -> int_field (e_type en) = Some f -> given h (e_name en) = Some z ->
       hget h' (e_name en) = Some (VInt (f z))) /\
    (forall k, ~ In k (names l) -> hget h' k = None) /\
    NoDup (hkeys h').
Proof.
  intros p e l h blk S ND LF H.
  destruct (hdr_block_spec p e l h blk S H) as (L & _ & F & Z0).
  split; [unfold len in L; lia|]. split; [exact Z0|].
  destruct (rd_fields_ok p e blk l L (proj1 S) []) as (h' & E & O & V & N & _).
  exists h'. split; [exact E|]. split; [|split; [exact O|apply N; constructor]].
  intros en f z Hin Hf Hg. rewrite (V ND en Hin). f_equal.
  eapply fval_int; eauto using given_int.
Qed.

Definition lay_example : layout :=
  [(0, ("A"%string, I16)); (10, ("B"%string, U24)); (13, ("C"%string, U64)); (232, ("D"%string, I32))].

Lemma lay_example_safe : safe_layout lay_example /\ NoDup (names lay_example).
Proof.
  split.
  - apply (check_layout_safe "SEG00000" lay_example); try reflexivity.
    + intros en H. cbn in H. repeat destruct H as [<-|H]; try contradiction; reflexivity.
    + cbn. lia.
  - cbn. repeat constructor; cbn; intuition discriminate.
Qed.

Example C13_case : safe_layout lay_example /\ NoDup (names lay_example) /\
  exists blk, hdr_block plat_example Swapped lay_example
      [("B"%string, VInt 16777217); ("D"%string, VInt (-5)); ("Q"%string, VInt 1)] = Ok blk /\
    slice 232 8 blk = [255; 255; 255; 251; 0; 0; 0; 0] /\
    match rd_fields plat_example Swapped blk lay_example [] with
    | Ok h' => map (hget h') ["A"; "B"; "C"; "D"; "Q"]%string
    | _ => [] end = [Some (VInt 0); Some (VInt 1); Some (VInt 0); Some (VInt (-5)); None].
Proof.
  split; [apply lay_example_safe|]. split; [apply lay_example_safe|].
  eexists. split; [vm_compute; reflexivity|]. vm_compute. split; reflexivity.
Qed.

(** C14.  A floating-point value can never be written, whatever the type of
    its field: the writer asks the variant for an integer. *)
Theorem C14_float_values_never_written_refuted : forall p e l h en d,
  In en l -> hget h (e_name en) = Some (VDbl d) ->
  forall blk, hdr_block p e l h <> Ok blk.
Proof.
  intros p e l h en d Hin Hg blk H. unfold hdr_block in H. revert H.
  generalize (zeros TR_HEADER_SIZE). induction l as [|a l IH]; intros b H; [destruct Hin|].
  cbn [wr_fields] in H. apply bind_ok in H as (x & E & H). apply bind_ok in H as (b1 & _ & H).
  destruct Hin as [<-|Hin]; [|exact (IH Hin b1 H)].
  unfold wr_field in E. rewrite Hg in E. discriminate.
Qed.

Example C14_case_refuted :
  hdr_block plat_example Swapped [(0, ("X"%string, F64))] [("X"%string, VDbl (i2d 1))] = Throw EVariant.
Proof. reflexivity. Qed.

(** What does work: an integer stored in an ieee_double (ieee_single) field is
    read back as the floating-point number with that value. *)
Theorem C14_integers_in_float_fields_partial : forall p e l h blk en z,
  safe_layout l -> NoDup (names l) -> hdr_block p e l h = Ok blk -> In en l ->
  given h (e_name en) = Some z ->
  (e_type en = F64 /\ Z.abs z <= 2 ^ 53) \/ (e_type en = F32 /\ Z.abs z <= 2 ^ 24) ->
  exists h' d, rd_fields p e blk l [] = Ok h' /\ hget h' (e_name en) = Some (VDbl d) /\ holds d (IZR z).
Proof.
  intros p e l h blk en z S ND H Hin Hg Ht.
  destruct (hdr_block_spec p e l h blk S H) as (L & _ & F & _).
  destruct (rd_fields_ok p e blk l L (proj1 S) []) as (h' & E & _ & V & _).
  exists h'. specialize (F en Hin). specialize (V ND en Hin).
  unfold wr_field in F. rewrite (given_int _ _ _ Hg) in F. cbn [bind] in F.
  set (d := slice (e_off en) (width (e_type en)) blk) in *. clearbody d.
  destruct Ht as [[Et Hz]|[Et Hz]]; rewrite Et in F, V; injection F as F.
  - exists (i2d z). split; [exact E|]. assert (Hd : holds (i2d z) (IZR z)) by (apply i2d_holds; lia).
    split; [|exact Hd]. rewrite V. f_equal. unfold fval. cbn [rd_field]. rewrite <- F.
    unfold wr_f64, rd_f64. rewrite <- (app_nil_r (wr e 8 (i2d z))).
    erewrite pmap_ok by apply rd_u_wr. change (8 * Z.of_nat 8) with 64.
    rewrite wrapu_small by apply Hd. reflexivity.
  - exists (f2d (d2f (i2d z))). split; [exact E|]. assert (Hd : holds (i2d z) (IZR z)) by (apply i2d_holds; lia).
    destruct (int_single z Hz) as [K1 K2].
    split; [|exact K2]. rewrite V. f_equal. unfold fval. cbn [rd_field]. rewrite <- F.
    unfold wr_f32, rd_f32. rewrite <- (app_nil_r (wr e 4 (d2f (i2d z)))).
    erewrite pmap_ok by (eapply pmap_ok; apply rd_u_wr). change (8 * Z.of_nat 4) with 32.
    rewrite wrapu_small by exact K1. reflexivity.
Qed.

Example C14_case :
  match hdr_block plat_example Swapped [(0, ("X"%string, F64))] [("X"%string, VInt 3)] with
  | Ok b => slice 0 8 b | _ => [] end = [64; 8; 0; 0; 0; 0; 0; 0].
Proof. vm_compute. reflexivity. Qed.

(** C34.  Trace header as a map: [apply_sets] is any sequence of set calls on
    a fresh header; the specification looks for the last one with the key. *)
Definition apply_sets (ops : list (string * value)) : hdr :=
  fold_left (fun h kv => hset h (fst kv) (snd kv)) ops [].

Fixpoint last_set (k : string) (ops : list (string * value)) : option value :=
  match ops with
  | [] => None
  | (k', v) :: r => match last_set k r with
                    | Some w => Some w
                    | None => if String.eqb k k' then Some v else None
                    end
  end.

Theorem C34_header_is_a_map : forall ops,
  (forall k, hget (apply_sets ops) k = last_set k ops) /\
  NoDup (hkeys (apply_sets ops)) /\
  (forall k, In k (hkeys (apply_sets ops)) <-> In k (map fst ops)).
Proof.
  intros ops.
  assert (G : forall h, NoDup (hkeys h) ->
    let h' := fold_left (fun h kv => hset h (fst kv) (snd kv)) ops h in
    (forall k, hget h' k = match last_set k ops with Some v => Some v | None => hget h k end) /\
    NoDup (hkeys h') /\ (forall k, In k (hkeys h') <-> In k (hkeys h) \/ In k (map fst ops))).
  { induction ops as [|[k1 v1] ops IH]; intros h ND; cbn [fold_left last_set map fst snd In].
    - split; [reflexivity|]. split; [exact ND|]. intros k. tauto.
    - destruct (IH (hset h k1 v1) (hkeys_nodup h k1 v1 ND)) as (I1 & I2 & I3). cbv zeta in *.
      split; [|split; [exact I2|]].
      + intros k. rewrite I1. destruct (last_set k ops); [reflexivity|].
        destruct (String.eqb_spec k k1) as [->|N]; [apply hget_hset_same|apply hget_hset_other, N].
      + intros k. rewrite I3. rewrite !hkeys_get.
        destruct (string_dec k k1) as [->|N].
        * rewrite hget_hset_same. split; [intros _; right; left; reflexivity|]. intros _. left; eauto.
        * rewrite hget_hset_other by exact N. intuition congruence. }
  destruct (G [] ltac:(constructor)) as (G1 & G2 & G3). cbv zeta in *. unfold apply_sets.
  split; [|split; [exact G2|]].
  - intros k. rewrite G1. destruct (last_set k ops); reflexivity.
  - intros k. rewrite G3. cbn. tauto.
Qed.

Example C34_case :
  let ops := [("A"%string, VInt 1); ("B"%string, VDbl 0); ("A"%string, VInt 2)] in
  hget (apply_sets ops) "A" = Some (VInt 2) /\ hkeys (apply_sets ops) = ["A"%string; "B"%string].
Proof. split; reflexivity. Qed.

Print Assumptions C11_accepted_layouts_safe_partial.
Print Assumptions C11_accepted_layouts_safe_refuted.
Print Assumptions C12_valid_layouts_accepted.
Print Assumptions C12_default_layout_valid.
Print Assumptions C13_header_block_can_be_written.
Print Assumptions C13_header_fields_round_trip.
Print Assumptions C14_float_values_never_written_refuted.
Print Assumptions C14_integers_in_float_fields_partial.
Print Assumptions C34_header_is_a_map.
