(** C64, C65 and C89: SEG-Y readers that are used after an exception. *)
From Verif Require Import BaseFacts Platform Fp TraceHdr SegyTypes SegyCodec ISegy Sorted1D StepX ISegyX ReadSpec RoundSpec
     PropertiesCodec PropertiesRound PropertiesRead RereadSpec RereadFacts RereadFacts2 RereadFacts3 RereadFacts4.

(** Without an exception the reader is the one of ISegy.v; where that one stops,
    this one throws. *)
Theorem C64_same_calls : forall p content maps s cs,
  opened p content maps s ->
  (forall res s1, run (rd_call p) s cs = Ok (res, s1) -> go_on (xrd_call p) (fresh s) cs = Ok (map Ok res, fresh s1)) /\
  (forall res s1 c x, run (rd_call p) s cs = Ok (res, s1) -> rd_call p c s1 = Throw x -> fst (xrd_call p c (fresh s1)) = Throw x).
Proof.
  intros p content maps s cs O. apply opened_sound in O.
  assert (K : forall cs s res s1, sound p s -> run (rd_call p) s cs = Ok (res, s1) -> go_on (xrd_call p) (fresh s) cs = Ok (map Ok res, fresh s1) /\ sound p s1).
  { clear. induction cs as [|c cs IH]; intros s res s1 S0 H; cbn [run go_on] in *.
    - injection H as <- <-. auto.
    - pose proof (call_agree p c s S0) as A. destruct (rd_call p c s) as [[a s2]|x|]; cbn [bind agree] in *; [|discriminate..].
      destruct A as [A L]. rewrite A. destruct (run (rd_call p) s2 cs) as [[l s3]|x|] eqn:E; cbn [bind] in H; [|discriminate..].
      injection H as <- <-. destruct (IH s2 l s3 (like_sound _ _ _ L) E) as [Q S3]. rewrite Q. auto. }
  split; intros res s1.
  - intros H. exact (proj1 (K cs s res s1 O H)).
  - intros c x H E. destruct (K cs s res s1 O H) as [_ S1]. pose proof (call_agree p c s1 S1) as A. rewrite E in A. cbn [agree] in A.
    destruct A as (r & A & _). rewrite A. reflexivity.
Qed.
Print Assumptions C64_same_calls.

(** C89.  As long as the file is the only reason for exceptions, a client that
    goes on after them gets what a client that stops at the first one gets, and
    then the same exception from every call.

    Partial: under this condition. *)
Theorem C89_reader_partial : forall p content maps s cs rs r,
  0 <= p_max_alloc p -> opened p content maps s ->
  go_on (xrd_call p) (fresh s) cs = Ok (rs, r) -> (forall x, In (Throw x) rs -> x = EIO) ->
  exists res k s1, rs = map Ok res ++ repeat (Throw EIO) k /\
    run (rd_call p) s (firstn (List.length res) cs) = Ok (res, s1) /\
    (k = 0%nat -> r = fresh s1) /\
    (k <> 0%nat -> exists c, nth_error cs (List.length res) = Some c /\ rd_call p c s1 = Throw EIO).
Proof.
  intros p content maps s cs rs r HA O H Hx. exact (go_on_reader p HA cs s rs r (opened_sound _ _ _ _ O) H Hx).
Qed.
Print Assumptions C89_reader_partial.

(** C64.  In files of fixed trace length the file is the only reason. *)
Theorem C64_fixed_length : forall p content maps s cs rs r,
  0 <= p_max_alloc p -> opened p content maps s -> is_fixed (i_bh s) = true ->
  go_on (xrd_call p) (fresh s) cs = Ok (rs, r) ->
  exists res k s1, rs = map Ok res ++ repeat (Throw EIO) k /\
    run (rd_call p) s (firstn (List.length res) cs) = Ok (res, s1) /\ (k = 0%nat -> r = fresh s1).
Proof.
  intros p content maps s cs rs r HA O Fx H. pose proof (opened_sound _ _ _ _ O) as S0.
  destruct (go_on_reader p HA cs s rs r S0 H (go_on_fixed p HA cs s rs r S0 Fx H)) as (res & k & s1 & A & B & C & _).
  exists res, k, s1. auto.
Qed.
Print Assumptions C64_fixed_length.

(** In all files: once the file was the reason for an exception every further
    call throws it again, and has_trace keeps its answer. *)
Theorem C64_fail_stop : forall p content maps s cs1 rs1 r1 cs2 rs2 r2,
  0 <= p_max_alloc p -> opened p content maps s ->
  go_on (xrd_call p) (fresh s) cs1 = Ok (rs1, r1) -> In (Throw EIO) rs1 ->
  go_on (xrd_call p) r1 cs2 = Ok (rs2, r2) ->
  rs2 = repeat (Throw EIO) (List.length cs2) /\ xhas_trace r2 = xhas_trace r1.
Proof.
  intros p content maps s cs1 rs1 r1 cs2 rs2 r2 HA O H1 Hin H2.
  assert (D : dead r1).
  { assert (Al : alive p (fresh s)) by (right; exact (opened_sound _ _ _ _ O)). clear O H2. revert H1 Hin Al. generalize (fresh s) as r. clear s.
    revert rs1. induction cs1 as [|c cs IH]; intros rs1 r H1 Hin Al; cbn [go_on] in H1.
    - injection H1 as <- <-. destruct Hin.
    - destruct (xrd_call p c r) as [o r2'] eqn:E. assert (N : o <> UB) by (destruct o; [discriminate..|discriminate H1]).
      destruct (call_alive p c r o r2' HA Al E N) as [Al2 D].
      assert (Q : exists rs', go_on (xrd_call p) r2' cs = Ok (rs', r1) /\ rs1 = o :: rs').
      { destruct o as [a|y|]; [| |congruence]; (destruct (go_on (xrd_call p) r2' cs) as [[rs' r3]|z|]; cbn [bind] in H1; [|discriminate..];
          injection H1 as <- <-; exists rs'; auto). }
      destruct Q as (rs' & E2 & ->). destruct Hin as [->|Hin].
      + destruct (go_on_dead p HA cs r2' rs' r1 (D eq_refl) E2) as [_ K]. exact (kept_dead _ _ K).
      + exact (IH rs' r2' E2 Hin Al2). }
  destruct (go_on_dead p HA cs2 r1 rs2 r2 D H2) as [-> (_ & K1 & K2)]. split; [reflexivity|].
  unfold xhas_trace, has_trace. rewrite K1, K2. reflexivity.
Qed.
Print Assumptions C64_fail_stop.

Definition show_call (r : outcome rresult) :=
  match r with
  | Ok (RTrace t) => Ok (show_num t)
  | Ok (RHeader h) => Ok ([hget h "A"; hget h "SAMP_NUM"]%string, [])
  | Throw x => Throw x
  | UB => UB
  end.
Definition fix_bytes : bin_hdr := set_samp_per_tr (set_rev (set_endianness (set_format_code bin_zero 8) 16909060) 1 1 0) 2.
Definition fixed_records : list Z := num_record 1 2 [10; 20] ++ num_record 2 2 [30; 40] ++ num_record 3 2 [50].

(** The third trace lacks a sample.  In a file of variable and in one of fixed
    trace length; has_trace goes on saying that there is a trace. *)
Definition go_show (content : list Z) (cs : list rcall) :=
  match isegy_open plat_example content maps_num with
  | Ok s => match go_on (xrd_call plat_example) (fresh s) cs with
            | Ok (rs, r) => Some (map show_call rs, xhas_trace r, is_fixed (i_bh s))
            | _ => None
            end
  | _ => None
  end.
Example C64_case :
  go_show (file_of var_bytes (num_record 1 2 [10; 20] ++ num_record 2 0 [] ++ num_record 3 2 [30])) [CTrace; CHeader; CTrace; CTrace; CHeader] =
    Some ([Ok ([Some (VInt 1); Some (VInt 2)], [4621819117588971520; 4626322717216342016]); Ok ([Some (VInt 2); Some (VInt 0)], []);
           Throw EIO; Throw EIO; Throw EIO], true, false) /\
  go_show (file_of fix_bytes fixed_records) [CHeader; CTrace; CTrace; CHeader] =
    Some ([Ok ([Some (VInt 1); Some (VInt 2)], []); Ok ([Some (VInt 2); Some (VInt 2)], [4629137466983448576; 4630826316843712512]);
           Throw EIO; Throw EIO], true, true).
Proof. split; vm_compute; reflexivity. Qed.

(** C89, refuted: the condition on the exceptions is needed: after the exception for a trace
    whose header gives -1 samples the next call takes the bytes behind that
    header for a trace of its own. *)
Definition negative_count : list Z := file_of var_bytes (num_record 1 1 [10] ++ num_record 2 (-1) (num_record 2827 0 [])).
Theorem C89_variable_length_refuted : exists p content maps s cs rs r a b,
  sane_alloc p /\ opened p content maps s /\ go_on (xrd_call p) (fresh s) cs = Ok (rs, r) /\
  rs = [Ok a; Throw EAlloc; Ok b] /\ show_call (Ok b) = Ok ([Some (VInt 2827); Some (VInt 0)], []).
Proof.
  assert (K : match isegy_open plat_example negative_count maps_num with
              | Ok s => match go_on (xrd_call plat_example) (fresh s) [CTrace; CTrace; CTrace] with
                        | Ok ([Ok _; Throw EAlloc; Ok b], _) => show_call (Ok b) = Ok ([Some (VInt 2827); Some (VInt 0)], [])
                        | _ => False
                        end
              | _ => False
              end) by (vm_compute; reflexivity).
  destruct (isegy_open plat_example negative_count maps_num) as [s|x|] eqn:E; [|destruct K..].
  destruct (go_on (xrd_call plat_example) (fresh s) [CTrace; CTrace; CTrace]) as [[rs r]|x|] eqn:E1; [|destruct K..].
  destruct rs as [|[a|?|] [|[?|[]|] [|[b|?|] [|? ?]]]]; try (destruct K; fail).
  exists plat_example, negative_count, maps_num, s, [CTrace; CTrace; CTrace], [Ok a; Throw EAlloc; Ok b], r, a, b.
  split; [split; vm_compute; congruence|]. split; [left; exact E|]. split; [exact E1|]. split; [reflexivity|exact K].
Qed.
Print Assumptions C89_variable_length_refuted.

(** C65.  A sorted reader: the calls that return do so with what they would have
    returned had the calls that threw not been made, and leave the reader there. *)
Theorem C65_sorted_reader : forall p content maps s n name so cs rs s',
  0 <= p_max_alloc p -> opened p content maps s -> sorted_open p n name s = Ok so ->
  go_on (xsrd_call p) (fresh_sorted so) cs = Ok (rs, s') ->
  exists so', run (srd_call p) so (returned cs rs) = Ok (results rs, so') /\
    s_map so' = xs_map s' /\ s_rest so' = xs_rest s'.
Proof.
  intros p content maps s n name so cs rs s' HA O So H.
  destruct (go_on_sorted p HA cs so _ rs s' (sorted_tracks _ _ _ _ _ _ _ O So) H) as (so' & R & T1 & T2 & _). exists so'. auto.
Qed.
Print Assumptions C65_sorted_reader.

(** The only exception is that of the memory allocation, and only a call that
    reads the samples of a trace of variable length throws it. *)
Theorem C65_only_memory : forall p content maps s n name so cs rs s' i c x,
  0 <= p_max_alloc p < 2 ^ 63 -> len content < 2 ^ 63 -> opened p content maps s -> sorted_open p n name s = Ok so ->
  go_on (xsrd_call p) (fresh_sorted so) cs = Ok (rs, s') ->
  nth_error cs i = Some c -> nth_error rs i = Some (Throw x) ->
  x = EAlloc /\ is_fixed (i_bh s) = false /\ (c = SNext CTrace \/ exists v k, c = STraces v k).
Proof.
  intros p content maps s n name so cs rs s' i c x HA HL O So H Hc Hr.
  destruct (sorted_fits p content maps s n name so (proj2 HA) HL O So) as [Fa Eb].
  destruct (go_on_calm p HA cs so _ rs s' (sorted_tracks _ _ _ _ _ _ _ O So) Fa eq_refl H i c x Hc Hr) as [[A B] C]. rewrite Eb in B.
  split; [exact A|]. split; [exact B|]. destruct c as [[|]|v k|v k]; cbn [wants_traces] in C; [left; reflexivity|destruct C|right; eauto|destruct C].
Qed.
Print Assumptions C65_only_memory.

Definition show_scall (r : outcome sresult) :=
  match r with
  | Ok (SOne (RTrace t)) => Ok [show_num t]
  | Ok (SOne (RHeader h)) => Ok [([hget h "A"; hget h "SAMP_NUM"]%string, [])]
  | Ok (SManyT l) => Ok (map show_num l)
  | Ok (SManyH l) => Ok (map (fun h => ([hget h "A"; hget h "SAMP_NUM"]%string, [])) l)
  | Throw x => Throw x
  | UB => UB
  end.
Definition go_sorted (content : list Z) (cs : list scall) :=
  match isegy_open plat_example content maps_num with
  | Ok s => match sorted_open plat_example 9 "A" s with
            | Ok so => match go_on (xsrd_call plat_example) (fresh_sorted so) cs with
                       | Ok (rs, s') => Some (map show_scall rs, List.length (xs_rest s'))
                       | _ => None
                       end
            | _ => None
            end
  | _ => None
  end.
(** The trace with the key 3 gives -1 samples: its header overlaps the next one by
    a byte.  Its samples cannot be had; everything else can. *)
Definition one_bad : list Z := file_of var_bytes (num_record 5 1 [10] ++ num_record 3 (-1) [] ++ tl (num_record 512 1 [20])).
Example C65_case :
  go_sorted one_bad [SNext CTrace; SNext CHeader; STraces (VInt 3) 9; SNext CTrace; STraces (VInt 512) 1; SHeaders (VInt 3) 2; SNext CTrace; STraces (VInt 4) 1] =
  Some ([Throw EAlloc; Ok [([Some (VInt 3); Some (VInt (-1))], [])]; Throw EAlloc; Ok [([Some (VInt 5); Some (VInt 1)], [4621819117588971520])];
         Ok [([Some (VInt 512); Some (VInt 1)], [4626322717216342016])]; Ok [([Some (VInt 3); Some (VInt (-1))], [])];
         Ok [([Some (VInt 512); Some (VInt 1)], [4626322717216342016])]; Ok []], 0%nat).
Proof. vm_compute. reflexivity. Qed.
