(** C94: changing trace headers while copying a SEG-Y file. *)
From Coq Require Import Reals.
From Verif Require Import BaseFacts Platform Fp FpSpec TraceHdr SegyTypes SegyCodec CodecSpec LayoutSpec LayoutFacts ISegy OSegy BinFacts
     RoundSpec ReadSpec SegyDecSpec SegyDecFacts SegyDecFacts4 FileSpec SegyEncSpec CopySpec EditSpec EditFacts
     PropertiesCodec PropertiesRound PropertiesRead PropertiesCopy.
Local Open Scope Z_scope.

(** C94.  A client reads a SEG-Y file trace by trace, sets header fields of each
    trace to numbers of its choice, and writes the trace with the writer of the
    file's revision.  The new file is the old one with just the bytes of the
    fields that were set changed, and these hold the numbers.

    Partial: for files that hold only what the reader shows and the writer
    stores, as in C62, for layouts of integers, and not for the field that tells
    the length of the trace. *)
Theorem C94_edit_partial : forall p content nm l ls s fuel ts s1 o f, sane_alloc p -> p_left_first p = true ->
  bytes content -> len content < 2 ^ 63 ->
  safe_layout l -> NoDup (names l) -> integers l -> short_count ((nm, l) :: ls) ->
  isegy_open p content ((nm, l) :: ls) = Ok s -> read_all p fuel s = Ok (ts, s1) ->
  order_in content = Some o -> plain content (i_bh s) (i_text s) ->
  let fmt := bh_format_code (i_bh s) in
  let pos := first_at (i_bh s) (len (i_text s)) in
  tidy p o fmt l content pos ts ->
  (forall i t, nth_error ts i = Some t -> Forall (settable (i_bh s) l) (f i t)) ->
  exists c', edit p content ((nm, l) :: ls) f fuel = Ok c' /\ edited o fmt l f ts pos content c'.
Proof.
  intros p content nm l ls s fuel ts s1 o f A Hp B L Sf N Ints Sc O Ra Or Pl fmt pos Ti Se. subst fmt pos.
  assert (Op : opened p content ((nm, l) :: ls) s) by (left; exact O).
  rewrite <- (open_first _ _ _ _ Op) in *. pose proof O as O'. unfold isegy_open in O'.
  rewrite (open_order _ _ _ _ _ _ B O') in Or. injection Or as <-.
  destruct (C25_extended_text_headers p content ((nm, l) :: ls) s Op) as (bs & T1 & T2 & _ & T3 & _).
  apply (edit_file p content nm l ls s fuel ts s1); try assumption. exists bs. auto.
Qed.
Print Assumptions C94_edit_partial.

(** Three traces of different lengths; the first field is numbered, the sample
    interval becomes -2. *)
Definition renumber (i : nat) (t : trace) : list (string * Z) := [("A", 256 * Z.of_nat i + 5); ("SAMP_INT", -2)]%string.
Definition edit_rec (a b n : Z) (smp : list Z) : list Z :=
  [a; b] ++ zeros 112 ++ [0; n; 255; 254] ++ zeros 122 ++ smp.
Example C94_case : exists s ts s1, isegy_open plat_example copy_example maps_num = Ok s /\
  read_all plat_example 4 s = Ok (ts, s1) /\
  order_in copy_example = Some Big /\ plain copy_example (i_bh s) (i_text s) /\
  tidy plat_example Big (bh_format_code (i_bh s)) lay_num copy_example (first_at (i_bh s) (len (i_text s))) ts /\
  safe_layout lay_num /\ NoDup (names lay_num) /\ integers lay_num /\ short_count maps_num /\
  (forall i t, nth_error ts i = Some t -> Forall (settable (i_bh s) lay_num) (renumber i t)) /\
  edit plat_example copy_example maps_num renumber 4 =
    Ok (blank_text ++ bin_block Swapped copy_bin ++ text_example 65 ++
        edit_rec 0 5 2 [0; 0; 1; 127; 255; 255] ++ edit_rec 1 5 0 [] ++ edit_rec 2 5 1 [1; 2; 3]).
Proof.
  destruct C62_case as (s & ts & s1 & O & R & Sh & Or & Pl & Ti & S1 & S2 & S3 & S4 & _).
  exists s, ts, s1. split; [exact O|]. split; [exact R|]. split; [exact Or|]. split; [exact Pl|]. split; [exact Ti|].
  split; [exact S1|]. split; [exact S2|]. split; [exact S3|]. split; [exact S4|]. split; [|vm_compute; reflexivity].
  assert (L : List.length ts = 3%nat) by (rewrite <- (map_length show_num), Sh; reflexivity).
  intros i t Hi. assert (Hl : (i < 3)%nat) by (rewrite <- L; apply nth_error_Some; congruence).
  unfold renumber. constructor; [|constructor; [|constructor]].
  - exists (0, ("A"%string, I16)), (as_signed 2). split; [left; reflexivity|]. split; [reflexivity|]. split; [reflexivity|].
    split; [|discriminate]. cbn [fst snd]. destruct i as [|[|[|i]]]; [reflexivity..|lia].
  - exists (116, ("SAMP_INT"%string, I16)), (as_signed 2). split; [right; right; left; reflexivity|]. split; [reflexivity|].
    split; [reflexivity|]. split; [reflexivity|discriminate].
Qed.

(** The field that tells the length of a trace is different: a smaller number
    makes the writer write behind its buffer, with a larger one the file gets
    samples that the client never gave (here 127 255 255 of the trace before). *)
Theorem C94_samp_num_refuted :
  edit plat_example copy_example maps_num (fun i _ => match i with O => [("SAMP_NUM", 1)]%string | _ => [] end) 4 = UB /\
  (let head := blank_text ++ bin_block Swapped copy_bin ++ text_example 65 ++ copy_rec 7 2 [0; 0; 1; 127; 255; 255] in
   edit plat_example (head ++ copy_rec 9 1 [1; 2; 3]) maps_num (fun i _ => match i with 1%nat => [("SAMP_NUM", 2)]%string | _ => [] end) 4 =
     Ok (head ++ copy_rec 9 2 [1; 2; 3; 127; 255; 255])).
Proof. split; vm_compute; reflexivity. Qed.
Print Assumptions C94_samp_num_refuted.

(** A number that does not fit is stored modulo the size of the field. *)
Theorem C94_out_of_range_refuted :
  edit plat_example (copy_of (plain_bin 8) (copy_rec 1 1 [5])) maps_num (fun _ _ => [("A", 65536 + 7)]%string) 4 =
    Ok (copy_of (plain_bin 8) (copy_rec 7 1 [5])).
Proof. vm_compute. reflexivity. Qed.
Print Assumptions C94_out_of_range_refuted.
