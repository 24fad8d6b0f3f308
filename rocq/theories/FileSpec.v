(** What a SEG-Y file on disk looks like, stated without the writers: preamble
    and one record per trace. *)
From Verif Require Import Base Platform TraceHdr SegyTypes SegyCodec ISegy OSegy CodecSpec LayoutSpec RoundSpec.

(** The three writers with their constructor arguments (binary header and
    layouts are given separately). *)
Inductive writer : Type :=
| W0 (txt : list Z)
| W1 (txts : list (list Z))
| W2 (txts stanzas : list (list Z)).

Definition w_open (p : platform) (w : writer) (bh : bin_hdr) (ls : layouts) : outcome osegy :=
  match w with
  | W0 txt => rev0_open p txt bh ls
  | W1 txts => rev1_open p txts bh ls
  | W2 txts st => rev2_open p txts bh st ls
  end.

(** The text headers the caller gave. *)
Definition given_texts (w : writer) : list (list Z) :=
  match w with W0 [] => [] | W0 t => [t] | W1 ts => ts | W2 ts _ => ts end.
Definition ext_texts (w : writer) : list (list Z) := tl (given_texts w).

(** Header blocks per trace. *)
Definition header_count (w : writer) (bh : bin_hdr) : Z :=
  match w with W2 _ _ => Z.max 1 (bh_max_num_add_tr_headers bh) | _ => 1 end.

(** Does every trace bring its own sample count? *)
Definition own_count (w : writer) (bh : bin_hdr) : bool :=
  match w with W0 _ => false | _ => bh_fixed_tr_length bh =? 0 end.

(** Bytes per sample in each format of the standard. *)
Definition sample_width (fmt : Z) : Z :=
  match fmt with
  | 8 | 16 => 1 | 3 | 11 => 2 | 7 | 15 => 3 | 6 | 9 | 12 => 8 | _ => 4
  end.

(** A 240-byte header block: every field of the layout at its place, zero
    elsewhere; a block without a layout is zero. *)
Definition is_block (p : platform) (e : endian) (ol : option layout) (h : hdr) (b : list Z) : Prop :=
  len b = 240 /\
  match ol with
  | None => b = zeros 240
  | Some l =>
    (forall en, In en l ->
       wr_field p e (e_type en) (hget h (e_name en)) = Ok (slice (e_off en) (width (e_type en)) b)) /\
    (forall i, 0 <= i < 240 -> ~ covered l i -> nth_error b (Z.to_nat i) = Some 0)
  end.

Definition sample_as (p : platform) (e : endian) (fmt d : Z) (bs : list Z) : Prop :=
  exists w, sample_writer p e fmt = Ok w /\ w d = Ok bs.

(** [n] header blocks and [area] bytes of samples, the first of them being the
    samples of the trace. *)
Definition is_record (p : platform) (e : endian) (fmt : Z) (ls : layouts) (n area : Z)
           (t : trace) (r : list Z) : Prop :=
  exists blocks smps pad, r = concat blocks ++ concat smps ++ pad /\ len blocks = n /\
    (forall i b, nth_error blocks i = Some b ->
       is_block p e (option_map snd (nth_error ls i)) (t_hdr t) b) /\
    Forall2 (sample_as p e fmt) (t_smp t) smps /\ len (concat smps ++ pad) = area.

(** Bytes of samples stored for a trace. *)
Definition sample_area (own : bool) (declared fmt : Z) (t : trace) : Z :=
  (if own then match given (t_hdr t) "SAMP_NUM" with Some n => n | None => 0 end else declared)
  * sample_width fmt.

Definition sum (l : list Z) : Z := fold_right Z.add 0 l.

(** The bytes a trace leaves in its sample area, [prev] being those of the
    trace before: its own samples, then what the trace before left there, then
    zeros. *)
Definition over (prev own : list Z) (area : Z) : list Z :=
  map (fun i => nth i own (nth i prev 0)) (seq 0 (Z.to_nat area)).

(** [xs] are the sample areas of the traces [ts] written one after another. *)
Inductive areas (p : platform) (e : endian) (fmt : Z) (size : trace -> Z)
  : list Z -> list trace -> list (list Z) -> Prop :=
| areas_nil prev : areas p e fmt size prev [] []
| areas_cons prev t ts smps xs :
    Forall2 (sample_as p e fmt) (t_smp t) smps ->
    areas p e fmt size (over prev (concat smps) (size t)) ts xs ->
    areas p e fmt size prev (t :: ts) (over prev (concat smps) (size t) :: xs).
