(** What a client of the SEG-Y writers that goes on after an exception relies on. *)
From Verif Require Import Base Platform TraceHdr SegyTypes OSegy FileSpec.

(** The traces whose calls succeeded. *)
Fixpoint accepted (bs : list bool) (ts : list trace) : list trace :=
  match bs, ts with
  | b :: bs', t :: ts' => if b then t :: accepted bs' ts' else accepted bs' ts'
  | _, _ => []
  end.

(** The layouts of the header blocks behind the first one. *)
Definition further_layouts (w : writer) (bh : bin_hdr) (ls : layouts) : layouts :=
  firstn (Z.to_nat (header_count w bh - 1)) (tl ls).

(** Nothing about the trace comes to light after its first header block was
    written: a sample count the buffer can be resized to, and no real number
    for a field of a further header block. *)
Definition early (p : platform) (w : writer) (bh : bin_hdr) (ls : layouts) (t : trace) : Prop :=
  (own_count w bh = true ->
   exists n, hget (t_hdr t) "SAMP_NUM" = Some (VInt n) /\ 0 <= n /\ 8 * n <= p_max_alloc p) /\
  (forall nm l en d, In (nm, l) (further_layouts w bh ls) -> In en l -> hget (t_hdr t) (e_name en) <> Some (VDbl d)).
