(** The SEG-Y readers once more, with what a call that throws leaves behind.
    Models src/ISEGY.cpp:132-142 and 450-557 and src/ISEGYSorted1D.cpp. *)
From Verif Require Import Base Platform Fp TraceHdr SegyTypes SegyCodec ISegy Sorted1D StepX.

(** The reader and failbit of its stream.  The exception mask contains failbit
    (CommonSEGY.cpp:27), so [read], [seekg] and [tellg] throw on a stream on
    which it is set; nothing in the library clears it. *)
Record reader : Type := mkR { x_i : isegy; x_fail : bool }.
Definition R (A : Type) : Type := St reader A.

Definition i_put (s : isegy) (f : file) (cur bufsz : Z) : isegy :=
  mkI f (i_bh s) (i_maps s) (i_text s) (i_stanzas s) (i_endian s) (i_bps s)
      (i_spt s) bufsz (i_first s) cur (i_eod s).

(** An operation on the stream followed, when it succeeds, by
    [curr_pos = file.tellg()] ([track]).  A failed operation leaves a position
    no later operation can see; it is not modelled. *)
Definition on_file {A} (track : bool) (op : file -> outcome (A * file)) : R A := fun r =>
  if x_fail r then (Throw EIO, r) else
  match op (i_file (x_i r)) with
  | Ok (a, f) =>
    (Ok a, mkR (i_put (x_i r) f (if track then fpos f else i_cur (x_i r)) (i_bufsz (x_i r))) false)
  | Throw e => (Throw e, mkR (x_i r) true)
  | UB => (UB, r)
  end.

(** ISEGY.cpp:132-136 *)
Definition fill_buf (n : Z) : R (list Z) := on_file true (fread n).
(** ISEGY.cpp:138-142 *)
Definition skip_bytes (off : Z) : R unit :=
  on_file true (fun f => let* f1 := fseek_cur off f in Ok (tt, f1)).
(** [file.seekg(pos)] of ISEGYSorted1D.cpp: [curr_pos] is not touched. *)
Definition seek_to (pos : Z) : R unit :=
  on_file false (fun f => let* f1 := fseek pos f in Ok (tt, f1)).

(** ISEGY.cpp:453-505, [n] iterations remain. *)
Fixpoint xrd_headers (p : platform) (e : endian) (ls : layouts) (n : nat) (h : hdr) : R hdr :=
  match n with
  | O => xret h
  | S n' =>
    match ls with
    | [] => let! _ := skip_bytes TR_HEADER_SIZE in xrd_headers p e [] n' h
    | (_, l) :: ls' =>
      let! block := fill_buf TR_HEADER_SIZE in
      let! h1 := xlift (rd_fields p e block l h) in
      xrd_headers p e ls' n' h1
    end
  end.

(** ISEGY.cpp:450-507 *)
Definition xread_trc_header (p : platform) : R hdr :=
  let! r := xget in
  let s := x_i r in
  let! n := xlift (sarith 32 (bh_max_num_add_tr_headers (i_bh s) + 1)) in
  xrd_headers p (i_endian s) (i_maps s) (Z.to_nat n) [].

(** ISEGY.cpp:524-532 on the buffer as it is. *)
Definition xread_smpls (p : platform) : R (list Z) :=
  let! r := xget in
  let s := x_i r in
  let! buf := fill_buf (i_bufsz s) in
  let! rd := xlift (sample_reader p (i_endian s) (bh_format_code (i_bh s))) in
  let! (smp, _) := xlift (prep rd (Z.to_nat (i_bufsz s / i_bps s)) buf) in
  xret smp.

(** [samp_buf.resize]: strong exception guarantee. *)
Definition set_buf (sz : Z) : R unit := fun r =>
  (Ok tt, mkR (i_put (x_i r) (i_file (x_i r)) (i_cur (x_i r)) sz) (x_fail r)).

(** ISEGY.cpp:544-549 with 121-129 and 534-542. *)
Definition xread_trace (p : platform) : R trace :=
  let! h := xread_trc_header p in
  let! r := xget in
  let s := x_i r in
  if is_fixed (i_bh s) then
    let! smp := xread_smpls p in
    xret (mkTrace h smp)
  else
    let (v, h') := hidx h "SAMP_NUM" in
    let! n := xlift (get_int v) in
    let want := wrapu 64 (wrapu 64 n * i_bps s) in
    let! sz := xlift (if i_bufsz s =? want then Ok want else resize_to p want) in
    let! _ := set_buf sz in
    let! smp := xread_smpls p in
    xret (mkTrace h' smp).

(** ISEGY.cpp:509-522 *)
Definition xread_header (p : platform) : R hdr :=
  let! h := xread_trc_header p in
  let! r := xget in
  let s := x_i r in
  if is_fixed (i_bh s) then
    let! off := xlift (sarith 32 (i_spt s * i_bps s)) in
    let! _ := skip_bytes off in
    xret h
  else
    let (v, h') := hidx h "SAMP_NUM" in
    let! n := xlift (get_int v) in
    let! _ := skip_bytes (wraps 64 (wrapu 64 n * i_bps s)) in
    xret h'.

(** ISEGY.cpp:551-557 *)
Definition xhas_trace (r : reader) : bool := has_trace (x_i r).

(** ** The sorted reader *)
Record xsorted : Type := mkXS { xs_base : reader; xs_map : kmap; xs_rest : kmap }.

Definition on_base {A} (m : R A) : St xsorted A := fun s =>
  let (o, b) := m (xs_base s) in (o, mkXS b (xs_map s) (xs_rest s)).
Definition xadvance : St xsorted unit := fun s =>
  (Ok tt, mkXS (xs_base s) (xs_map s) (advance (xs_rest s))).

(** ISEGYSorted1D.cpp:44-70: the iterators move when everything else has
    succeeded. *)
Definition xs_read {A} (rd : R A) : St xsorted A :=
  let! s := xget in
  match xs_rest s with
  | (_, pos :: _) :: _ =>
    let! _ := on_base (seek_to pos) in
    let! a := on_base rd in
    let! _ := xadvance in
    xret a
  | _ => xlift UB
  end.

(** ISEGYSorted1D.cpp:89-95, 106-112 *)
Fixpoint xread_at {A} (rd : R A) (ps : list Z) (max_num : Z) : St xsorted (list A) :=
  match ps with
  | [] => xret []
  | pos :: ps' =>
    if max_num =? 0 then xret []
    else
      let! _ := on_base (seek_to pos) in
      let! a := on_base rd in
      let! l := xread_at rd ps' (max_num - 1) in
      xret (a :: l)
  end.

(** ISEGYSorted1D.cpp:83-98 and 100-115 *)
Definition xget_by {A} (rd : R A) (v : value) (max_num : Z) : St xsorted (list A) :=
  let! s := xget in
  match kfind (xs_map s) v with
  | None => xret []
  | Some ps => xread_at rd ps max_num
  end.
