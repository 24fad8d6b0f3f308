(** What a constructor of a writer that throws may leave in its file. *)
From Verif Require Import Base Platform SegyTypes SegyCodec ISegy OSegy SegdTypes OSegd Procs CtorX.

(** Of a SEG-Y file: nothing, if the layouts or the size of a text are refused;
    the first text header, if these pass and the byte order is refused; all
    headers, if that passes too and the sample format is refused or memory runs
    out.  [texts] are the text headers given, none for the template [dflt]. *)
Definition segy_left (bh : bin_hdr) (ls : layouts) (dflt : list Z) (texts stanzas : list (list Z)) (e : exn) (c : list Z) : Prop :=
  let ts := match texts with [] => [dflt] | _ => texts end in
  let sizes := Forall (fun t => len t = 3200) (texts ++ stanzas) in
  let orders := [0; 16909060; 67305985] in
  (c = [] /\ e = ESedaman /\ (check_tr_hdr_map bh ls = Throw ESedaman \/ ~ sizes)) \/
  check_tr_hdr_map bh ls <> Throw ESedaman /\ sizes /\
  ((c = firstn (Z.to_nat 3200) (hd [] ts) /\ len c = 3200 /\ e = ESedaman /\ ~ In (bh_endianness bh) orders) \/
   (exists b, c = firstn (Z.to_nat 3200) (hd [] ts) ++ b ++ concat (tl ts) /\ len b = 400 /\ len c = 400 + 3200 * len ts /\
     In (bh_endianness bh) orders /\ (e = EAlloc \/ e = ESedaman /\ ~ In (bh_format_code bh) [0; 1; 2; 3; 5; 6; 7; 8; 9; 10; 11; 12; 15; 16]))).

(** Of a SEG-D file: nothing, if the number of scan types or the sample format
    is refused; else two or more blocks of 32 bytes, if the number of channel
    sets of a scan type is. *)
Definition segd_left (a : osegd_args) (e : exn) (c : list Z) : Prop :=
  let g1 := oa_g1 a in
  let n := (if g1_channel_sets g1 =? 1665 then g2_channel_sets (oa_g2 a) else g1_channel_sets g1) mod 2 ^ 16 in
  let first := len (oa_sets a) = g1_scan_types g1 mod 2 ^ 64 /\
    In (g1_format_code g1) [8015; 8022; 8024; 8036; 8038; 8042; 8044; 8048; 8058; 8080; 9036; 9038; 9058; 9080] in
  e = ESedaman /\
  (c = [] /\ ~ first \/
   first /\ exists k cs, len c = 32 * k /\ 2 <= k /\ In cs (oa_sets a) /\ len cs <> n).

Definition ctor_left (k : ctor) (e : exn) (c : list Z) : Prop :=
  match k with
  | NewRev0 txt bh ls => segy_left bh ls rev0_default_text (match txt with [] => [] | _ => [txt] end) [] e c
  | NewRev1 txts bh ls => segy_left bh ls rev1_default_text txts [] e c
  | NewRev2 txts bh stanzas ls => segy_left bh ls rev2_default_text txts stanzas e c
  | NewSegd a => segd_left a e c
  end.
Definition file_of (s : osegy + osegd) : file := match s with inl s => o_file s | inr s => od_file s end.
(** The constructions of OSegy.v and OSegd.v. *)
Definition opened (p : platform) (k : ctor) : outcome (osegy + osegd) :=
  match k with
  | NewRev0 txt bh ls => let* s := rev0_open p txt bh ls in Ok (inl s)
  | NewRev1 txts bh ls => let* s := rev1_open p txts bh ls in Ok (inl s)
  | NewRev2 txts bh st ls => let* s := rev2_open p txts bh st ls in Ok (inl s)
  | NewSegd a => let* s := args_open p a in Ok (inr s)
  end.
