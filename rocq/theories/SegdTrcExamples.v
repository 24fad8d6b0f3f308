(** Concrete files of revision 2 for the theorems about reading traces. *)
From Verif Require Import Base BaseFacts Platform CodecSpec Fp TraceHdr SegyTypes SegdTypes SegdSpec SegdDecSpec SegdTrcSpec
  SegdReadSpec ISegd SegdTrcRead SegdExamples.
Local Open Scope Z_scope.

(** General headers of a record of format [x y] (packed decimal) with [a]
    additional blocks, [z] extended blocks in general header 1 and 1 in
    general header 2, one channel set of [n] channels with descale exponent 1. *)
Definition file_head (x y a z : Z) : list Z :=
  [0x00; 0x01; x; y; 0; 0; 0; 0; 0; 0; 0x26; 16 * a + 0; 0x01; 0; 0; 0; 0; 0; 0; 0; 0; 0; 32; 0; 0; 0x80; 0;
   0x01; 0x01; 0; z; 0].
Definition file_gh2 : list Z :=
  [0; 0; 1; 0; 2; 0; 1; 0; 0; 0; 2; 1; 0; 0; 0; 0; 0; 0; 2; 0] ++ repeat 0 12.
Definition file_ghN (k v : Z) : list Z := [0; 0; v; 0; 0; v; 0; 0; 0; 0; v; 0; 0; 1; 1; 1; 0; 0; k; 1] ++ repeat 0 12.
Definition file_set (n : Z) : list Z :=
  [0x01; 0x01; 0; 0; 0; 8; 4; 0; 0x00; n; 0x10; 0x20] ++ repeat 0 20.
(** A trace of channel set [cs] with [n] samples. *)
Definition file_trace (cs n : Z) (ws : list Z) : list Z :=
  [0x00; 0x01; 0x01; cs; 0x00; 0x01; 0; 0; 0; 1; 0; 0; 0; 0; 0; 0; 0; 0; 0; 0] ++
  [0; 0; 5; 0; 0; 6; 1; 0; 0; n] ++ repeat 0 22 ++ ws.

Definition one_rec (x y n : Z) (traces : list Z) : list Z := file_head x y 1 0 ++ file_gh2 ++ file_set n ++ traces.

Definition no_reader : isegd := mkD (open_in []) gh1_zero gh2_zero gh3_zero [] [] [] [] [] 0 0 0.
Definition opened (b : list Z) : isegd := match isegd_open segd_plat b [] with Ok s => s | _ => no_reader end.
Definition after (s : isegd) : isegd := match d_read_trace segd_plat s with Ok (_, s') => s' | _ => no_reader end.
Definition got (s : isegd) : trace := match d_read_trace segd_plat s with Ok (t, _) => t | _ => mkTrace [] [] end.
Definition first_set (s : isegd) : chset := match d_sets s with (c :: _) :: _ => c | _ => ex_cs 1 1 end.

Lemma table_of s c : (let* sets := nth_1 (d_sets s) (dec (th_at s) 4 2) in nth_1 sets (set_num (th_at s))) = Ok c -> in_table s c.
Proof.
  intros H. destruct (nth_1_inv (d_sets s) (dec (th_at s) 4 2)) as [[cs Hcs]|E]; [|rewrite E in H; discriminate].
  rewrite (nth_1_ok _ _ _ Hcs) in H. cbn [bind] in H.
  destruct (nth_1_inv cs (set_num (th_at s))) as [[c' Hc]|E]; [|rewrite E in H; discriminate].
  rewrite (nth_1_ok _ _ _ Hc) in H. injection H as <-. exists cs. split; assumption.
Qed.
Lemma no_table s : (let* sets := nth_1 (d_sets s) (dec (th_at s) 4 2) in nth_1 sets (set_num (th_at s))) = UB -> forall c, ~ in_table s c.
Proof. intros H c T. rewrite (table_ok s c T) in H. discriminate. Qed.

Ltac byte_list := unfold bytes; apply Forall_forall; intros x Hx; cbn in Hx; unfold is_byte;
  repeat (destruct Hx as [<-|Hx]; [lia|]); destruct Hx.

(** 8058: three traces in a record with channels 2 and a record with 1. *)
Definition wds : list Z := [0x3f; 0x80; 0; 0; 0xc0; 0x20; 0; 0].
Definition ex_8058 : list Z :=
  one_rec 0x80 0x58 2 (file_trace 1 2 wds ++ file_trace 1 1 (firstn 4 wds)) ++
  one_rec 0x80 0x58 1 (file_trace 1 2 wds).
