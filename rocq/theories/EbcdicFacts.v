(** Facts about the character tables. *)
From Verif Require Import BaseFacts Ebcdic.

Definition all_bytes : list Z := map Z.of_nat (seq 0 256).

Lemma all_bytes_in b : is_byte b -> In b all_bytes.
Proof.
  intros H. unfold all_bytes. apply in_map_iff. exists (Z.to_nat b).
  unfold is_byte in H. split; [lia|]. apply in_seq. lia.
Qed.

Lemma byte_forall (P : Z -> bool) :
  forallb P all_bytes = true -> forall b, is_byte b -> P b = true.
Proof. rewrite forallb_forall. intros H b Hb. apply H, all_bytes_in, Hb. Qed.

Lemma a2e2a b : is_byte b -> tr_byte e2a_table (tr_byte a2e_table b) = b.
Proof.
  intros H. apply Z.eqb_eq. revert b H.
  apply (byte_forall (fun b => tr_byte e2a_table (tr_byte a2e_table b) =? b)).
  vm_compute. reflexivity.
Qed.
Lemma e2a2e b : is_byte b -> tr_byte a2e_table (tr_byte e2a_table b) = b.
Proof.
  intros H. apply Z.eqb_eq. revert b H.
  apply (byte_forall (fun b => tr_byte a2e_table (tr_byte e2a_table b) =? b)).
  vm_compute. reflexivity.
Qed.

Lemma map_id_on {A} (f : A -> A) l : (forall x, In x l -> f x = x) -> map f l = l.
Proof. intros H. rewrite <- (map_id l) at 2. apply map_ext_in, H. Qed.

Lemma a2e2a_str s : bytes s -> ebcdic_to_ascii (ascii_to_ebcdic s) = s.
Proof.
  intros H. unfold ebcdic_to_ascii, ascii_to_ebcdic. rewrite map_map. apply map_id_on.
  intros b Hb. apply a2e2a. apply (proj1 (Forall_forall _ _) H b Hb).
Qed.
Lemma e2a2e_str s : bytes s -> ascii_to_ebcdic (ebcdic_to_ascii s) = s.
Proof.
  intros H. unfold ebcdic_to_ascii, ascii_to_ebcdic. rewrite map_map. apply map_id_on.
  intros b Hb. apply e2a2e. apply (proj1 (Forall_forall _ _) H b Hb).
Qed.

Lemma tr_bytes_a2e s : bytes (ascii_to_ebcdic s).
Proof.
  apply Forall_forall. intros x Hx. apply in_map_iff in Hx as (b & <- & _).
  unfold tr_byte. pose proof (Z.mod_pos_bound b 256 ltac:(lia)).
  assert (H' : is_byte (b mod 256)) by exact H.
  assert (E : is_byteb (nth (Z.to_nat (b mod 256)) a2e_table 0) = true).
  { revert H'. generalize (b mod 256). intros z Hz.
    revert z Hz. apply (byte_forall (fun z => is_byteb (nth (Z.to_nat z) a2e_table 0))).
    vm_compute. reflexivity. }
  unfold is_byteb in E. unfold is_byte. lia.
Qed.
Lemma tr_bytes_e2a s : bytes (ebcdic_to_ascii s).
Proof.
  apply Forall_forall. intros x Hx. apply in_map_iff in Hx as (b & <- & _).
  unfold tr_byte. pose proof (Z.mod_pos_bound b 256 ltac:(lia)).
  assert (H' : is_byte (b mod 256)) by exact H.
  assert (E : is_byteb (nth (Z.to_nat (b mod 256)) e2a_table 0) = true).
  { revert H'. generalize (b mod 256). intros z Hz.
    revert z Hz. apply (byte_forall (fun z => is_byteb (nth (Z.to_nat z) e2a_table 0))).
    vm_compute. reflexivity. }
  unfold is_byteb in E. unfold is_byte. lia.
Qed.

(** Codes of letters, digits and the space. *)
Definition upper037 (c : Z) : Z :=
  if c <=? 73 then 193 + (c - 65) else if c <=? 82 then 209 + (c - 74) else 226 + (c - 83).
Lemma alnum_codes c :
  (65 <= c <= 90 -> ascii_to_ebcdic [c] = [upper037 c]) /\
  (97 <= c <= 122 -> ascii_to_ebcdic [c] = [upper037 (c - 32) - 64]) /\
  (48 <= c <= 57 -> ascii_to_ebcdic [c] = [240 + (c - 48)]) /\
  (c = 32 -> ascii_to_ebcdic [c] = [64]).
Proof.
  assert (T : forall b, is_byte b ->
    ((if (65 <=? b) && (b <=? 90) then tr_byte a2e_table b =? upper037 b else true) &&
     (if (97 <=? b) && (b <=? 122) then tr_byte a2e_table b =? upper037 (b - 32) - 64 else true) &&
     (if (48 <=? b) && (b <=? 57) then tr_byte a2e_table b =? 240 + (b - 48) else true) &&
     (if (b =? 32) then tr_byte a2e_table b =? 64 else true)) = true).
  { apply byte_forall. vm_compute. reflexivity. }
  repeat split; intros H; specialize (T c ltac:(unfold is_byte; lia));
    apply andb_prop in T as [T T4]; apply andb_prop in T as [T T3]; apply andb_prop in T as [T1 T2];
    unfold ascii_to_ebcdic; cbn [map]; f_equal; apply Z.eqb_eq.
  - destruct (_ && _) eqn:E in T1; [exact T1|lia].
  - destruct (_ && _) eqn:E in T2; [exact T2|lia].
  - destruct (_ && _) eqn:E in T3; [exact T3|lia].
  - destruct (_ =? _) eqn:E in T4; [exact T4|lia].
Qed.
