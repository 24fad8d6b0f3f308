(** Base layer: outcomes, machine-integer wraps, byte codecs, cursors, files.

    Models: include/util.hpp (read, write, swap) and the parts of
    std::fstream the library relies on.  No proofs in this file. *)
From Coq Require Export Ascii String ZArith Bool List.
Export ListNotations.
Open Scope Z_scope.

(** ** Outcomes

    [Ok] = the C++ expression returned; [Throw] = it threw; [UB] = the C++
    standard gives it no meaning. *)
Inductive exn : Type :=
| ESedaman      (* sedaman::Exception, src/Exception.cpp *)
| EIO           (* std::ios_base::failure, CommonSEGY.cpp:27 exception mask *)
| EVariant      (* std::bad_variant_access, get<int64_t>(v) on a double *)
| EAlloc        (* std::length_error / std::bad_alloc from vector growth *)
| ELoop.        (* not a C++ exception: the modelled loop ran out of fuel,
                   i.e. the C++ loop had not stopped after that many steps *)

Inductive outcome (A : Type) : Type :=
| Ok (a : A)
| Throw (e : exn)
| UB.
Arguments Ok {A} a.
Arguments Throw {A} e.
Arguments UB {A}.

Definition bind {A B} (x : outcome A) (f : A -> outcome B) : outcome B :=
  match x with
  | Ok a => f a
  | Throw e => Throw e
  | UB => UB
  end.

Notation "'let*' x ':=' e 'in' k" := (bind e (fun x => k))
  (at level 61, x pattern, e at next level, right associativity).

Definition is_ok {A} (x : outcome A) : bool :=
  match x with Ok _ => true | _ => false end.

(** Left-to-right traversal that stops at the first non-[Ok] outcome: the
    pattern of every [for] loop in the library whose body can throw. *)
Fixpoint mapM {A B} (f : A -> outcome B) (l : list A) : outcome (list B) :=
  match l with
  | [] => Ok []
  | a :: l' =>
    let* b := f a in
    let* bs := mapM f l' in
    Ok (b :: bs)
  end.

(** ** Machine integers *)

(** Conversion to an unsigned type of [w] bits. *)
Definition wrapu (w : Z) (v : Z) : Z := v mod 2 ^ w.

(** Conversion to a signed type of [w] bits (two's complement). *)
Definition wraps (w : Z) (v : Z) : Z :=
  let u := v mod 2 ^ w in if u <? 2 ^ (w - 1) then u else u - 2 ^ w.

Definition in_i (w v : Z) : bool := (- 2 ^ (w - 1) <=? v) && (v <? 2 ^ (w - 1)).
Definition in_u (w v : Z) : bool := (0 <=? v) && (v <? 2 ^ w).

(** Signed arithmetic result in a [w]-bit type: overflow is undefined. *)
Definition sarith (w v : Z) : outcome Z := if in_i w v then Ok v else UB.

(** ** Bytes *)

Definition is_byte (b : Z) : Prop := 0 <= b < 256.
Definition bytes (l : list Z) : Prop := Forall is_byte l.
Definition is_byteb (b : Z) : bool := (0 <=? b) && (b <? 256).
Definition bytesb (l : list Z) : bool := forallb is_byteb l.

Definition len {A} (l : list A) : Z := Z.of_nat (List.length l).
Definition zeros (n : Z) : list Z := repeat 0 (Z.to_nat n).

(** Object representation of an [n]-byte integer on the little-endian host. *)
Fixpoint le_enc (n : nat) (v : Z) : list Z :=
  match n with
  | O => []
  | S n' => v mod 256 :: le_enc n' (v / 256)
  end.

Fixpoint le_dec (l : list Z) : Z :=
  match l with
  | [] => 0
  | b :: l' => b + 256 * le_dec l'
  end.

(** util.hpp:70-80 [swap]: reverse the bytes of an [n]-byte integer. *)
Definition swapb (n : nat) (v : Z) : Z := le_dec (rev (le_enc n v)).

(** ** Cursors

    A [char const*] into an array is modelled by the bytes from the pointer to
    the end of the array; a reader consumes a prefix.  Reading past the end of
    the array is [UB]. *)
Definition P (A : Type) : Type := list Z -> outcome (A * list Z).

Definition pret {A} (a : A) : P A := fun c => Ok (a, c).
Definition pbind {A B} (p : P A) (f : A -> P B) : P B :=
  fun c => match p c with
           | Ok (a, c') => f a c'
           | Throw e => Throw e
           | UB => UB
           end.
Notation "'let+' x ':=' e 'in' k" := (pbind e (fun x => k))
  (at level 61, x pattern, e at next level, right associativity).

Definition pmap {A B} (f : A -> B) (p : P A) : P B :=
  let+ a := p in pret (f a).

(** [n] raw bytes. *)
Definition ptake (n : nat) : P (list Z) :=
  fun c => if Nat.leb n (List.length c) then Ok (firstn n c, skipn n c) else UB.

(** Advance the pointer by [n] bytes. Pointing one past the end is allowed. *)
Definition pskip (n : nat) : P unit :=
  fun c => if Nat.leb n (List.length c) then Ok (tt, skipn n c) else UB.

(** util.hpp:39-46 [read<T>] for an unsigned [T] of [n] bytes: memcpy from the
    pointer and advance. *)
Definition pread (n : nat) : P Z := pmap le_dec (ptake n).

(** Run a reader [n] times: a counted loop around a reader. *)
Fixpoint prep {A} (p : P A) (n : nat) : P (list A) :=
  match n with
  | O => pret []
  | S n' => let+ a := p in let+ l := prep p n' in pret (a :: l)
  end.

(** ** Output cursors

    A [char*] into an array is modelled by the bytes from the pointer to the
    end of the array.  A writer returns the bytes the pointer moved over and
    the bytes at the new pointer.  Writing past the end is [UB]. *)
Definition W : Type := list Z -> outcome (list Z * list Z).

Definition wnil : W := fun c => Ok ([], c).
Definition wseq (w1 w2 : W) : W := fun c =>
  let* (d1, c1) := w1 c in
  let* (d2, c2) := w2 c1 in
  Ok (d1 ++ d2, c2).
Notation "a ;; b" := (wseq a b) (at level 60, right associativity).

(** Store bytes and advance (util.hpp:56-61 [write<T>]). *)
Definition wput (d : list Z) : W := fun c =>
  if Nat.leb (List.length d) (List.length c)
  then Ok (d, skipn (List.length d) c) else UB.

(** [ptr += n]. *)
Definition wskip (n : nat) : W := fun c =>
  if Nat.leb n (List.length c) then Ok (firstn n c, skipn n c) else UB.

(** [*ptr = f( *ptr )] without advancing. *)
Definition wmod (f : Z -> Z) : W := fun c =>
  match c with
  | b :: c' => Ok ([], f b :: c')
  | [] => UB
  end.

(** A computation that may fail before it writes. *)
Definition wlet {A} (x : outcome A) (f : A -> W) : W := fun c =>
  let* a := x in f a c.

(** Run a writer over a whole array and return the new array. *)
Definition wrun (w : W) (buf : list Z) : outcome (list Z) :=
  let* (d, c) := w buf in Ok (d ++ c).

(** ** Array updates

    Overwrite [length d] bytes of [buf] at offset [off]; out of bounds is
    [UB].  Offsets are already reduced to their C++ type by the caller. *)
Definition upd (buf : list Z) (off : Z) (d : list Z) : outcome (list Z) :=
  if (0 <=? off) && (off + len d <=? len buf)
  then Ok (firstn (Z.to_nat off) buf ++ d
           ++ skipn (Z.to_nat (off + len d)) buf)
  else UB.

(** The cursor [buf + off]. *)
Definition at_off (buf : list Z) (off : Z) : outcome (list Z) :=
  if (0 <=? off) && (off <=? len buf) then Ok (skipn (Z.to_nat off) buf) else UB.

(** ** Files

    std::basic_filebuf has a single position shared by get and put areas
    (libstdc++), so the library's [tellg]/[seekg] on output streams act on it. *)
Record file : Type := mkFile { fdata : list Z; fpos : Z }.

Definition slice {A} (off n : Z) (l : list A) : list A :=
  firstn (Z.to_nat n) (skipn (Z.to_nat off) l).

(** istream::read with failbit in the exception mask: all [n] bytes or throw.
    The state of the stream after the throw is not modelled: every later
    operation on a stream with failbit set and failbit in the exception mask
    throws as well. *)
Definition fread (n : Z) (f : file) : outcome (list Z * file) :=
  if n =? 0 then Ok ([], f)
  else if fpos f + n <=? len (fdata f)
       then Ok (slice (fpos f) n (fdata f), mkFile (fdata f) (fpos f + n))
       else Throw EIO.

(** seekg: positions beyond the end are allowed, negative ones (and ones that
    do not fit off_t) fail. *)
Definition fseek (p : Z) (f : file) : outcome file :=
  if (0 <=? p) && (p <? 2 ^ 63) then Ok (mkFile (fdata f) p) else Throw EIO.
Definition fseek_cur (off : Z) (f : file) : outcome file := fseek (fpos f + off) f.
Definition fseek_end (off : Z) (f : file) : outcome file :=
  fseek (len (fdata f) + off) f.

(** ostream::write at the current position.  Assumes that the operating system
    accepts the write (disk space, permissions). *)
Definition fwrite (d : list Z) (f : file) : file :=
  let p := Z.to_nat (fpos f) in
  let pad := repeat 0 (p - List.length (fdata f))%nat in
  mkFile (firstn p (fdata f ++ pad) ++ d ++ skipn (p + List.length d) (fdata f))
         (fpos f + len d).

(** Opening with out|binary truncates; opening with in|binary starts at 0. *)
Definition empty_file : file := mkFile [] 0.
Definition open_in (content : list Z) : file := mkFile content 0.
