(** Bytes and fixed-width integers in memory.

    A byte is an [N] below 256.  The modelled platform is 64-bit little-endian
    Linux: an integer of [n] bytes lies in memory least significant byte
    first.  [le_bytes]/[le_val] are the two directions of that layout; they
    are used wherever the C++ code copies an integer with memcpy. *)
From Coq Require Import List NArith ZArith Lia Bool.
From Coq Require Import ZifyN ZifyNat ZifyBool.
Import ListNotations.
Open Scope N_scope.

Definition byte_ok (b : N) : Prop := b < 256.
Definition bytes_ok (l : list N) : Prop := Forall byte_ok l.

(** Length of a list as an [N]. *)
Definition nlen {A} (l : list A) : N := N.of_nat (length l).

(** The memory image of an [n]-byte unsigned integer on the little-endian
    platform. *)
Fixpoint le_bytes (n : nat) (v : N) : list N :=
  match n with
  | O => []
  | S n' => (v mod 256) :: le_bytes n' (v / 256)
  end.

(** The integer whose little-endian memory image is [l]. *)
Fixpoint le_val (l : list N) : N :=
  match l with
  | [] => 0
  | b :: l' => b + 256 * le_val l'
  end.

(** The most-significant-first image. *)
Definition be_bytes (n : nat) (v : N) : list N := rev (le_bytes n v).
Definition be_val (l : list N) : N := le_val (rev l).

Definition two16 : N := 65536.
Definition two32 : N := 4294967296.
Definition two64 : N := 18446744073709551616.

(** A sublist: [n] elements from position [off]. *)
Definition slice {A} (off n : N) (l : list A) : list A :=
  firstn (N.to_nat n) (skipn (N.to_nat off) l).
