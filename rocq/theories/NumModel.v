(** Numbers as text: std::to_string, atoi, and IEEE-754 doubles.

    A finite non-negative double is modelled by the exact rational number it denotes, a pair
    numerator/denominator; every operation of the code is the exact operation followed by rounding to
    the nearest number with 53 significant bits, ties to even ([rnd]).  Subnormal results cannot occur
    in the modelled code paths and are not modelled. *)
From Coq Require Import List NArith ZArith QArith Lia Bool.
From Coq Require Import ZifyN ZifyNat ZifyBool.
From Verif Require Import Bytes UtfModel.
Import ListNotations.
Open Scope N_scope.

(** ** Integers *)
Fixpoint dec_loop (fuel : nat) (n : N) (acc : list N) : list N :=
  match fuel with
  | O => acc
  | S f =>
    let acc := (48 + n mod 10) :: acc in
    if n / 10 =? 0 then acc else dec_loop f (n / 10) acc
  end.
Definition dec (n : N) : list N := dec_loop (S (N.to_nat (N.size n))) n [].
(** std::to_string for int and long long. *)
Definition int_text (z : Z) : list N :=
  if (z <? 0)%Z then 45 :: dec (Z.to_N (- z)) else dec (Z.to_N z).

(** Conversion to a signed/unsigned type of [w] bits (two's complement). *)
Definition to_unsigned (w : N) (z : Z) : N := Z.to_N (z mod 2 ^ Z.of_N w).
Definition to_signed (w : N) (z : Z) : Z :=
  let m := (2 ^ Z.of_N w)%Z in
  let r := (z mod m)%Z in if (2 * r <? m)%Z then r else (r - m)%Z.

(** [TXString::itoa], GSString.cpp:2044-2047; the argument is converted to Sint64. *)
Definition itoa (z : Z) : list N := int_text (to_signed 64 z).

(** atoi of the C library on the bytes before the terminating zero: white space, an optional sign,
    decimal digits.  Undefined if the number does not fit into an int. *)
Definition is_space (c : N) : bool := (c =? 32) || ((9 <=? c) && (c <=? 13)).
Definition is_digit (c : N) : bool := (48 <=? c) && (c <=? 57).
Fixpoint skip_space (b : list N) : list N :=
  match b with c :: r => if is_space c then skip_space r else b | [] => [] end.
Fixpoint digits_val (b : list N) (acc : N) : N :=
  match b with
  | c :: r => if is_digit c then digits_val r (10 * acc + (c - 48)) else acc
  | [] => acc
  end.
(** What a call can do: return, be undefined behaviour, throw, or (for a modelled loop) not end within
    its fuel. *)
Inductive res (A : Type) := Ok (a : A) | UB | Exc | Loop.
Arguments Ok {A}. Arguments UB {A}. Arguments Exc {A}. Arguments Loop {A}.
Definition bind {A B} (x : res A) (f : A -> res B) : res B :=
  match x with Ok a => f a | UB => UB | Exc => Exc | Loop => Loop end.
Notation "'do' x <- e ; f" := (bind e (fun x => f)) (at level 200, x pattern, e at level 100, right associativity).
Definition int_result (z : Z) : res Z :=
  if ((- 2147483648 <=? z) && (z <=? 2147483647))%Z then Ok z else UB.
Definition c_atoi (b : list N) : res Z :=
  match skip_space b with
  | 45 :: r => int_result (- Z.of_N (digits_val r 0))
  | 43 :: r => int_result (Z.of_N (digits_val r 0))
  | r => int_result (Z.of_N (digits_val r 0))
  end.
(** [TXString::atoi], GSString.cpp:2019-2022: the text is converted to UTF-8, which throws for text
    that is not well-formed UTF-16. *)
Definition atoi (s : list N) : res Z :=
  match to_bytes s with Some b => c_atoi (upto_nul b) | None => Exc end.
(** [IsCompleteNumber], GSString.cpp:2063-2069.  std::isdigit is undefined for a unit above 255. *)
Fixpoint all_digits (s : list N) : res bool :=
  match s with
  | [] => Ok true
  | c :: r => if 255 <? c then UB else if is_digit c then all_digits r else Ok false
  end.
Definition is_complete_number (s : list N) : res bool :=
  do b <- all_digits s; Ok (match s with [] => false | _ :: _ => b end).

(** ** Doubles *)
(** Round to the nearest integer, ties to even: [n/d] with d > 0. *)
Definition near_even (n d : N) : N :=
  let q := n / d in let r := n mod d in
  if 2 * r <? d then q
  else if d <? 2 * r then q + 1
  else if N.even q then q else q + 1.
(** [n/d] to the nearest number with 53 significant bits: scale by a power of two so that the number
    lies in [2^52, 2^53), round, scale back. *)
Definition scale_up (n d : N) : N :=   (* k with n*2^k/d >= 2^52 *)
  (N.log2 d + 53) - N.log2 n.
Definition scale_down (n d : N) : N :=
  N.log2 n - (N.log2 d + 53).
Definition rnd (x : N * N) : N * N :=
  let (n, d) := x in
  if n =? 0 then (0, 1) else
  let num := n * 2 ^ scale_up n d in
  let den := d * 2 ^ scale_down n d in
  (* num/den lies in (2^52, 2^54) *)
  let '(num, den, up, down) :=
    if num <? 2 ^ 53 * den then (num, den, scale_up n d, scale_down n d)
    else (num, 2 * den, scale_up n d, scale_down n d + 1) in
  (near_even num den * 2 ^ down, 2 ^ up).
Definition q_of (x : N * N) : Q := inject_Z (Z.of_N (fst x)) / inject_Z (Z.of_N (snd x)).
Definition of_N (n : N) : N * N := (n, 1).
Definition d_div (x y : N * N) : N * N := rnd (fst x * snd y, snd x * fst y).
Definition d_mul (x y : N * N) : N * N := rnd (fst x * fst y, snd x * snd y).
Definition d_add (x y : N * N) : N * N := rnd (fst x * snd y + fst y * snd x, snd x * snd y).
(** Conversion of an integer. *)
Definition d_of_N (n : N) : N * N := rnd (n, 1).
(** Conversion to Uint64: truncation; undefined if the value does not fit. *)
Definition d_to_u64 (x : N * N) : option N :=
  let v := fst x / snd x in if v <? two64 then Some v else None.
