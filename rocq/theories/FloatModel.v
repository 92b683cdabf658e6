(** Doubles as text: std::to_string(double) and atof.

    A finite double is a sign and its magnitude in units of 2^-1074, the smallest positive double; every
    finite double is such a multiple.  [point] is the decimal point of the C locale of the process, one
    ASCII character: '.' in the locale "C", ',' for example in "de_DE". *)
From Coq Require Import String List NArith ZArith Bool.
From Verif Require Import Bytes Txt UtfModel NumModel.
Import ListNotations.
Open Scope N_scope.

Inductive fl := Fin (neg : bool) (u : N) | Inf (neg : bool) | NaN (neg : bool).
Definition units : N := 2 ^ 1074.
(** Magnitudes of at least this are not finite. *)
Definition too_big : N := 2 ^ 2098.
(** The nearest magnitude to [n/d] units with 53 significant bits, ties to even. *)
Definition round_u (n d : N) : N :=
  let k := N.log2 (n / d) - 52 in near_even n (d * 2 ^ k) * 2 ^ k.

Section Locale.
Variable point : N.
Definition sign_text (neg : bool) : list N := if neg then [45] else [].
(** std::to_string is printf with "%f": six digits after the point, correctly rounded.  Called by
    [TXString::operator<<(double)], GSString.cpp:991-994. *)
Definition million : N := 1000000.
Definition six (r : N) : list N :=
  map (fun p => 48 + r / p mod 10) [100000; 10000; 1000; 100; 10; 1].
Definition micros (u : N) : N := near_even (u * million) units.
Definition fl_text (x : fl) : list N :=
  match x with
  | Fin neg u => sign_text neg ++ dec (micros u / million) ++ point :: six (micros u mod million)
  | Inf neg => sign_text neg ++ T"inf"
  | NaN neg => sign_text neg ++ T"nan"
  end.

(** The digits at the front of a text in base [b]: their value after [acc], their number and the rest. *)
Definition digit_of (b c : N) : option N :=
  if is_digit c then Some (c - 48)
  else if (b =? 16) && (97 <=? c) && (c <=? 102) then Some (c - 87)
  else if (b =? 16) && (65 <=? c) && (c <=? 70) then Some (c - 55)
  else None.
Fixpoint digits (b : N) (s : list N) (acc n : N) : N * N * list N :=
  match s with
  | c :: r => match digit_of b c with Some v => digits b r (b * acc + v) (n + 1) | None => (acc, n, s) end
  | [] => (acc, n, [])
  end.
(** An optional sign. *)
Definition take_sign (s : list N) : bool * list N :=
  match s with 45 :: r => (true, r) | 43 :: r => (false, r) | _ => (false, s) end.
(** The exponent after the letter [c] or [c'] (lower and upper case); without digits there is none. *)
Definition exponent (c c' : N) (s : list N) : Z :=
  match s with
  | x :: r =>
    if (x =? c) || (x =? c') then
      let '(neg, r) := take_sign r in
      let '(v, n, _) := digits 10 r 0 0 in if neg then (- Z.of_N v)%Z else Z.of_N v
    else 0%Z
  | [] => 0%Z
  end.
(** A number in base [b]: [None] if there is no digit; otherwise the digits as one number, the number of
    digits after the point and the rest. *)
Definition mantissa (b : N) (s : list N) : option (N * N * list N) :=
  let '(v, n, r) := digits b s 0 0 in
  match r with
  | c :: r' =>
    if c =? point then
      let '(v2, n2, r2) := digits b r' v 0 in
      if n + n2 =? 0 then None else Some (v2, n2, r2)
    else if n =? 0 then None else Some (v, 0, r)
  | [] => if n =? 0 then None else Some (v, 0, r)
  end.
(** [v * b^e] as a fraction, in units; undefined (C11 7.22.1) if the result is out of range. *)
Definition scaled (v b : N) (e : Z) : N * N :=
  if (0 <=? e)%Z then (v * b ^ Z.to_N e * units, 1) else (v * units, b ^ Z.to_N (- e)).
Definition finish (neg : bool) (v b : N) (e : Z) : res fl :=
  let '(n, d) := scaled v b e in
  let u := round_u n d in if too_big <=? u then UB else Ok (Fin neg u).
Fixpoint starts (p s : list N) : bool :=   (* ignoring case; [p] in lower case *)
  match p, s with
  | [], _ => true
  | a :: p', b :: s' => ((a =? b) || (a =? b + 32) && (65 <=? b) && (b <=? 90)) && starts p' s'
  | _, [] => false
  end.
(** atof (strtod without the end position). *)
Definition c_atof (b : list N) : res fl :=
  let '(neg, s) := take_sign (skip_space b) in
  if starts (T"inf") s then Ok (Inf neg)
  else if starts (T"nan") s then Ok (NaN neg)
  else
    match (if starts (T"0x") s then mantissa 16 (skipn 2 s) else None) with
    | Some (v, frac, r) => finish neg v 2 (exponent 112 80 r - 4 * Z.of_N frac)
    | None =>
      match mantissa 10 s with
      | Some (v, frac, r) => finish neg v 10 (exponent 101 69 r - Z.of_N frac)
      | None => Ok (Fin false 0)
      end
    end.
(** [TXString::atof], GSString.cpp:2037-2040. *)
Definition atof (s : list N) : res fl :=
  match to_bytes s with Some b => c_atof (upto_nul b) | None => Exc end.
End Locale.
