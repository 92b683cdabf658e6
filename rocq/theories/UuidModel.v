(** [VWUUID], the identifier class (UUID.cpp), and [VWIID] (Include/VectorworksMVR.h:31-85).

    An identifier is the list of its 16 bytes [fData].  [THROW_VWFC_EXCEPTION] and [VWFC_ASSERT]
    only print a message in this build (Prefix/StdAfx.h:38-39), so a bad hexadecimal digit does not
    stop parsing: [GetDigitForChar] then returns 0. *)
From Coq Require Import List NArith ZArith Lia Bool.
From Coq Require Import ZifyN ZifyNat ZifyBool.
From Verif Require Import Bytes UtfModel StringModel.
Import ListNotations.
Open Scope N_scope.

Definition fdata (u : list N) (i : nat) : N := nth i u 0.

(** VWUUID(a, b, c, d), UUID.cpp:34-52. *)
Definition word_bytes (a : N) : list N :=
  [N.land a 255; N.land (N.shiftr a 8) 255; N.land (N.shiftr a 16) 255; N.land (N.shiftr a 24) 255].
Definition from_words (a b c d : N) : list N := word_bytes a ++ word_bytes b ++ word_bytes c ++ word_bytes d.

(** VWUUID(array, size), UUID.cpp:54-60. *)
Definition from_array (arr : list N) (size : N) : list N :=
  map (fun i => if N.of_nat i <? size then nth i arr 0 else 0) (seq 0 16).

(** [VWIID]: data1 (32 bits), data2, data3 (16 bits), data4 (8 bytes). *)
Record iid := mkIid { data1 : N; data2 : N; data3 : N; data4 : list N }.

(** VWUUID(VWIID), UUID.cpp:62-83. *)
Definition from_iid (i : iid) : list N :=
  [N.land (N.shiftr (data1 i) 24) 255; N.land (N.shiftr (data1 i) 16) 255;
   N.land (N.shiftr (data1 i) 8) 255; N.land (data1 i) 255;
   N.land (N.shiftr (data2 i) 8) 255; N.land (data2 i) 255;
   N.land (N.shiftr (data3 i) 8) 255; N.land (data3 i) 255]
  ++ map (fun k => nth k (data4 i) 0) (seq 0 8).

(** [operator==], UUID.cpp:102-109: the two 64-bit halves ([fData64], little-endian). *)
Definition half (u : list N) (i : nat) : N := le_val (map (fun k => fdata u (8 * i + k)) (seq 0 8)).
Definition uuid_eq (a b : list N) : bool := (half a 0 =? half b 0) && (half a 1 =? half b 1).

(** [GetPieceAsChar], [GetPieceAsText], UUID.cpp:116-137. *)
Definition piece_char (p : N) : N := if p <=? 9 then 48 + p else 65 + (p - 10).
Definition piece_text (p : N) : list N := [piece_char (N.shiftr p 4); piece_char (N.land p 15)].

(** [ToString], UUID.cpp:171-200. *)
Definition to_string (u : list N) (includeBrackets : bool) : list N :=
  (if includeBrackets then [123] else [])
  ++ piece_text (fdata u 0) ++ piece_text (fdata u 1) ++ piece_text (fdata u 2) ++ piece_text (fdata u 3)
  ++ [45] ++ piece_text (fdata u 4) ++ piece_text (fdata u 5)
  ++ [45] ++ piece_text (fdata u 6) ++ piece_text (fdata u 7)
  ++ [45] ++ piece_text (fdata u 8) ++ piece_text (fdata u 9)
  ++ [45] ++ piece_text (fdata u 10) ++ piece_text (fdata u 11) ++ piece_text (fdata u 12)
  ++ piece_text (fdata u 13) ++ piece_text (fdata u 14) ++ piece_text (fdata u 15)
  ++ (if includeBrackets then [125] else []).

(** [GetDigitForChar], UUID.cpp:139-150; bytes above 127 are negative chars and match no range. *)
Definition digit_for_char (ch : N) : N :=
  if (48 <=? ch) && (ch <=? 57) then ch - 48
  else if (65 <=? ch) && (ch <=? 70) then 10 + (ch - 65)
  else if (97 <=? ch) && (ch <=? 102) then 10 + (ch - 97)
  else 0.
(** [GetDigitForPiece], UUID.cpp:152-162, at offset [o] of the character buffer [p]. *)
Definition digit_for_piece (p : list N) (o : nat) : N :=
  N.lor (N.shiftl (digit_for_char (nth o p 0)) 4 mod 256) (N.land (digit_for_char (nth (S o) p 0)) 15).

Definition offsets_brackets : list nat := [1;3;5;7;10;12;15;17;20;22;25;27;29;31;33;35]%nat.
Definition offsets_plain : list nat := [0;2;4;6;9;11;14;16;19;21;24;26;28;30;32;34]%nat.
Definition get_at (s : list N) (i : nat) : N := nth i s 0.

(** [FromString], UUID.cpp:202-270, on an object holding [u]: the result and the new contents; the
    checks use the UTF-16 units (204-223), the digits come from the UTF-8 form (227).  [None]: the
    conversion to UTF-8 throws std::range_error (unpaired surrogate). *)
Definition shape_ok (s : list N) (br : bool) : bool :=
  if br then (nlen s =? 38) && (get_at s 0 =? 123) && (get_at s 9 =? 45) && (get_at s 14 =? 45)
             && (get_at s 19 =? 45) && (get_at s 24 =? 45) && (get_at s 37 =? 125)
  else (nlen s =? 36) && (get_at s 8 =? 45) && (get_at s 13 =? 45) && (get_at s 18 =? 45) && (get_at s 23 =? 45).
Definition from_string (u : list N) (s : list N) (includeBrackets : bool) : option (bool * list N) :=
  if shape_ok s includeBrackets then
    match to_bytes s with
    | None => None
    | Some p => Some (true, map (digit_for_piece p) (if includeBrackets then offsets_brackets else offsets_plain))
    end
  else Some (false, u).

(** Default constructor, UUID.cpp:284-288, and VWUUID(TXString), UUID.cpp:272-282. *)
Definition zero_uuid : list N := repeat 0 16.
Definition uuid_of_text (uninit : list N) (s : list N) : option (list N) :=
  match from_string uninit s true with
  | None => None
  | Some (true, u) => Some u
  | Some (false, _) => Some zero_uuid
  end.

(** [GetUUID] into four words, UUID.cpp:366-372.  The products and sums are of type int, so a value
    above 2^31-1 is a signed overflow: undefined ([None]) by the language, two's complement
    wraparound if [wraps] (what the usual compilers do). *)
Definition int_sum (wraps : bool) (v : N) : option N :=
  if v <? 2147483648 then Some v else if wraps then Some (v mod two32) else None.
Definition word (wraps : bool) (u : list N) (i : nat) : option N :=
  int_sum wraps (fdata u i + fdata u (i + 1) * 256 + fdata u (i + 2) * 65536 + fdata u (i + 3) * 16777216).
Definition get_words (wraps : bool) (u : list N) : option (N * N * N * N) :=
  match word wraps u 0, word wraps u 4, word wraps u 8, word wraps u 12 with
  | Some a, Some b, Some c, Some d => Some (a, b, c, d)
  | _, _, _, _ => None
  end.

(** [GetUUID] into an array, UUID.cpp:374-382, and into a [VWIID], UUID.cpp:384-397. *)
Definition get_array (u : list N) (size : nat) : list N :=
  map (fun i => if (16 <=? i)%nat then 0 else fdata u i) (seq 0 size).
Definition get_iid (wraps : bool) (u : list N) : option iid :=
  match int_sum wraps (fdata u 3 + fdata u 2 * 256 + fdata u 1 * 65536 + fdata u 0 * 16777216) with
  | Some d1 => Some (mkIid d1 ((fdata u 5 + fdata u 4 * 256) mod two16)
                           ((fdata u 7 + fdata u 6 * 256) mod two16)
                           (map (fun k => fdata u (8 + k)) (seq 0 8)))
  | None => None
  end.

(** [Encode], UUID.cpp:399-419: six base-[n] digits per word, least significant first; each symbol is
    cut to a char (413), the 24 chars become a text (418).  [None]: signed overflow, division by zero (410) for an
    empty alphabet, or the conversion of the chars throws. *)
Fixpoint digits (count : nat) (num n : N) : list N :=
  match count with O => [] | S c => num mod n :: digits c (num / n) n end.
Definition encode_chars (ws : list N) (arr : list N) : list N :=
  map (fun i => get_at arr (N.to_nat i) mod 256) (flat_map (fun w => digits 6 w (nlen arr)) ws).
Definition encode (wraps : bool) (u : list N) (arr : list N) : option (list N) :=
  match get_words wraps u with
  | Some (a, b, c, d) => if nlen arr =? 0 then None else set_from_chars (encode_chars [a; b; c; d] arr)
  | None => None
  end.

(** [VWIID::operator<], Include/VectorworksMVR.h:55-82. *)
Fixpoint less_list (a b : list N) : bool * bool :=   (* (isEqual, isLess) over data4 *)
  match a, b with
  | x :: a', y :: b' => if x =? y then less_list a' b' else (false, x <? y)
  | _, _ => (true, true)
  end.
Definition iid_lt (a b : iid) : bool :=
  let '(isEqual, isLess) :=
    if data1 a =? data1 b then
      if data2 a =? data2 b then
        if data3 a =? data3 b then less_list (data4 a) (data4 b)
        else (false, data3 a <? data3 b)
      else (false, data2 a <? data2 b)
    else (false, data1 a <? data1 b) in
  isLess && negb isEqual.
