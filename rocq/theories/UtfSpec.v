(** Unicode encoding forms, as the Unicode standard (section 3.9) defines them.  Independent of
    the code. *)
From Coq Require Import List NArith ZArith Lia Bool.
From Coq Require Import ZifyN ZifyNat ZifyBool.
From Verif Require Import Bytes.
Import ListNotations.
Open Scope N_scope.

(** Unicode scalar values: code points that are not surrogates. *)
Definition scalar (c : N) : Prop := c < 55296 \/ (57344 <= c /\ c < 1114112).
Definition scalarb (c : N) : bool := (c <? 55296) || ((57344 <=? c) && (c <? 1114112)).

(** UTF-16, Table 3-5: one unit below 0x10000, otherwise a high and a low surrogate carrying ten
    bits each of the value minus 0x10000. *)
Definition enc16_1 (c : N) : list N :=
  if c <? 65536 then [c]
  else [55296 + (c - 65536) / 1024; 56320 + (c - 65536) mod 1024].
Definition enc16 (cs : list N) : list N := flat_map enc16_1 cs.

(** UTF-8, Table 3-6. *)
Definition enc8_1 (c : N) : list N :=
  if c <? 128 then [c]
  else if c <? 2048 then [192 + c / 64; 128 + c mod 64]
  else if c <? 65536 then [224 + c / 4096; 128 + (c / 64) mod 64; 128 + c mod 64]
  else [240 + c / 262144; 128 + (c / 4096) mod 64; 128 + (c / 64) mod 64; 128 + c mod 64].
Definition enc8 (cs : list N) : list N := flat_map enc8_1 cs.

(** Euro sign and U+1F600. *)
Example enc16_ex : enc16 [65; 8364; 128512] = [65; 8364; 55357; 56832].
Proof. reflexivity. Qed.
Example enc8_ex : enc8 [65; 8364; 128512] = [65; 226; 130; 172; 240; 159; 152; 128].
Proof. reflexivity. Qed.

(** Text in UTF-16 is well-formed iff it encodes a sequence of scalar values. *)
Definition wf16 (l : list N) : Prop := exists cs, Forall scalar cs /\ l = enc16 cs.
Definition wf8 (l : list N) : Prop := exists cs, Forall scalar cs /\ l = enc8 cs.
