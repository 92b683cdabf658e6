(** String literals as lists of units/bytes: [txt "abc" = [97; 98; 99]]. *)
From Coq Require Import List NArith String Ascii.
Import ListNotations.
Definition txt (s : string) : list N := map N_of_ascii (list_ascii_of_string s).
Notation "'T' s" := (txt s%string) (at level 9, s at level 0, only parsing).
