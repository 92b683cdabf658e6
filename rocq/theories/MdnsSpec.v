(** DNS names and messages as RFC 1035 describes them, independent of the functions of [MdnsModel]. *)
From Coq Require Import String List NArith ZArith Bool.
From Verif Require Import Bytes Txt.
Import ListNotations.
Open Scope N_scope.

(** The byte at a position. *)
Definition byte_at (m : list N) (i b : N) : Prop := nth_error m (N.to_nat i) = Some b.

(** A name at a position of a message of [size] bytes: labels of 1 to 63 bytes behind their length, a
    zero byte at the end; or, instead of the rest of the name, two bytes with the position of that
    rest.  [spelled chains m size off labels e]: the name is [labels], behind it comes [e].  Without
    [chains] the position does not hold a reference again. *)
Inductive spelled (chains : bool) (m : list N) (size : N) : N -> list (list N) -> N -> Prop :=
| sp_end off : byte_at m off 0 -> off < size -> spelled chains m size off [] (off + 1)
| sp_label off l ls e :
    byte_at m off (nlen l) -> 1 <= nlen l <= 63 -> off + 1 + nlen l <= size -> slice (off + 1) (nlen l) m = l ->
    spelled chains m size (off + 1 + nlen l) ls e -> spelled chains m size off (l :: ls) e
| sp_ref off t ls e :
    byte_at m off (192 + t / 256) -> byte_at m (off + 1) (t mod 256) -> off + 2 <= size -> t < 16384 -> t < size ->
    (chains = true \/ exists b, byte_at m t b /\ b < 192) ->
    spelled chains m size t ls e -> spelled chains m size off ls (off + 2).
(** Its text, with a dot behind every label, and its bytes without references. *)
Definition dotted (ls : list (list N)) : list N := flat_map (fun l => l ++ [46]) ls.
Definition label_bytes (l : list N) : list N := nlen l :: l.
Definition wire (ls : list (list N)) : list N := flat_map label_bytes ls ++ [0].
(** Labels that a text can name. *)
Definition label (l : list N) : Prop := 1 <= nlen l <= 63 /\ ~ In 46 l.
Definition host_label (l : list N) : Prop := label l /\ ~ In 0 l.

(** Equality of letters in either case. *)
Definition fold_case (c : N) : N := if (65 <=? c) && (c <=? 90) then c + 32 else c.
Definition same_labels (a b : list (list N)) : Prop := Forall2 (fun x y => map fold_case x = map fold_case y) a b.

(** A record: its name as written, then type, class, time to live, the length of the data, the data. *)
Record record := mkRecord { rName : list N; rType : N; rClass : N; rTtl : N; rData : list N }.
Definition record_bytes (r : record) : list N :=
  rName r ++ be_bytes 2 (rType r) ++ be_bytes 2 (rClass r) ++ be_bytes 4 (rTtl r) ++ be_bytes 2 (nlen (rData r)) ++ rData r.
Definition header (qid flags questions answers authority additional : N) : list N :=
  be_bytes 2 qid ++ be_bytes 2 flags ++ be_bytes 2 questions ++ be_bytes 2 answers ++ be_bytes 2 authority ++ be_bytes 2 additional.
