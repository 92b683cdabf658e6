(** What the text operations are meant to do; independent of the model. *)
From Coq Require Import List NArith ZArith Lia Bool.
From Coq Require Import ZifyN ZifyNat ZifyBool.
From Verif Require Import Bytes UtfSpec.
Import ListNotations.
Open Scope N_scope.

(** ASCII case folding. *)
Definition ascii_lower (c : N) : N := if (65 <=? c) && (c <=? 90) then c + 32 else c.
Definition fold (ignoreCase : bool) : N -> N := if ignoreCase then ascii_lower else fun c => c.

(** [sub] lies in [s] at position [p], up to the unit map [f] (identity or case folding). *)
Definition occ (f : N -> N) (sub s : list N) (p : N) : Prop :=
  exists a m b, s = a ++ m ++ b /\ nlen a = p /\ map f m = map f sub.

(** The unit at position [p]. *)
Definition at_pos (s : list N) (p : N) : option N := nth_error s (N.to_nat p).
(** [Repl f old new s r]: [r] is [s] with the leftmost, non-overlapping occurrences of [old]
    replaced by [new]. *)
Inductive Repl (f : N -> N) (old new : list N) : list N -> list N -> Prop :=
| Repl_none s : (forall p, ~ occ f old s p) -> Repl f old new s s
| Repl_one a m b r : map f m = map f old ->
    (forall p, p < nlen a -> ~ occ f old (a ++ m ++ b) p) ->
    Repl f old new b r -> Repl f old new (a ++ m ++ b) (a ++ new ++ r).

(** Pieces separated by [ch]: [join ch [p1; ...; pn] = p1 ch ... pn ch]. *)
Definition join (ch : N) (ps : list (list N)) : list N := flat_map (fun p => p ++ [ch]) ps.

(** [r] is the longest run of characters of [cs] from its start that fits into [n] units. *)
Definition fits_left (cs : list N) (n : N) (r : list N) : Prop :=
  exists x y, cs = x ++ y /\ r = enc16 x /\ nlen (enc16 x) <= n
    /\ forall c y', y = c :: y' -> n < nlen (enc16 (x ++ [c])).

(** [r] is the longest run of characters at the end of [cs] that fits into [n] units. *)
Definition fits_right (cs : list N) (n : N) (r : list N) : Prop :=
  exists x y, cs = x ++ y /\ r = enc16 y /\ nlen (enc16 y) <= n
    /\ forall x' c, x = x' ++ [c] -> n < nlen (enc16 (c :: y)).

(** [r] consists of the characters of [cs] that lie entirely within the units [p .. p+n-1]. *)
Definition fits_mid (cs : list N) (p n : N) (r : list N) : Prop :=
  exists x y z, cs = x ++ y ++ z /\ r = enc16 y
    /\ p <= nlen (enc16 x) /\ (forall x' c, x = x' ++ [c] -> nlen (enc16 x') < p)
    /\ (y <> [] -> nlen (enc16 (x ++ y)) <= p + n)
    /\ (forall c z', z = c :: z' -> p + n < nlen (enc16 (x ++ y ++ [c]))).

Definition blank (c : N) : Prop := c = 32 \/ c = 9.
