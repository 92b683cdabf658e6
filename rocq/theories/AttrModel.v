(** [GdtfParsingError::CheckNodeAttributes], GdtfError.cpp:72-107. *)
From Coq Require Import List NArith Bool.
From Verif Require Import Bytes StringModel.
Import ListNotations.
Open Scope N_scope.

(** std::unordered_set<TXString, TXStringNoCaseHash> with [n] buckets: a key is looked for in the
    bucket of its hash only, with [operator==] (case-insensitive).  [h] is std::hash<std::u16string>. *)
Definition uset := N -> list (list N).
Definition bucket (h : list N -> N) (n : N) (k : list N) : N := tx_hash_no_case h k mod n.
Definition uset_count (h : list N -> N) (n : N) (m : uset) (k : list N) : bool :=
  existsb (fun x => txeq x k) (m (bucket h n k)).
Definition uset_insert (h : list N -> N) (n : N) (m : uset) (k : list N) : uset :=
  if uset_count h n m k then m
  else fun b => if b =? bucket h n k then k :: m b else m b.
(** erase(key): the set without the key; the number of elements removed is 1 iff the key was in. *)
Definition uset_erase (h : list N -> N) (n : N) (m : uset) (k : list N) : uset :=
  fun b => if b =? bucket h n k then filter (fun x => negb (txeq x k)) (m b) else m b.

Inductive report := Missing (attribute : list N) | Unexpected (attribute : list N).

(** 81-89: the mandatory attributes. *)
Fixpoint check_needed (h : list N -> N) (n : N) (m : uset) (needed : list (list N)) : uset * list report :=
  match needed with
  | [] => (m, [])
  | a :: r =>
    let '(m', e) := check_needed h n (uset_erase h n m a) r in
    (m', if uset_count h n m a then e else Missing a :: e)
  end.
(** 92-95: the optional attributes. *)
Definition erase_all (h : list N -> N) (n : N) (m : uset) (l : list (list N)) : uset := fold_left (uset_erase h n) l m.
(** 98-106: what is left, in the order of the XML file. *)
Definition check_node_attributes (h : list N -> N) (n : N) (raw needed optional : list (list N)) : list report :=
  let set := fold_left (uset_insert h n) raw (fun _ => []) in
  let '(set, errors) := check_needed h n set needed in
  let set := erase_all h n set optional in
  errors ++ map Unexpected (filter (uset_count h n set) raw).
