(** How a POSIX system understands a path, and what it means to stay inside a folder.  Independent of
    the code; symbolic links are left out. *)
From Coq Require Import String List NArith Lia Bool.
From Verif Require Import Bytes Txt UtfSpec StringSpec.
Import ListNotations.
Open Scope N_scope.

(** The pieces of a text between the separators '/': "a//b" has the pieces "a", "" and "b". *)
Fixpoint pieces (s : list N) : list (list N) :=
  match s with
  | [] => [[]]
  | c :: r =>
    if c =? 47 then [] :: pieces r
    else match pieces r with p :: ps => (c :: p) :: ps | [] => [[c]] end
  end.
Example pieces_ex : pieces (T"a//bc/") = [T"a"; []; T"bc"; []].
Proof. reflexivity. Qed.

Definition dot : list N := T".".
Definition dotdot : list N := T"..".
Definition str_dec : forall a b : list N, {a = b} + {a <> b} := list_eq_dec N.eq_dec.

(** Walking along a path from the folder [at_]: "" and "." stay, ".." goes to the parent (the root is
    its own parent). *)
Fixpoint walk (at_ : list (list N)) (ps : list (list N)) : list (list N) :=
  match ps with
  | [] => at_
  | p :: ps' =>
    if str_dec p [] then walk at_ ps'
    else if str_dec p dot then walk at_ ps'
    else if str_dec p dotdot then walk (removelast at_) ps'
    else walk (at_ ++ [p]) ps'
  end.

(** The place of the file that opening the absolute path [s] for writing creates or overwrites;
    [None] if [s] is relative or names a folder (its last piece is "", "." or ".."), in which case
    the call fails. *)
Definition location (s : list N) : option (list (list N)) :=
  match s with
  | c :: r =>
    if c =? 47 then
      let f := last (pieces r) [] in
      if str_dec f [] then None else if str_dec f dot then None else if str_dec f dotdot then None
      else Some (walk [] (pieces r))
    else None
  | [] => None
  end.
Example location_ex : location (T"/a/./b/../c") = Some [T"a"; T"c"].
Proof. reflexivity. Qed.

Definition inside (folder file : list (list N)) : Prop := exists rest, rest <> [] /\ file = folder ++ rest.

(** Walking along the folders [ps], starting [d] levels below some folder, never leaves that folder. *)
Fixpoint stays (d : nat) (ps : list (list N)) : Prop :=
  match ps with
  | [] => True
  | p :: ps' =>
    if str_dec p [] then stays d ps'
    else if str_dec p dot then stays d ps'
    else if str_dec p dotdot then match d with O => False | S d' => stays d' ps' end
    else stays (S d) ps'
  end.

(** An ordinary name: well-formed text, not empty, "." or "..", without '/', ':' and '%'. *)
Definition plain (p : list N) : Prop :=
  wf16 p /\ p <> [] /\ p <> dot /\ p <> dotdot /\ ~ In 47 p /\ ~ In 58 p /\ ~ In 37 p.
