(** Stopping the reading of a description: the callback that is asked before every object.

    Only which nodes become objects is modelled, not what is read from their attributes.  The callback is any program with a
    state of its own.  Left out: the lock held while it runs (a callback that sets another callback waits for itself), and the
    places that ask outside of a traversal (e.g. GDTFManager.cpp:9577, 9601), after which the function returns. *)
From Coq Require Import List NArith Bool.
Import ListNotations.
Open Scope N_scope.

(** An element of the file: its name and its child elements. *)
Inductive node := Node (name : N) (children : list node).
Definition name_of (n : node) : N := match n with Node t _ => t end.

Section Abort.
Context {S : Type}.
(** The callback set by [SetAbortCallback], GDTFManager.cpp:86-90: what it answers, and its state afterwards. *)
Variable callback : option (S -> bool * S).
(** The children of an element that become objects: [childNodeName] of the call of [TraverseNodes]. *)
Variable want : N -> N -> bool.

(** [CheckAbort], GDTFManager.cpp:92-106 (and SceneDataExchange.cpp:4183-4197); [fAbortReading], which it sets, is read nowhere. *)
Definition check (s : S) : bool * S :=
  match callback with Some ask => ask s | None => (false, s) end.

(** [TraverseNodes], XmlFileHelper.cpp:2420-2449, over the children of an element called [t], with a function that returns if
    reading is to be stopped and else makes an object of the child by [read], e.g. GDTFManager.cpp:887-899, 3305-3320,
    9632-9700.  That [return] ends the function for one child: the traversal goes on with the next one. *)
Definition traverse (read : node -> S -> node * S) (t : N) : list node -> S -> list node * S :=
  fix go (cs : list node) (s : S) : list node * S :=
    match cs with
    | [] => ([], s)
    | c :: r =>
      if want t (name_of c) then
        let (stop, s1) := check s in
        if stop then go r s1
        else
          let (k, s2) := read c s1 in
          let (ks, s3) := go r s2 in
          (k :: ks, s3)
      else go r s
    end.
(** [ReadFromNode], GDTFManager.cpp:43-54, of an object that reads its children that way. *)
Fixpoint read_node (n : node) (s : S) : node * S :=
  match n with Node t cs => let (ks, s') := traverse read_node t cs s in (Node t ks, s') end.
End Abort.
