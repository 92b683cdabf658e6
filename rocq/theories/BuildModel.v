(** * Building a scene through the API and going through it

    /repo/src/SceneDataExchange.cpp: CreateSymDefObject (2972-2990), CreateLayerObject (3007-3024),
    CreatePositionObject (3053-3081), CreateClassObject (3103-3131), CreateMappingDefinitionObject (3152-3171),
    CreateGroupObject (3186-3199), CreateFixture (3214-3230), CreateSceneryObject (3253-3262), CreateFocusPoint
    (3279-3321), ReadFocusPoint (3323-3342), CreateTruss (3344-3353), CreateSupport (3370-3379), CreateVideoScreen
    (3396-3405), CreateProjector (3422-3431), SceneDataGroupObj::AddObject (2468-2487), SetNextLayer (1803-1807);
    Implementation/CMediaRessourceVectorImpl.cpp: the Create functions (145-977), GetFirstLayer (1308-1350),
    GetFirstChild (1352-1424), GetNextObject (1426-1490).

    Simplified: an interface pointer handed out is the place of its object in [heap], or in its list for the objects
    without matrix; reference counts are left out.  ASSERTN does nothing in a release build.  Matrices are of any type
    [M] with the identity [idm]; GUIDs are numbers.  Of what a file adds only focus points are modelled ([ReadFocus]):
    they are the only objects the Create functions look at again. *)
From Coq Require Import List NArith Bool Arith.
From Verif Require Import Bytes StringModel.
Import ListNotations.

Inductive kind := Layer | Group | Fixture | Scenery | Focus | Truss | Support | VideoScreen | Projector.
Section WithMatrix.
  Context {M : Type}.
  Variable idm : M.
  (** [SceneDataObjWithMatrix] and [SceneDataGroupObj]; all kinds are groups. *)
  Record obj := mkObj { o_kind : kind; o_guid : N; o_name : list N; o_matrix : M; o_in : option nat; o_next : option nat; o_children : list nat }.
  (** Positions, classes, mapping definitions and symbol definitions. *)
  Record aux := mkAux { a_guid : N; a_name : list N }.
  Record state := mkSt { heap : list obj; layers : list nat; focus : list nat;
                         positions : list aux; classes : list aux; mappings : list aux; symdefs : list aux }.
  Definition empty : state := mkSt [] [] [] [] [] [] [].

  Inductive call :=
  | NewLayer (g : N) (name : list N)
  | NewGroup (g : N) (m : M) (name : option (list N)) (c : nat)   (* with and without a name *)
  | NewObj (k : kind) (g : N) (m : M) (name : list N) (c : nat)   (* fixture, scenery, truss, support, video screen, projector *)
  | NewFocus (g : N) (m : M) (name : list N) (c : nat)
  | ReadFocus (g : N) (m : M) (name : list N) (c : nat)
  | NewPosition (g : N) (name : list N) | NewClass (g : N) (name : list N) | NewMapping (g : N) (name : list N)
  | NewSymDef (g new : N) (name : list N).                        (* new: what VWUUID::New makes *)
  (** The handle that is given, or kVCOMError_NoValidContainerObj. *)
  Inductive answer := AnObj (p : nat) | AnAux (i : nat) | NoContainer.

  Fixpoint upd {A} (i : nat) (f : A -> A) (l : list A) : list A :=
    match l, i with [], _ => [] | x :: r, O => f x :: r | x :: r, S j => x :: upd j f r end.
  Definition set_next (q : option nat) (x : obj) : obj := mkObj (o_kind x) (o_guid x) (o_name x) (o_matrix x) (o_in x) q (o_children x).
  Definition set_in (c : option nat) (x : obj) : obj := mkObj (o_kind x) (o_guid x) (o_name x) (o_matrix x) c (o_next x) (o_children x).
  Definition add_child (p : nat) (x : obj) : obj := mkObj (o_kind x) (o_guid x) (o_name x) (o_matrix x) (o_in x) (o_next x) (o_children x ++ [p]).
  Definition with_heap (s : state) (h : list obj) : state := mkSt h (layers s) (focus s) (positions s) (classes s) (mappings s) (symdefs s).

  (** [AddObject], 2468-2487. *)
  Definition children (h : list obj) (c : nat) : list nat := match nth_error h c with Some x => o_children x | None => [] end.
  Definition last_of (l : list nat) : option nat := match rev l with [] => None | p :: _ => Some p end.
  Definition link (l : list nat) (p : nat) (h : list obj) : list obj :=
    match last_of l with Some q => upd q (set_next (Some p)) h | None => h end.
  Definition add_object (c p : nat) (h : list obj) : list obj :=
    upd p (set_in (Some c)) (upd c (add_child p) (link (children h c) p h)).
  (** A new object that is put into a container. *)
  Definition create (k : kind) (g : N) (name : list N) (m : M) (c : nat) (s : state) : answer * state :=
    let p := List.length (heap s) in
    (AnObj p, with_heap s (add_object c p (heap s ++ [mkObj k g name m None None []]))).

  (** The first element that is as wanted. *)
  Fixpoint find_at {A} (f : A -> bool) (l : list A) (i : nat) : option nat :=
    match l with [] => None | x :: r => if f x then Some i else find_at f r (S i) end.
  Definition is_named (s : state) (name : list N) (p : nat) : bool :=
    match nth_error (heap s) p with Some x => txeq (o_name x) name | None => false end.
  Fixpoint first_named (s : state) (name : list N) (l : list nat) : option nat :=
    match l with [] => None | p :: r => if is_named s name p then Some p else first_named s name r end.

  Definition valid (s : state) (c : nat) : bool := (c <? List.length (heap s))%nat.
  Definition step (c : call) (s : state) : answer * state :=
    match c with
    | NewLayer g name =>
      let p := List.length (heap s) in
      (AnObj p, mkSt (link (layers s) p (heap s ++ [mkObj Layer g name idm None None []])) (layers s ++ [p]) (focus s)
                     (positions s) (classes s) (mappings s) (symdefs s))
    | NewGroup g m name c =>
      if valid s c then create Group g (match name with Some n => n | None => [] end) idm c s else (NoContainer, s)
    | NewObj k g m name c => if valid s c then create k g name m c s else (NoContainer, s)
    | NewFocus g m name c =>
      if valid s c then
        match first_named s name (focus s) with
        | Some p =>
          (AnObj p, with_heap s (add_object c p (upd p (fun x => mkObj (o_kind x) g (o_name x) m (o_in x) (o_next x) (o_children x)) (heap s))))
        | None => create Focus g name m c s
        end
      else (NoContainer, s)
    | ReadFocus g m name c =>
      if valid s c then
        let (a, s') := create Focus g name m c s in
        (a, mkSt (heap s') (layers s') (focus s' ++ [List.length (heap s)]) (positions s') (classes s') (mappings s') (symdefs s'))
      else (NoContainer, s)
    | NewPosition g name =>
      match find_at (fun a => txeq (a_name a) name) (positions s) O with
      | Some i => (AnAux i, mkSt (heap s) (layers s) (focus s) (upd i (fun a => mkAux g (a_name a)) (positions s)) (classes s) (mappings s) (symdefs s))
      | None => (AnAux (List.length (positions s)), mkSt (heap s) (layers s) (focus s) (positions s ++ [mkAux g name]) (classes s) (mappings s) (symdefs s))
      end
    | NewClass g name =>
      match find_at (fun a => txeq (a_name a) name) (classes s) O with
      | Some i => (AnAux i, s)
      | None => (AnAux (List.length (classes s)), mkSt (heap s) (layers s) (focus s) (positions s) (classes s ++ [mkAux g name]) (mappings s) (symdefs s))
      end
    | NewMapping g name =>
      match find_at (fun a => (a_guid a =? g)%N) (mappings s) O with
      | Some i => (AnAux i, s)
      | None => (AnAux (List.length (mappings s)), mkSt (heap s) (layers s) (focus s) (positions s) (classes s) (mappings s ++ [mkAux g name]) (symdefs s))
      end
    | NewSymDef g new name =>
      let g := if (g =? 0)%N then new else g in
      match find_at (fun a => (a_guid a =? g)%N) (symdefs s) O with
      | Some i => (AnAux i, s)
      | None => (AnAux (List.length (symdefs s)), mkSt (heap s) (layers s) (focus s) (positions s) (classes s) (mappings s) (symdefs s ++ [mkAux g name]))
      end
    end.
  Fixpoint run (cs : list call) (s : state) : list answer * state :=
    match cs with
    | [] => ([], s)
    | c :: r => let (a, s1) := step c s in let (l, s2) := run r s1 in (a :: l, s2)
    end.

  (** [GetFirstLayer], [GetFirstChild] and [GetNextObject]: what a caller sees; [None] if they have not stopped after
      [n] steps. *)
  Definition first_layer (s : state) : option nat := match layers s with [] => None | p :: _ => Some p end.
  Definition first_child (s : state) (c : nat) : option nat := match children (heap s) c with [] => None | p :: _ => Some p end.
  Definition next (s : state) (p : nat) : option nat := match nth_error (heap s) p with Some x => o_next x | None => None end.
  Fixpoint go_through (n : nat) (s : state) (p : option nat) : option (list nat) :=
    match p with
    | None => Some []
    | Some q => match n with
                | O => None
                | S n' => match go_through n' s (next s q) with Some l => Some (q :: l) | None => None end
                end
    end.
End WithMatrix.
