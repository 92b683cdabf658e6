(** The progress that is reported while a description is read.

    The children of the fixture element are known by their names; which of them are read is not modelled (see AbortModel), only
    how many there are said to be and how many are said to be done.  The answers of the abort callback at the four places that
    ask outside of a traversal are [stops]. *)
From Coq Require Import List NArith Bool.
Import ListNotations.
Open Scope N_scope.

(** The names of the children, CommonPrefix.h; FTPresets is written (GDTFManager.cpp:9562-9569) and never read. *)
Inductive child := AttributeDefinitions | Wheels | PhysicalDescriptions | Models | Geometries | DMXModes | Revisions | FTPresets | Protocols | Other.
Definition is_protocols (c : child) : bool := match c with Protocols => true | _ => false end.
Definition is_descriptions (c : child) : bool := match c with PhysicalDescriptions => true | _ => false end.

Definition size_t : N := 18446744073709551616.

(** [GdtfFixture::GetFileNodesCount], GDTFManager.cpp:8016-8031, for a counter that is [before]; it is 0 in a new fixture
    (GDTFManager.h:2843).  The arithmetic is that of size_t. *)
Definition count_nodes (before : N) (kids : list child) : N :=
  (fold_left (fun n _ => (n + 1) mod size_t) kids before + (size_t - 1)) mod size_t.

(** Where [CheckAbort] is asked: GDTFManager.cpp:9577, 9601, 9614, 9624. *)
Record stops := Stops { at_start : bool; after_attributes : bool; after_protocols : bool; after_descriptions : bool }.

(** The calls of [FeedbackDispatcher::Send] (FeedbackDispatcher.cpp:26-31) by [GdtfFixture::OnReadFromNode],
    GDTFManager.cpp:9575-9820: the completed and the total number of nodes. *)
Definition six (done total : N) : list (N * N) :=
  [(done + 1, total);    (* 9680-9681: attributes *)
   (done + 2, total);    (* 9702-9703: wheels *)
   (done + 3, total);    (* 9724-9725: models *)
   (done + 4, total);    (* 9769-9770: geometries *)
   (done + 5, total);    (* 9790-9791: DMX modes *)
   (done + 6, total)].   (* 9810-9811: revisions *)
Definition descriptions (st : stops) (kids : list child) (done total : N) : list (N * N) :=
  if existsb is_descriptions kids then (done + 1, total) :: (if after_descriptions st then [] else six (done + 1) total)
  else six done total.
Definition protocols (st : stops) (kids : list child) (done total : N) : list (N * N) :=
  if existsb is_protocols kids then (done + 1, total) :: (if after_protocols st then [] else descriptions st kids (done + 1) total)
  else descriptions st kids done total.
Definition feedback (st : stops) (kids : list child) (total : N) : list (N * N) :=
  if at_start st then []
  else (0, total) :: (if after_attributes st then [] else protocols st kids 0 total).

(** [ImportFromZip], GDTFManager.cpp:8003-8004. *)
Definition progress (st : stops) (kids : list child) : list (N * N) := feedback st kids (count_nodes 0 kids).
