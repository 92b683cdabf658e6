(** Types for the model of the interface objects of the library (VcomModel.v) and its tables (VcomTable.v). *)
From Coq Require Import List String NArith.
Import ListNotations.

(** [VWIID] (VectorworksMVR.h:31-36): 4, 2, 2 and 8 times 1 byte, without padding. *)
Record iid := Iid { data1 : N; data2 : N; data3 : N; data4 : list N }.

(** The checks of an index that occur: [at >= list.size()] (written [count <= at] in the scene objects),
    [list.size() < at], and [at > list.size()]; each returns the error if the condition holds. *)
Inductive guard := AtGeSize | SizeLtAt | AtGtSize.

(** How the element is read: [list[at]] (undefined outside the list) or [list.at(at)] (throws outside the list). *)
Inductive reader := Brackets | Throws.

(** What a function gives out: the element [at] of a list; the object behind one pointer, with the error returned if
    the pointer is null ([None]: not checked); an object that was just made. *)
Inductive kind :=
| KAt (g : guard) (r : reader) (err : N)
| KOne (err : option N)
| KNew.

(** When the object that the parameter held before is given back:
    - [NewFirst]: make the new object, release the old one, write the parameter;
    - [ReadFirst]: read what is needed from the object called, release the old one, make the new object;
    - [ReleaseFirst]: release the old object, then read from the object called and make the new one;
    - [NoRelease]: write the parameter without releasing what it held. *)
Inductive giving := NewFirst | ReadFirst | ReleaseFirst | NoRelease.

(** What is done with the own pointer: [Checks e]: return [e] if it is null; [Unchecked]: use it; [Embedded]: the data
    are part of the object (or a null pointer is accepted). *)
Inductive own := Checks (err : N) | Unchecked | Embedded.

Record getter := G {
  g_name : string; g_class : string; g_iid : string; g_cast : string; g_inter : string;
  g_order : giving; g_own : own; g_clear : bool; g_kind : kind }.
