(** The sub physical units of an attribute: a type, a physical unit and two numbers, and the calls that change them.

    Enumeration values are their numbers in Include/GDTFPrefix.h (EnumModel).  The two numbers are of any type: nothing is
    computed with them.  The texts of the two numbers in a file are left out (see ObjModel). *)
From Coq Require Import List NArith String.
From Verif Require Import Bytes Txt StringModel EnumModel.
Import ListNotations.
Open Scope N_scope.

(** [GdtfConverter::GetUnitFromSubPhysical], XmlFileHelper.cpp:2484-2501; units 7 Angle, 1 Percent, 4 Time, GDTFPrefix.h:195-219. *)
Definition unit_of_type (t : N) : N :=
  match t with
  | 0 => 7    (* PlacementOffset *)
  | 1 => 1    (* Amplitude *)
  | 2 => 1    (* AmplitudeMin *)
  | 3 => 1    (* AmplitudeMax *)
  | 4 => 4    (* Duration *)
  | 5 => 1    (* DutyCycle *)
  | 6 => 1    (* TimeOffset *)
  | 7 => 1    (* MinimumOpening *)
  | 8 => 1    (* Value *)
  | 9 => 1    (* RatioHorizontal *)
  | 10 => 1   (* RatioVertical *)
  | _ => 1
  end.

Section SubUnit.
Context {D : Type}.

(** [GdtfSubPhysicalUnit], GDTFManager.h: its four members. *)
Record sub_unit := SubUnit { su_type : N; su_unit : N; su_from : D; su_to : D }.

(** [GdtfSubPhysicalUnit::GdtfSubPhysicalUnit()], GDTFManager.cpp:438-444; [zero] is 0.0. *)
Definition fresh (zero : D) : sub_unit := SubUnit 0 0 zero zero.

(** [GdtfSubPhysicalUnit::GdtfSubPhysicalUnit(type)], GDTFManager.cpp:446-452, by [GdtfAttribute::CreateSubPhysicalUnit], 620-625. *)
Definition create (zero : D) (t : N) : sub_unit := SubUnit t (unit_of_type t) zero zero.

(** [SetType], [SetPhysicalUnit], [SetPhysicalFrom] and [SetPhysicalTo], GDTFManager.cpp:478-497. *)
Inductive call := SetType (t : N) | SetPhysicalUnit (u : N) | SetPhysicalFrom (x : D) | SetPhysicalTo (x : D).
Definition step (s : sub_unit) (c : call) : sub_unit :=
  match c with
  | SetType t => SubUnit t (unit_of_type t) (su_from s) (su_to s)
  | SetPhysicalUnit u => SubUnit (su_type s) u (su_from s) (su_to s)
  | SetPhysicalFrom x => SubUnit (su_type s) (su_unit s) x (su_to s)
  | SetPhysicalTo x => SubUnit (su_type s) (su_unit s) (su_from s) x
  end.

(** The calls one after the other. *)
Definition run (s : sub_unit) (cs : list call) : sub_unit := fold_left step cs s.

(** The attributes Type and PhysicalUnit of [OnPrintToFile], GDTFManager.cpp:499-509. *)
Definition print (s : sub_unit) : list N * list N :=
  (enum_write e_SubPhysicalUnitTypeEnum (su_type s), enum_write e_PhysicalUnitEnum (su_unit s)).

(** [OnReadFromNode], GDTFManager.cpp:511-521, for the two attributes; one that is not in the node is the empty text. *)
Definition read (s : sub_unit) (ty un : list N) : sub_unit :=
  SubUnit (fst (enum_read e_SubPhysicalUnitTypeEnum (su_type s) ty)) (fst (enum_read e_PhysicalUnitEnum (su_unit s) un))
    (su_from s) (su_to s).
End SubUnit.
