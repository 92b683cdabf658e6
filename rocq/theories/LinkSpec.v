(** Which object a reference in a fixture means: by class, scope and reference text, without the loops and
    the indexes of the code. *)
From Coq Require Import String List NArith ZArith Bool.
From Verif Require Import Bytes Txt StringModel NumModel EnumModel ObjModel ObjSpec ObjMore LookupProps LinkModel.
Import ListNotations.
Open Scope N_scope.

(** ** Places *)
Fixpoint at_place (o : obj) (p : place) : option obj :=
  match p with
  | [] => Some o
  | i :: r => match nth_error (children o) i with Some k => at_place k r | None => None end
  end.
Definition field (f : string) (o : obj) : list N := match get f (members o) with VTxt t => t | _ => [] end.
(** Every object stands below an object that has such children. *)
Definition child_classes (c : cls) : list cls := flat_map (fun s => map snd (s_kinds s)) (slots c).
Inductive well_placed : obj -> Prop :=
| well_placed_i c vs ks : Forall (fun k => In (class k) (child_classes c)) ks -> Forall well_placed ks -> well_placed (Obj c vs ks).

(** ** References *)
Inductive kind :=
| RModel | RGeometry | RTopGeometry | REmitter | RWheel | RFilter | RColorSpace | RGamut | RProfile | RUnit
| RActivationGroup | RFeature | RAttribute | RMode | RChannel | RFunction | RMaster | RInitial.
(** The pointers of each class (the members of [ObjModel] that hold references). *)
Definition refs (c : cls) : list (string * kind) :=
  match c with
  | CGeometryReference => [("fModelReference", RModel); ("fLinkedGeometry", RGeometry)]
  | CGeometryStructure => [("fModelReference", RModel); ("fLinkedGeometry", RGeometry)]
  | CGeometryLamp => [("fModelReference", RModel); ("fEmitterSpectrum", REmitter)]
  | CGeometryLaser => [("fModelReference", RModel); ("fEmitter", REmitter)]
  | CGeometry | CGeometryAxis | CGeometryBeamFilter | CGeometryColorFilter | CGeometryGoboFilter
  | CGeometryShaperFilter | CGeometryMediaServerCamera | CGeometryMediaServerLayer | CGeometryMediaServerMaster
  | CGeometryDisplay | CGeometryWiringObject | CGeometryInventory | CGeometrySupport | CGeometryMagnet =>
      [("fModelReference", RModel)]
  | CPinPatch => [("fToWiringObject", RGeometry)]
  | CWheelSlot => [("fFilter", RFilter)]
  | CAttribute => [("fActivationGroup", RActivationGroup); ("fFeature", RFeature); ("fMainAttribute", RAttribute)]
  | CDmxMode => [("fGeomRef", RTopGeometry)]
  | CDmxChannel => [("fGeomRef", RGeometry); ("fInitialFunction", RInitial)]
  | CDmxLogicalChannel => [("fAttribute", RAttribute)]
  | CDmxChannelFunction =>
      [("fAttribute", RAttribute); ("fOnWheel", RWheel); ("fEmitter", REmitter); ("fFilter", RFilter);
       ("fColorSpace", RColorSpace); ("fGamut", RGamut); ("fDMXProfile", RProfile); ("fModeMaster", RMaster)]
  | CDmxSubChannelSet => [("fSubPhysicalUnit", RUnit); ("fDMXProfile", RProfile)]
  | CDmxRelation => [("fMasterDmxChannel", RChannel); ("fSlaveChannelFunction", RFunction)]
  | CMacro => [("fChannelFunction", RFunction)]
  | CMacroDMXValue => [("fDMXChannel", RChannel)]
  | CMacroVisualValue => [("fChannelFunctionRef", RFunction)]
  | CDMXPersonality => [("fDMXMode", RMode)]
  | _ => []
  end%string.
(** Modes stand two levels below the fixture. *)
Definition same_mode (p q : place) : Prop := firstn 2 p = firstn 2 q.
(** geometry_attribute *)
Definition channel_reference (c : obj) : list N :=
  field "fGeomRef" c ++ T"_" ++ match children c with [] => [] | l :: _ => field "fAttribute" l end.
(** channel.attribute.name; a function without a name has the name of its attribute and its number. *)
Definition function_reference (c l : obj) (j : nat) (f : obj) : list N :=
  channel_reference c ++ T"." ++ field "fAttribute" l ++ T"." ++
  match field "fName" f with [] => field "fAttribute" f ++ T" " ++ itoa (Z.of_nat (S j)) | n => n end.
(** The type of the unit. *)
Definition unit_reference (o : obj) : list N :=
  match get "fType" (members o) with VNat n => enum_write e_SubPhysicalUnitTypeEnum n | _ => [] end.
Section Root.
Variable root : obj.
Definition has (q : place) (c : cls) (f : string) (t : list N) : Prop :=
  exists o, at_place root q = Some o /\ class o = c /\ field f o = t.
Definition geometry_at (q : place) (t : list N) : Prop :=
  exists o, at_place root q = Some o /\ In (class o) geometry_classes /\ field "fUniqueName" o = t.
Definition channel_at (q : place) (t : list N) : Prop :=
  exists c, at_place root q = Some c /\ class c = CDmxChannel /\ t = channel_reference c.
Definition function_at (q : place) (t : list N) : Prop :=
  exists p i j c l f, q = p ++ [i; j] /\ at_place root p = Some c /\ at_place root (p ++ [i]) = Some l /\
    at_place root q = Some f /\ class f = CDmxChannelFunction /\ t = function_reference c l j f.
(** A reference of kind [k] in the object at [p] may mean the object at [q], whose reference is [t]. *)
Definition means (p : place) (k : kind) (q : place) (t : list N) : Prop :=
  match k with
  | RModel => has q CModel "fUniqueName" t
  | RGeometry => geometry_at q t
  | RTopGeometry => geometry_at q t /\ List.length q = 2%nat
  | REmitter => has q CPhysicalEmitter "fName" t
  | RWheel => has q CWheel "fName" t
  | RFilter => has q CFilter "fName" t
  | RColorSpace => exists q' i a, q = q' ++ [i] /\ at_place root q' = Some a /\ class a = CAdditionalColorSpaces /\
      has q CColorSpace "fUniqueName" t
  | RGamut => has q CGamut "fUniqueName" t
  | RProfile => has q CDMXProfile "fUniqueName" t
  | RUnit => exists o, at_place root q = Some o /\ class o = CSubPhysicalUnit /\ t = unit_reference o
  | RActivationGroup => has q CActivationGroup "fName" t
  | RFeature => exists q' i g f, q = q' ++ [i] /\ at_place root q' = Some g /\ at_place root q = Some f /\
      class f = CFeature /\ t = field "fName" g ++ T"." ++ field "fName" f
  | RAttribute => has q CAttribute "fName" t
  | RMode => has q CDmxMode "fName" t
  | RChannel => channel_at q t /\ same_mode p q
  | RFunction => function_at q t /\ same_mode p q
  | RMaster => (channel_at q t \/ function_at q t) /\ same_mode p q
  | RInitial => function_at q t /\ exists i j, q = p ++ [i; j]
  end.
(** Attributes of channels and functions are set, and so are the geometry of a geometry reference and the mode of a
    personality. *)
Definition needed (c : cls) (f : string) : Prop :=
  (c = CDmxLogicalChannel \/ c = CDmxChannelFunction) /\ f = "fAttribute"%string \/
  c = CGeometryReference /\ f = "fLinkedGeometry"%string \/ c = CDMXPersonality /\ f = "fDMXMode"%string.
(** A fixture whose references hold the reference texts of objects, and each text means one object. *)
Definition linked : Prop :=
  (forall p o m k, at_place root p = Some o -> In (m, k) (refs (class o)) ->
    (needed (class o) m -> field m o <> []) /\
    (field m o <> [] -> exists q, means p k q (field m o) /\
      forall q' t, means p k q' t -> same_name t (field m o) -> q' = q)) /\
  (** An attribute with a main attribute has a feature. *)
  (forall p o, at_place root p = Some o -> class o = CAttribute -> field "fMainAttribute" o <> [] -> field "fFeature" o <> []).
(** What pointer [m] of the object at [p] points to; the first function of a channel is its initial
    function if no other is given. *)
Definition refers (p : place) (m : string) (q : place) : Prop :=
  exists o k, at_place root p = Some o /\ In (m, k) (refs (class o)) /\
    (field m o <> [] /\ means p k q (field m o) \/
     k = RInitial /\ field m o = [] /\ q = p ++ [0; 0]%nat /\ at_place root q <> None).
End Root.
