(** Resolving all references of a fixture after it has been read: [GdtfFixture::ResolveAllReferences],
    GDTFManager.cpp 8502-8512, on the objects of [ObjModel].  The result is the list of pointers that are
    set and of errors that are added, in the order of the code.

    Not here: errors about duplicates (9108-9156, [CheckModel]), DMX values and defaults that are set on
    the way (8776, 8803, 8894, 9224-9232), the errors of [AutoGenerateNames] (8047-8117) and
    [CheckForMissingModeMasters].  The user does not abort ([CheckAbort] is false).  Names that the code
    generates and keeps (fName_AutoGenerated) are computed when they are used: the code forms them only
    after the geometry and the attributes they are made of have been set. *)
From Coq Require Import String List NArith ZArith Bool.
From Verif Require Import Bytes Txt StringModel NumModel EnumModel ObjModel ObjCheck LookupModel.
Import ListNotations.
Open Scope N_scope.
(** Two classes are the same. *)
Definition cls_beq (c d : cls) : bool := if cls_dec c d then true else false.

(** ** Objects and where they stand *)
(** The way from the fixture to an object: positions among the children. *)
Definition place := list nat.
Definition spot : Type := place * obj.
Definition kind_of (o : obj) : cls := match o with Obj c _ _ => c end.
Definition class_of (s : spot) : cls := kind_of (snd s).
Definition txt_in (vs : env) (f : string) : list N := match get f vs with VTxt t => t | _ => [] end.
Definition text (f : string) (s : spot) : list N := match snd s with Obj _ vs _ => txt_in vs f end.
Fixpoint numbered_from (p : place) (i : nat) (l : list obj) : list spot :=
  match l with [] => [] | k :: r => (p ++ [i], k) :: numbered_from p (S i) r end.
Definition below (s : spot) : list spot := match snd s with Obj _ _ ks => numbered_from (fst s) 0 ks end.
(** The array of the children of one class, and the loops over such arrays inside each other. *)
Definition those (c : cls) (s : spot) : list spot := filter (fun k => cls_beq c (class_of k)) (below s).
Fixpoint down (cs : list cls) (s : spot) : list spot :=
  match cs with [] => [s] | c :: r => flat_map (down r) (those c s) end.
(** fGeometries and GetInternalGeometries: children of any class of geometry. *)
Definition is_geo (c : cls) : bool := existsb (fun k => cls_beq c (snd k)) (s_kinds geometries).
Fixpoint geo_of (p : place) (o : obj) : @geo place :=
  match o with
  | Obj _ vs ks => Geo (txt_in vs "fUniqueName") p
    ((fix go (i : nat) (l : list obj) : list geo :=
      match l with
      | [] => []
      | k :: r => if is_geo (kind_of k) then geo_of (p ++ [i]) k :: go (S i) r else go (S i) r
      end) O ks)
  end.

(** ** What happens *)
(** The object made by [CreateNoFeatureAttribute], 8158-8204, has no place in the file. *)
Inductive target := Null | To (p : place) | Made.
Inductive why :=
| GeometryUnresolvedModel | GeometryReferenceUnresolvedLink | AttributeUnresolvedActivationGroup
| AttributeUnresolvedFeature | AttributeUnresolvedMainAttribute | DmxMacroDmxValueChannelReference
| DmxModeUnresolvedGeometry | DMXModeMastersUnresolved | UnresolvedRdmPersonalityMode
| FixtureDMXChannelMissingGeometryLink | FixtureDMXChannelUnresolvedChannelFunction
| FixtureDMXChannelMissingChannelFunction | FixtureLogicalChannelMissingAttribute
| ChannelFunctionMissingAttribute.
(** Pointer [m] of the object at [p] is set; an error is added for the node of the object at [p]. *)
Inductive event := Link (p : place) (m : string) (x : target) | Report (p : place) (e : why).
Definition to (o : option place) : target := match o with Some p => To p | None => Null end.
Definition name_at (s : spot) : list N * place := (text "fName" s, fst s).
Definition unique_name_at (s : spot) : list N * place := (text "fUniqueName" s, fst s).

Section Link.
(** std::hash<std::u16string> and the number of buckets of the maps. *)
Variable hash : list N -> N.
Variable buckets : N.
Variable root : obj.
Let top : spot := ([], root).

(** ** The arrays of the fixture *)
Definition wheels := map name_at (down [CWheels; CWheel] top).
Definition models := map unique_name_at (down [CModels; CModel] top).
Definition emitters := map name_at (down [CPhysicalDescriptions; CEmitters; CPhysicalEmitter] top).
Definition filters := map name_at (down [CPhysicalDescriptions; CFilters; CFilter] top).
Definition connectors := down [CPhysicalDescriptions; CConnectors; CConnector] top.
Definition spaces := map unique_name_at (down [CPhysicalDescriptions; CAdditionalColorSpaces; CColorSpace] top).
Definition gamuts := map unique_name_at (down [CPhysicalDescriptions; CGamuts; CGamut] top).
Definition profiles := map unique_name_at (down [CPhysicalDescriptions; CDMXProfiles; CDMXProfile] top).
Definition groups := map name_at (down [CAttributeDefinitions; CActivationGroups; CActivationGroup] top).
Definition attributes := down [CAttributeDefinitions; CAttributes; CAttribute] top.
Definition modes := down [CDMXModes; CDmxMode] top.
(** 547-550: the reference of a sub-physical unit is the text of its type. *)
Definition unit_at (s : spot) : list N * place :=
  (match snd s with Obj _ vs _ => match get "fType" vs with VNat n => enum_write e_SubPhysicalUnitTypeEnum n | _ => [] end end, fst s).
Definition units : list (list (list N * place)) := map (fun a => map unit_at (those CSubPhysicalUnit a)) attributes.
(** 302-307: the reference of a feature has the name of its group in front. *)
Definition features : list (list (list N * target)) :=
  map (fun g => map (fun f => (text "fName" g ++ T"." ++ text "fName" f, To (fst f))) (those CFeature g))
    (down [CAttributeDefinitions; CFeatureGroups; CFeatureGroup] top).
(** fGeometries and GetInternalGeometries. *)
Definition geos_in (s : spot) : list spot := filter (fun k => is_geo (class_of k)) (below s).
Definition geo_spots : list spot := flat_map geos_in (down [CGeometries] top).
Definition geos : list (@geo place) := map (fun s => geo_of (fst s) (snd s)) geo_spots.

(** [BuildLookupIndexes], 8394-8410. *)
Definition total : N :=
  nlen attributes + nlen wheels + nlen models + nlen emitters + nlen filters + nlen connectors
  + nlen spaces + nlen gamuts + nlen profiles + nlen geo_spots.
Definition use : bool := 128 <=? total.
Definition find_in (l : list (list N * place)) (ref : list N) : target := to (by_ref hash buckets use l ref).
Definition find_geo (ref : list N) : target := to (geometry_by_ref hash buckets use geos ref).

(** "if not empty: set what is found". *)
Definition if_text (s : spot) (m : string) (find : list N -> target) : list event :=
  if nlen (text m s) =? 0 then [] else [Link (fst s) m (find (text m s))].
(** "set if found, error if not". *)
Definition set_or (s : spot) (m : string) (x : target) (e : why) : list event :=
  match x with Null => [Report (fst s) e] | _ => [Link (fst s) m x] end.

(** [ResolveGeometryRefs_Recursive], 8524-8652, for the geometry itself. *)
Definition geo_own (s : spot) : list event :=
  (if nlen (text "fModelReference" s) =? 0 then []
   else set_or s "fModelReference" (find_in models (text "fModelReference" s)) GeometryUnresolvedModel) ++
  match class_of s with
  | CGeometryReference =>
    let x := find_geo (text "fLinkedGeometry" s) in
    match x with Null => [Report (fst s) GeometryReferenceUnresolvedLink] | _ => [] end ++ [Link (fst s) "fLinkedGeometry" x]
  | CGeometryLamp => if_text s "fEmitterSpectrum" (find_in emitters)
  | CGeometryLaser => if_text s "fEmitter" (find_in emitters)
  | CGeometryWiringObject => flat_map (fun k => if_text k "fToWiringObject" find_geo) (those CPinPatch s)
  | CGeometryStructure => if_text s "fLinkedGeometry" find_geo
  | _ => []
  end.
(** With the children (8646-8651). *)
Fixpoint geo_links (p : place) (o : obj) : list event :=
  match o with
  | Obj c vs ks => geo_own (p, Obj c vs ks) ++
    (fix go (i : nat) (l : list obj) : list event :=
      match l with
      | [] => []
      | k :: r => if is_geo (kind_of k) then geo_links (p ++ [i]) k ++ go (S i) r else go (S i) r
      end) O ks
  end.
(** [ResolveGeometryRefs], 8514-8522. *)
Definition all_geo_links : list event := flat_map (fun s => geo_links (fst s) (snd s)) geo_spots.

(** ** Attributes *)
Definition attribute_at (s : spot) : list N * @attr place := (text "fName" s, Attr (fst s)).
Definition start : @attrs place := build_attrs hash buckets (map attribute_at attributes) total.
Definition attr_target (a : option (@attr place)) : target :=
  match a with None => Null | Some (Attr p) => To p | Some Created => Made end.
(** The name of an attribute that has been found. *)
Definition attr_name (a : option (@attr place)) : option (list N) :=
  match a with
  | None => None
  | Some Created => Some no_feature
  | Some (Attr p) => match find (fun s => if list_eq_dec Nat.eq_dec (fst s) p then true else false) attributes with
                     | Some s => Some (text "fName" s) | None => None end
  end.
Definition no_attribute (s : spot) (a : option (@attr place)) (e : why) : list event :=
  match a with None => [Report (fst s) e] | _ => [Link (fst s) "fAttribute" (attr_target a)] end.

(** ** Channels *)
(** [ResolveDmxSubChannelSetRefs], 9272-9294. *)
Definition subset_links (s : spot) : list event :=
  if_text s "fSubPhysicalUnit" (fun t => to (unit_by_ref hash buckets use units t)) ++
  if_text s "fDMXProfile" (find_in profiles).
(** [ResolveDmxChanelFunctionRefs], 9187-9270, after the attribute. *)
Definition function_links (s : spot) : list event :=
  if_text s "fOnWheel" (find_in wheels) ++ if_text s "fEmitter" (find_in emitters) ++
  if_text s "fFilter" (find_in filters) ++ if_text s "fColorSpace" (find_in spaces) ++
  if_text s "fGamut" (find_in gamuts) ++ if_text s "fDMXProfile" (find_in profiles) ++
  flat_map subset_links (those CDmxSubChannelSet s).
Fixpoint functions (st : @attrs place) (l : list spot) : list event * list (@func place) * @attrs place :=
  match l with
  | [] => ([], [], st)
  | s :: r =>
    let '(a, st1) := get_attribute hash buckets st (text "fAttribute" s) in
    let '(ev, fs, st2) := functions st1 r in
    (no_attribute s a ChannelFunctionMissingAttribute ++ function_links s ++ ev,
     mkFunc (text "fName" s) (attr_name a) (fst s) :: fs, st2)
  end.
(** [ResolveDmxLogicalChanRefs], 9093-9185. *)
Fixpoint logicals (st : @attrs place) (l : list spot) : list event * list (@logical place) * @attrs place :=
  match l with
  | [] => ([], [], st)
  | s :: r =>
    let '(a, st1) := get_attribute hash buckets st (text "fAttribute" s) in
    let '(ev, fs, st2) := functions st1 (those CDmxChannelFunction s) in
    let '(ev', ls, st3) := logicals st2 r in
    (no_attribute s a FixtureLogicalChannelMissingAttribute ++ ev ++ ev', mkLog (attr_name a) fs :: ls, st3)
  end.
(** The name of a geometry that has been found. *)
Definition geo_name (x : target) : option (list N) :=
  match x with
  | To p => match find (fun e => if list_eq_dec Nat.eq_dec (snd e) p then true else false) (flat_map flatten geos) with
            | Some e => Some (fst e) | None => None end
  | _ => None
  end.
(** [ResolveDmxChannelRefs], 9021-9069: the initial function, once geometry and attributes are set. *)
Definition initial_function (s : spot) (c : @channel place) : res (list event) :=
  if nlen (text "fInitialFunction" s) =? 0 then
    match h_logical c with
    | {| l_funcs := f :: _ |} :: _ => Ok [Link (fst s) "fInitialFunction" (To (f_id f))]
    | _ => Ok [Report (fst s) FixtureDMXChannelMissingChannelFunction]
    end
  else
    do x <- linear_logs c (h_logical c) (text "fInitialFunction" s);
    Ok (set_or s "fInitialFunction" (to x) FixtureDMXChannelUnresolvedChannelFunction).
(** [ResolveDmxChannelRefs], 8973-9071. *)
Fixpoint channels (st : @attrs place) (l : list spot) : res (list event * list (@channel place) * @attrs place) :=
  match l with
  | [] => Ok ([], [], st)
  | s :: r =>
    let x := if nlen (text "fGeomRef" s) =? 0 then Null else find_geo (text "fGeomRef" s) in
    let '(ev, ls, st1) := logicals st (those CDmxLogicalChannel s) in
    let c := mkCh [] (geo_name x) ls (fst s) in
    do i <- initial_function s c;
    do rest <- channels st1 r;
    let '(ev', cs, st2) := rest in
    Ok (set_or s "fGeomRef" x FixtureDMXChannelMissingGeometryLink ++ ev ++ i ++ ev', c :: cs, st2)
  end.

(** ** Modes *)
Definition channel_spots (s : spot) : list spot := down [CDMXChannels; CDmxChannel] s.
Definition find_channel (cs : list (@channel place)) (ref : list N) : res target :=
  do x <- channel_by_ref hash buckets (indexed cs) cs ref; Ok (to x).
Definition find_function (cs : list (@channel place)) (ref : list N) : res target :=
  do x <- function_by_ref hash buckets (indexed cs) cs ref; Ok (to x).
Fixpoint each {A} (f : A -> res (list event)) (l : list A) : res (list event) :=
  match l with [] => Ok [] | a :: r => do x <- f a; do y <- each f r; Ok (x ++ y) end.
(** [ResolveDmxRelationRefs], 8959-8971, with [GetMasterByRef] and [GetSlaveByRef], 5011-5056. *)
Definition relation_links (cs : list (@channel place)) (s : spot) : res (list event) :=
  do m <- find_channel cs (text "fMasterDmxChannel" s);
  do f <- find_function cs (text "fSlaveChannelFunction" s);
  Ok [Link (fst s) "fMasterDmxChannel" m; Link (fst s) "fSlaveChannelFunction" f].
(** [ResolveMacroRefs], 8743-8813. *)
Definition dmx_value_links (cs : list (@channel place)) (s : spot) : res (list event) :=
  do x <- find_channel cs (text "fDMXChannel" s);
  Ok (set_or s "fDMXChannel" x DmxMacroDmxValueChannelReference).
Definition visual_value_links (cs : list (@channel place)) (s : spot) : res (list event) :=
  do x <- find_function cs (text "fChannelFunctionRef" s);
  Ok (match x with Null => [] | _ => [Link (fst s) "fChannelFunctionRef" x] end).
Definition macro_links (cs : list (@channel place)) (s : spot) : res (list event) :=
  do a <- (if nlen (text "fChannelFunction" s) =? 0 then Ok []
           else do x <- find_function cs (text "fChannelFunction" s); Ok [Link (fst s) "fChannelFunction" x]);
  do b <- each (dmx_value_links cs) (down [CMacroDMX; CMacroDMXStep; CMacroDMXValue] s);
  do c <- each (visual_value_links cs) (down [CMacroVisual; CMacroVisualStep; CMacroVisualValue] s);
  Ok (a ++ b ++ c).
(** [ResolveDmxModeRefs], 8815-8855: the geometry of a mode is one of the geometries at the top. *)
Definition mode_geometry (s : spot) : list event :=
  set_or s "fGeomRef"
    (if nlen (text "fGeomRef" s) =? 0 then Null else to (linear (map unique_name_at geo_spots) (text "fGeomRef" s)))
    DmxModeUnresolvedGeometry.
Fixpoint mode_links (st : @attrs place) (l : list spot) : res (list event * list (spot * list (@channel place)) * @attrs place) :=
  match l with
  | [] => Ok ([], [], st)
  | s :: r =>
    do h <- channels st (channel_spots s);
    let '(ev, cs, st1) := h in
    do rel <- each (relation_links cs) (down [CRelations; CDmxRelation] s);
    do mac <- each (macro_links cs) (down [CFTMacros; CMacro] s);
    do rest <- mode_links st1 r;
    let '(ev', ms, st2) := rest in
    Ok (mode_geometry s ++ ev ++ rel ++ mac ++ ev', (s, cs) :: ms, st2)
  end.
(** [ResolveDMXModeMasters], 8857-8916: a channel, or else a channel function.  The error names the
    channel. *)
Definition master_links (cs : list (@channel place)) (channel : spot) (s : spot) : res (list event) :=
  if nlen (text "fModeMaster" s) =? 0 then Ok []
  else
    do x <- find_channel cs (text "fModeMaster" s);
    match x with
    | Null =>
      do y <- find_function cs (text "fModeMaster" s);
      Ok (match y with Null => [Report (fst channel) DMXModeMastersUnresolved] | _ => [Link (fst s) "fModeMaster" y] end)
    | _ => Ok [Link (fst s) "fModeMaster" x]
    end.
Definition mode_masters (ms : list (spot * list (@channel place))) : res (list event) :=
  each (fun m => each (fun h => each (master_links (snd m) h) (down [CDmxLogicalChannel; CDmxChannelFunction] h))
    (channel_spots (fst m))) ms.

(** [ResolveDMXPersonalityRefs], 8919-8957. *)
Definition personality_links : list event :=
  flat_map (fun s => set_or s "fDMXMode" (to (linear (map name_at modes) (text "fDMXMode" s))) UnresolvedRdmPersonalityMode)
    (down [CProtocols; CFTRDM; CSoftwareVersionID; CDMXPersonality] top).

(** ** The attributes themselves *)
(** The group and the feature that [CreateNoFeatureAttribute], 8158-8204, looks for and adds. *)
Fixpoint add_control (gs : list (list N * list (list N * target))) : list (list (list N * target)) :=
  match gs with
  | [] => [[(T"Control.Control", Made)]]
  | (g, fs) :: r =>
    if txeq g (T"Control") then
      (if existsb (fun f => txeq (fst f) (g ++ T".Control")) fs then fs else fs ++ [(g ++ T".Control", Made)]) :: map snd r
    else fs :: add_control r
  end.
Definition group_names : list (list N) := map (text "fName") (down [CAttributeDefinitions; CFeatureGroups; CFeatureGroup] top).
Definition features_now (st : @attrs place) : list (list (list N * target)) :=
  if existsb (fun a => match snd a with Created => true | _ => false end) (at_list st)
  then add_control (combine group_names features) else features.
(** The loops 8700-8707: [break] leaves the inner loop only. *)
Definition find_feature (fs : list (list (list N * target))) (ref : list N) : target :=
  fold_left (fun x g => match linear g ref with Some y => y | None => x end) fs Null.
(** [ResolveAttribRefs], 8672-8741.  If an attribute is added the iterators of the loop are invalid. *)
Fixpoint attribute_links (st : @attrs place) (l : list spot) : res (list event * @attrs place) :=
  match l with
  | [] => Ok ([], st)
  | s :: r =>
    let a := if nlen (text "fActivationGroup" s) =? 0 then []
             else set_or s "fActivationGroup" (to (linear groups (text "fActivationGroup" s))) AttributeUnresolvedActivationGroup in
    if nlen (text "fFeature" s) =? 0 then
      do rest <- attribute_links st r; Ok (a ++ fst rest, snd rest)
    else
      let f := set_or s "fFeature" (find_feature (features_now st) (text "fFeature" s)) AttributeUnresolvedFeature in
      if nlen (text "fMainAttribute" s) =? 0 then
        do rest <- attribute_links st r; Ok (a ++ f ++ fst rest, snd rest)
      else
        let '(x, st1) := get_attribute hash buckets st (text "fMainAttribute" s) in
        if (List.length (at_list st1) =? List.length (at_list st))%nat then
          do rest <- attribute_links st1 r;
          Ok (a ++ f ++ set_or s "fMainAttribute" (attr_target x) AttributeUnresolvedMainAttribute ++ fst rest, snd rest)
        else UB
  end.
(** [ResolveWheelSlots], 8654-8670. *)
Definition slot_links : list event :=
  flat_map (fun s => if_text s "fFilter" (find_in filters)) (down [CWheels; CWheel; CWheelSlot] top).

(** [ResolveAllReferences], 8502-8512. *)
Definition resolve_all : res (list event) :=
  do m <- mode_links start modes;
  let '(ev, ms, st) := m in
  do mm <- mode_masters ms;
  do a <- attribute_links st attributes;
  Ok (all_geo_links ++ ev ++ mm ++ personality_links ++ fst a ++ slot_links).
End Link.
