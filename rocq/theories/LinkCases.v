(** C101 on a fixture; C102: fixtures whose pointers are not what the references say. *)
From Coq Require Import String List NArith ZArith Bool Lia.
From Verif Require Import Bytes Txt StringModel StringProofs NumModel EnumModel VecModel VecProps XmlModel XmlProps ObjModel ObjSpec ObjTree ObjCheck ObjProps ObjMore LookupModel LookupProps
  LinkModel LinkSpec LinkWhere LinkProofs LinkEvents LinkProps LinkMain LinkCheck.
Import ListNotations.
Open Scope N_scope.

Open Scope string_scope.
Definition an_attribute (name feature main : string) (ks : list obj) : obj :=
  mk CAttribute [("fName", tx name); ("fActivationGroup", tx "PanTilt"); ("fFeature", tx feature); ("fMainAttribute", tx main)] ks.
Definition attribute_part (groups : list obj) (l : list obj) : obj :=
  mk CAttributeDefinitions [] [mk CActivationGroups [] [mk CActivationGroup [("fName", tx "PanTilt")] []]; mk CFeatureGroups [] groups; mk CAttributes [] l].
Definition position : obj := mk CFeatureGroup [("fName", tx "Position")] [mk CFeature [("fName", tx "PanTilt")] []; mk CFeature [("fName", tx "XYZ")] []].
Definition physical_part : obj :=
  mk CPhysicalDescriptions []
    [fresh CColorSpace; mk CAdditionalColorSpaces [] [mk CColorSpace [("fUniqueName", tx "Wide")] []]; mk CGamuts [] [mk CGamut [("fUniqueName", tx "G1")] []];
     mk CFilters [] [mk CFilter [("fName", tx "CTO")] []; mk CFilter [("fName", tx "Frost")] []]; mk CEmitters [] [mk CPhysicalEmitter [("fName", tx "Lamp")] []];
     mk CDMXProfiles [] [mk CDMXProfile [("fUniqueName", tx "Square")] []]; fresh CCRIs; fresh CConnectors;
     mk CProperties [] [fresh COperatingTemperature; fresh CWeight; fresh CLegHeight]].
Definition fixture_of (attributes wheels geometries modes : list obj) : obj :=
  mk CFixture [("fName", tx "Spot")]
    [attribute_part [position] attributes; mk CWheels [] wheels; physical_part;
     mk CModels [] [mk CModel [("fUniqueName", tx "Box")] []]; mk CGeometries [] geometries; mk CDMXModes [] modes;
     mk CRevisions [] []; mk CFTPresets [] []; mk CProtocols [] []].
Definition pan_tilt : list obj :=
  [an_attribute "Pan" "Position.PanTilt" "" [mk CSubPhysicalUnit [("fType", VNat 4)] []]; an_attribute "Tilt" "Position.PanTilt" "Pan" []; an_attribute "XYZ_X" "Position.XYZ" "" []].
Definition wheels_of : list obj :=
  [mk CWheel [("fName", tx "Gobos")] [mk CWheelSlot [("fName", tx "Open")] []; mk CWheelSlot [("fName", tx "Warm"); ("fFilter", tx "CTO")] []]].
Definition base : obj :=
  mk CGeometry [("fUniqueName", tx "Base"); ("fModelReference", tx "Box")]
    [mk CGeometryAxis [("fUniqueName", tx "Yoke"); ("fModelReference", tx "Box")]
       [mk CGeometryLamp [("fUniqueName", tx "Lens"); ("fEmitterSpectrum", tx "Lamp")] []];
     mk CGeometryReference [("fUniqueName", tx "Pixel 1"); ("fLinkedGeometry", tx "Pixel")] [];
     mk CGeometryWiringObject [("fUniqueName", tx "Plug")] [mk CPinPatch [("fToWiringObject", tx "Socket"); ("fFromPin", VNat 1); ("fToPin", VNat 2)] []];
     mk CGeometryWiringObject [("fUniqueName", tx "Socket")] []].
Definition geometries_of : list obj := [base; mk CGeometry [("fUniqueName", tx "Pixel")] []].
Definition function_of (l : list (string * val)) (ks : list obj) : obj := mk CDmxChannelFunction l ks.
Definition pan_channel : obj :=
  mk CDmxChannel [("fOffset", VOff (1, 2, 0, 0)); ("fGeomRef", tx "Yoke"); ("fInitialFunction", tx "Yoke_Pan.Pan.Spin")]
    [mk CDmxLogicalChannel [("fAttribute", tx "Pan")]
       [function_of [("fAttribute", tx "Pan")] [];
        function_of [("fName", tx "Spin"); ("fAttribute", tx "Pan"); ("fAdressStart", VDmx false 60000); ("fOnWheel", tx "Gobos"); ("fEmitter", tx "Lamp"); ("fFilter", tx "Frost");
            ("fColorSpace", tx "Wide"); ("fGamut", tx "G1"); ("fDMXProfile", tx "Square"); ("fModeMaster", tx "Lens_Tilt")]
          [mk CDmxSubChannelSet [("fUniqueName", tx "sub"); ("fSubPhysicalUnit", tx "Duration"); ("fDMXProfile", tx "Square")] []]]].
Definition tilt_channel : obj :=
  mk CDmxChannel [("fOffset", VOff (3, 0, 0, 0)); ("fGeomRef", tx "Lens")]
    [mk CDmxLogicalChannel [("fAttribute", tx "Tilt")]
       [function_of [("fName", tx "Tilt"); ("fAttribute", tx "Tilt"); ("fModeMaster", tx "Yoke_Pan.Pan.Pan 1")] []]].
Definition mode_of (name : string) (channels relations macros : list obj) : obj :=
  mk CDmxMode [("fName", tx name); ("fGeomRef", tx "Base")] [mk CDMXChannels [] channels; mk CRelations [] relations; mk CFTMacros [] macros].
Definition macro : obj :=
  mk CMacro [("fName", tx "Reset"); ("fChannelFunction", tx "Lens_Tilt.Tilt.Tilt")]
    [mk CMacroDMX [] [mk CMacroDMXStep [("fDuration", VDbl (decimal 3 2))] [mk CMacroDMXValue [("fValue", tx "255/1"); ("fDMXChannel", tx "Yoke_Pan")] []]];
     mk CMacroVisual [] [mk CMacroVisualStep [] [mk CMacroVisualValue [("fDmxValue", tx "1/1"); ("fChannelFunctionRef", tx "Yoke_Pan.Pan.Spin")] []]]].
Definition relation : obj := mk CDmxRelation [("fUniqueName", tx "r"); ("fMasterDmxChannel", tx "Yoke_Pan"); ("fSlaveChannelFunction", tx "Lens_Tilt.Tilt.Tilt")] [].
(** Two modes with the same channels. *)
Definition linked_fixture : obj :=
  match fixture_of pan_tilt wheels_of geometries_of [mode_of "Standard" [pan_channel; tilt_channel] [relation] [macro]; mode_of "Extended" [pan_channel; tilt_channel] [relation] []] with
  | Obj c vs ks => Obj c vs (removelast ks ++ [mk CProtocols [] [mk CFTRDM [] [mk CSoftwareVersionID [] [mk CDMXPersonality [("fValue", VNat 1); ("fDMXMode", tx "Extended")] []]]]])
  end.
Close Scope string_scope.
Lemma linked_fixture_ok : obj_ok (0, 0, 0, 0) linked_fixture.
Proof. apply obj_okb_ok. vm_compute. reflexivity. Qed.
Lemma linked_fixture_linked : linked linked_fixture.
Proof. apply (linkedb_ok _ (ok_placed _ _ linked_fixture_ok) eq_refl). vm_compute. reflexivity. Qed.
Example C101_case hash n : exists evs, resolve_all hash n linked_fixture = Ok evs /\
  (forall p m q, In (Link p m (To q)) evs <-> refers linked_fixture p m q) /\ (forall p e, ~ In (Report p e) evs) /\
  (** the second function of the first channel of the second mode has the second channel of that mode as its master *)
  In (Link [5; 1; 0; 0; 0; 1]%nat "fModeMaster" (To [5; 1; 0; 1]%nat)) evs /\
  (** the personality belongs to the second mode *)
  In (Link [8; 0; 0; 0]%nat "fDMXMode" (To [5; 1]%nat)) evs /\
  (** the second channel has no initial function; it is its first *)
  In (Link [5; 1; 0; 1]%nat "fInitialFunction" (To [5; 1; 0; 1; 0; 0]%nat)) evs.
Proof.
  pose proof (ok_placed _ _ linked_fixture_ok) as W. destruct (C101_pointers hash n _ W eq_refl linked_fixture_linked) as (evs & E & H & _ & _ & Hr). exists evs. split; [exact E|]. split; [exact H|].
  split.
  - intros p e I. destruct (Hr p e I) as (o & m & A & D & (o' & k & A' & Ir & Em & No)). rewrite A in A'. injection A' as <-.
    pose proof (all_spots_in p [] linked_fixture o A) as Is. cbn [app] in Is.
    assert (F : forallb (fun s => match class (snd s) with CDmxMode | CDmxChannel => negb (nlen (text "fGeomRef" s) =? 0) | CMacroDMXValue => negb (nlen (text "fDMXChannel" s) =? 0) | _ => true end &&
      match class (snd s) with CDmxChannel => match at_place linked_fixture (fst s ++ [0; 0]%nat) with Some _ => true | None => false end | _ => true end) (all_spots [] linked_fixture) = true) by (vm_compute; reflexivity).
    rewrite forallb_forall in F. specialize (F _ Is). cbn [fst snd] in F. apply andb_prop in F as (F1 & F2). cbn [In] in D. destruct D as [D|[D|[D|[]]]]; rewrite <- D in *; cbn [refs In] in Ir.
    + destruct Ir as [Ir|[]]. injection Ir as <- <-. rewrite text_field in F1. cbn [snd] in F1. rewrite Em in F1. discriminate F1.
    + destruct Ir as [Ir|[Ir|[]]]; injection Ir as <- <-; [rewrite text_field in F1; cbn [snd] in F1; rewrite Em in F1; discriminate F1|]. destruct (at_place linked_fixture (p ++ [0; 0]%nat)) eqn:E0; [|discriminate F2].
      apply (No (p ++ [0; 0]%nat)). exists o, RInitial. split; [exact A|]. split; [rewrite <- D; right; left; reflexivity|]. right. rewrite E0. repeat (split; [reflexivity || exact Em|]). discriminate.
    + destruct Ir as [Ir|[]]. injection Ir as <- <-. rewrite text_field in F1. cbn [snd] in F1. rewrite Em in F1. discriminate F1.
  - assert (X : forall p m q, (exists o k, at_place linked_fixture p = Some o /\ In (m, k) (refs (class o)) /\ k <> RInitial /\ In (field m o, q) (candidates linked_fixture (p, o) k) /\ field m o <> []) ->
      refers linked_fixture p m q).
    { intros p m q (o & k & A & I & Nk & Ic & N). exists o, k. split; [exact A|]. split; [exact I|]. left. split; [exact N|].
      apply (candidates_iff linked_fixture W eq_refl (p, o) m k q _ A I) in Ic. exact Ic. }
    split; [|split]; apply H.
    + apply X. eexists _, RMaster. split; [vm_compute; reflexivity|]. split; [cbn; tauto|]. split; [discriminate|]. split; [vm_compute; tauto|vm_compute; discriminate].
    + apply X. eexists _, RMode. split; [vm_compute; reflexivity|]. split; [cbn; tauto|]. split; [discriminate|]. split; [vm_compute; tauto|vm_compute; discriminate].
    + eexists _, RInitial. split; [vm_compute; reflexivity|]. split; [cbn; tauto|]. right. split; [reflexivity|]. split; [vm_compute; reflexivity|]. split; [reflexivity|vm_compute; discriminate].
Qed.
Example C101_file_case hash n : exists x y o' evs, write_obj (0, 0, 0, 0) linked_fixture = Ok x /\ parse (write_buffer [x]) = DOk [Decl declaration; y] /\
  read_node hash n (0, 0, 0, 0) CFixture y = Ok (o', reports linked_fixture) /\ same_obj linked_fixture o' /\
  resolve_all hash n o' = Ok evs /\ forall p m q, In (Link p m (To q)) evs <-> refers linked_fixture p m q.
Proof.
  apply C101_file; [exact linked_fixture_ok|apply no_crb_ok; vm_compute; reflexivity|vm_compute; lia|reflexivity|exact linked_fixture_linked].
Qed.

(** ** C102: pointers that are not what the references say *)
Open Scope string_scope.
Definition small (attributes wheels geometries channels : list obj) : obj := fixture_of attributes wheels geometries [mode_of "Standard" channels [] []].
Definition channel_with (attribute : string) (l : list (string * val)) (ks : list obj) : obj :=
  mk CDmxChannel [("fOffset", VOff (1, 0, 0, 0)); ("fGeomRef", tx "Base")] [mk CDmxLogicalChannel [("fAttribute", tx attribute)] [mk CDmxChannelFunction (("fAttribute", tx attribute) :: l) ks]].
Definition only_base : list obj := [mk CGeometry [("fUniqueName", tx "Base")] [mk CGeometryAxis [("fUniqueName", tx "Yoke")] []]].
Definition reports_of (l : list event) : list event := filter (fun e => match e with Report _ _ => true | _ => false end) l.
(** A sub channel set of Tilt names the unit Duration, which Tilt has: the pointer goes to the unit of Pan. *)
Definition unit_fixture : obj :=
  small [an_attribute "Pan" "Position.PanTilt" "" [mk CSubPhysicalUnit [("fType", VNat 4)] []]; an_attribute "Tilt" "Position.PanTilt" "" [mk CSubPhysicalUnit [("fType", VNat 4)] []]] [] only_base
    [channel_with "Tilt" [] [mk CDmxSubChannelSet [("fUniqueName", tx "sub"); ("fSubPhysicalUnit", tx "Duration")] []]].
Theorem C102_unit_refuted : exists evs o, obj_ok (0, 0, 0, 0) unit_fixture /\ resolve_all (fun _ => 0) 1 unit_fixture = Ok evs /\
  at_place unit_fixture [0; 2; 1; 0]%nat = Some o /\ unit_reference o = T"Duration" /\
  In (Link [5; 0; 0; 0; 0; 0] "fAttribute" (To [0; 2; 1]))%nat evs /\ In (Link [5; 0; 0; 0; 0; 0; 0] "fSubPhysicalUnit" (To [0; 2; 0; 0]))%nat evs.
Proof. eexists _, _. split; [apply obj_okb_ok; vm_compute; reflexivity|]. split; [vm_compute; reflexivity|]. split; [vm_compute; reflexivity|]. split; [vm_compute; reflexivity|]. split; cbn; tauto. Qed.
(** Of features with the same reference the one of the last group is taken, everywhere else it is the first object. *)
Definition feature_fixture : obj :=
  match small [an_attribute "Pan" "Position.PanTilt" "" []] [] only_base [channel_with "Pan" [] []] with
  | Obj c vs (_ :: ks) => Obj c vs (attribute_part [position; position] [an_attribute "Pan" "Position.PanTilt" "" []] :: ks)
  | o => o
  end.
Theorem C102_feature_refuted : exists evs, obj_ok (0, 0, 0, 0) feature_fixture /\ resolve_all (fun _ => 0) 1 feature_fixture = Ok evs /\
  means feature_fixture [0; 2; 0]%nat RFeature [0; 1; 0; 0]%nat (T"Position.PanTilt") /\ In (Link [0; 2; 0] "fFeature" (To [0; 1; 1; 0]))%nat evs.
Proof.
  eexists. split; [apply obj_okb_ok; vm_compute; reflexivity|]. split; [vm_compute; reflexivity|]. split; [|cbn; tauto].
  exists [0; 1; 0]%nat, 0%nat. eexists _, _. split; [reflexivity|]. split; [vm_compute; reflexivity|]. split; [vm_compute; reflexivity|]. split; reflexivity.
Qed.
(** Names that differ in case only: the first object is taken although the second has exactly this name. *)
Definition case_fixture : obj := small pan_tilt [mk CWheel [("fName", tx "GOBOS")] []; mk CWheel [("fName", tx "Gobos")] []] only_base [channel_with "Pan" [("fOnWheel", tx "Gobos")] []].
Theorem C102_case_refuted : exists evs, obj_ok (0, 0, 0, 0) case_fixture /\ resolve_all (fun _ => 0) 1 case_fixture = Ok evs /\
  has case_fixture [1; 1]%nat CWheel "fName" (T"Gobos") /\ ~ has case_fixture [1; 0]%nat CWheel "fName" (T"Gobos") /\ In (Link [5; 0; 0; 0; 0; 0] "fOnWheel" (To [1; 0]))%nat evs.
Proof.
  eexists. split; [apply obj_okb_ok; vm_compute; reflexivity|]. split; [vm_compute; reflexivity|]. split; [eexists; split; [vm_compute; reflexivity|split; reflexivity]|]. split; [|cbn; tauto].
  intros (o & A & _ & F). vm_compute in A. injection A as <-. vm_compute in F. discriminate F.
Qed.
(** An attribute without a feature does not get its main attribute, and nothing is reported. *)
Definition main_fixture : obj := small [an_attribute "Pan" "Position.PanTilt" "" []; an_attribute "Tilt" "" "Pan" []] [] only_base [channel_with "Pan" [] []].
Theorem C102_main_refuted : exists evs, obj_ok (0, 0, 0, 0) main_fixture /\ resolve_all (fun _ => 0) 1 main_fixture = Ok evs /\
  refers main_fixture [0; 2; 1]%nat "fMainAttribute" [0; 2; 0]%nat /\ (forall x, ~ In (Link [0; 2; 1] "fMainAttribute" x)%nat evs) /\ reports_of evs = [].
Proof.
  eexists. split; [apply obj_okb_ok; vm_compute; reflexivity|]. split; [vm_compute; reflexivity|]. split; [|split; [|reflexivity]].
  - eexists _, RAttribute. split; [vm_compute; reflexivity|]. split; [cbn; tauto|]. left. split; [vm_compute; discriminate|]. eexists. split; [vm_compute; reflexivity|]. split; reflexivity.
  - intros x I. cbn [In] in I. repeat (destruct I as [I|I]; [discriminate I|]). exact I.
Qed.
(** References to objects that do not exist, and nothing is reported. *)
Definition silent_fixture : obj :=
  small pan_tilt [] only_base [channel_with "Pan" [("fOnWheel", tx "a"); ("fEmitter", tx "b"); ("fFilter", tx "c"); ("fColorSpace", tx "d"); ("fGamut", tx "e"); ("fDMXProfile", tx "f")] []].
Theorem C102_silent_refuted : exists evs, obj_ok (0, 0, 0, 0) silent_fixture /\ resolve_all (fun _ => 0) 1 silent_fixture = Ok evs /\ reports_of evs = [] /\
  forall m, In m ["fOnWheel"; "fEmitter"; "fFilter"; "fColorSpace"; "fGamut"; "fDMXProfile"] -> In (Link [5; 0; 0; 0; 0; 0]%nat m Null) evs.
Proof.
  eexists. split; [apply obj_okb_ok; vm_compute; reflexivity|]. split; [vm_compute; reflexivity|]. split; [reflexivity|].
  intros m I. repeat (destruct I as [<-|I]; [cbn; tauto|]). destruct I.
Qed.
(** A mode whose geometry is inside another one. *)
Definition nested_fixture : obj := fixture_of pan_tilt [] only_base [mk CDmxMode [("fName", tx "m"); ("fGeomRef", tx "Yoke")] [mk CDMXChannels [] []; mk CRelations [] []; mk CFTMacros [] []]].
Theorem C102_nested_refuted : exists evs, obj_ok (0, 0, 0, 0) nested_fixture /\ resolve_all (fun _ => 0) 1 nested_fixture = Ok evs /\
  means nested_fixture [5; 0]%nat RGeometry [4; 0; 0]%nat (T"Yoke") /\ In (Report [5; 0]%nat DmxModeUnresolvedGeometry) evs /\ forall x, ~ In (Link [5; 0]%nat "fGeomRef" x) evs.
Proof.
  eexists. split; [apply obj_okb_ok; vm_compute; reflexivity|]. split; [vm_compute; reflexivity|]. split; [|split; [cbn; tauto|]].
  - eexists. split; [vm_compute; reflexivity|]. split; [cbn; tauto|reflexivity].
  - intros x I. cbn [In] in I. repeat (destruct I as [I|I]; [discriminate I|]). exact I.
Qed.
(** A pin patch to a geometry that is no wiring object: the pointer is set, by a cast without a check (8622-8624). *)
Definition pin_fixture : obj :=
  small pan_tilt [] (only_base ++ [mk CGeometryWiringObject [("fUniqueName", tx "Plug")] [mk CPinPatch [("fToWiringObject", tx "Yoke"); ("fFromPin", VNat 1); ("fToPin", VNat 2)] []]]) [channel_with "Pan" [] []].
Theorem C102_pin_refuted : exists evs o, obj_ok (0, 0, 0, 0) pin_fixture /\ resolve_all (fun _ => 0) 1 pin_fixture = Ok evs /\
  In (Link [4; 1; 0] "fToWiringObject" (To [4; 0; 0]))%nat evs /\ at_place pin_fixture [4; 0; 0]%nat = Some o /\ class o = CGeometryAxis.
Proof. eexists _, _. split; [apply obj_okb_ok; vm_compute; reflexivity|]. split; [vm_compute; reflexivity|]. split; [cbn; tauto|]. split; [vm_compute; reflexivity|reflexivity]. Qed.
Definition unknown_fixture (initial : string) : obj :=
  small pan_tilt [] only_base [mk CDmxChannel [("fOffset", VOff (1, 0, 0, 0)); ("fGeomRef", tx "Base"); ("fInitialFunction", tx initial)]
    [mk CDmxLogicalChannel [("fAttribute", tx "Zoom")] [mk CDmxChannelFunction [("fAttribute", tx "Zoom")] []]]].
(** A channel whose first attribute is not defined: with an initial function the name of the null attribute is asked for
    (5654), without one it is an error. *)
Theorem C102_undefined_refuted : obj_ok (0, 0, 0, 0) (unknown_fixture "Base_Zoom.Zoom.Zoom 1") /\ resolve_all (fun _ => 0) 1 (unknown_fixture "Base_Zoom.Zoom.Zoom 1") = UB /\
  exists evs, resolve_all (fun _ => 0) 1 (unknown_fixture "") = Ok evs /\ reports_of evs =
    [Report [5; 0; 0; 0; 0]%nat FixtureLogicalChannelMissingAttribute; Report [5; 0; 0; 0; 0; 0]%nat ChannelFunctionMissingAttribute].
Proof. split; [apply obj_okb_ok; vm_compute; reflexivity|]. split; [vm_compute; reflexivity|]. eexists. split; [vm_compute; reflexivity|reflexivity]. Qed.
Close Scope string_scope.

Print Assumptions C101_pointers.
Print Assumptions C101_one.
Print Assumptions C101_quiet.
Print Assumptions C101_file.
Print Assumptions C102_unit_refuted.
Print Assumptions C102_feature_refuted.
Print Assumptions C102_case_refuted.
Print Assumptions C102_main_refuted.
Print Assumptions C102_silent_refuted.
Print Assumptions C102_nested_refuted.
Print Assumptions C102_pin_refuted.
Print Assumptions C102_undefined_refuted.
