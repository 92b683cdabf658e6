(** The objects of a GDTF fixture and their XML nodes: OnPrintToFile, OnReadFromNode and OnErrorCheck of
    every class of GDTFManager.cpp (line numbers without a file name are of that file), with
    GdtfObject::WriteToNode and ReadFromNode (29-54).

    Each class is given by tables: its members with the values of the constructor, the attributes written
    and read, the nodes of its children.  A class that the code has no name for (a node like
    "DMXChannels" that only holds others) is one of its own here.

    Simplified: a reference to another object is the text of the reference, empty for a null pointer
    (resolving it is modelled elsewhere: RefModel, GeomModel); values that are read as text first and converted
    when references are resolved (ModeFrom, ModeTo, the values of macros) are texts; the files a model looks
    for are not looked for; nothing aborts the reading.  What OnPrintToFile of a channel function does
    to its channel sets before it writes them is [DmxModel.fill_sets]; here the sets are those it
    returns. *)
From Coq Require Import String List NArith ZArith Bool.
From Verif Require Import Bytes Txt UtfModel StringModel UuidModel NumModel FloatModel ConvModel VecModel EnumModel
  DmxModel XmlModel AttrModel.
Import ListNotations.
Open Scope N_scope.

(** ** Values of members *)
(** [VUnset]: the constructor leaves the member uninitialised. *)
Inductive val :=
| VTxt (s : list N) | VDbl (x : fl) | VInt (z : Z) | VNat (n : N) | VFlag (b : bool)
| VVec (v : vec) | VVecs (l : list vec) | VMat (m : mat) | VPt (x y : fl) | VDate (d : stime)
| VUuid (u : list N) | VOff (o : N * N * N * N) | VDmx (none : bool) (v : N) | VUnset.
Definition env := list (string * val).
Fixpoint get (f : string) (vs : env) : val :=
  match vs with [] => VUnset | (g, v) :: r => if String.eqb f g then v else get f r end.
Fixpoint put (f : string) (v : val) (vs : env) : env :=
  match vs with [] => [(f, v)] | (g, w) :: r => if String.eqb f g then (g, v) :: r else (g, w) :: put f v r end.
Definition flag (f : string) (vs : env) : bool := match get f vs with VFlag b => b | _ => false end.
Definition kind_is (f : string) (n : N) (vs : env) : bool := match get f vs with VNat m => m =? n | _ => false end.
Definition no_text (f : string) (vs : env) : bool := match get f vs with VTxt (_ :: _) => false | _ => true end.

(** Conversions; the decimal point is that of the "C" locale. *)
Inductive conv :=
| KText | KDouble | KSint32 | KUint32 | KUint8 | KSize | KHex | KUuid | KColor | KColors | KVec | KMatrix | KRotation
| KPoint | KDate | KBool | KEnum (t : enum_table) | KBreak | KAddress | KDmx | KHigh | KOffset.
Definition point : N := 46.
Definition decimal (n d : N) : fl := Fin false (round_u (n * units) d).
Definition int_dbl (n : N) : val := VDbl (Fin false (n * units)).
(** CieColor.cpp:15-21. *)
Definition white : vec := (decimal 31273 100000, decimal 32902 100000, Fin false (100 * units)).

(** The text of a value; [reso] is the resolution of the DMX channel.  A member without a value: undefined. *)
Definition write_conv (k : conv) (reso : N) (v : val) : res (list N) :=
  match k, v with
  | KText, VTxt s => Ok s
  | KDouble, VDbl x => Ok (write_double point x)
  | KSint32, VInt z => Ok (write_int z)
  | KUint32, VNat n => Ok (write_int (Z.of_N n))
  | KUint8, VNat n => Ok (write_int (Z.of_N n))
  | KSize, VNat n => Ok (write_size n)
  | KHex, VNat n => Ok (write_hex n)
  | KUuid, VUuid u => Ok (write_uuid u)
  | KColor, VVec c => Ok (write_color point c)
  | KColors, VVecs l => Ok (write_colors point l)
  | KVec, VVec c => Ok (write_vec point c)
  | KMatrix, VMat m => Ok (write_matrix point true m)
  | KRotation, VMat m => Ok (write_rotation point m)
  | KPoint, VPt x y => Ok (write_doubles point [x; y] false)     (* XmlFileHelper.cpp:1798-1803 *)
  | KDate, VDate d => Ok (write_date d)
  | KBool, VFlag b => Ok (bool_write b)
  | KEnum t, VNat n => Ok (enum_write t n)
  | KBreak, VInt z => Ok (write_break z)
  | KAddress, VNat a => Ok (write_address a)
  | KDmx, VDmx _ v => Ok (write_dmx v reso false)
  | KHigh, VDmx none v => Ok (write_dmx v reso none)
  | KOffset, VOff o => Ok (write_offset o)
  | _, _ => UB
  end.

(** What reading a text leaves in a member that holds [old]: the value, what the converter returned and
    how many errors it added. *)
Definition result (v : val) (ok : bool) (e : N) : res (val * bool * N) := Ok (v, ok, e).
Definition got {A} (mk : A -> val) (r : rd_res A) : res (val * bool * N) := result (mk (rd_val r)) (rd_ok r) (rd_errs r).
Definition as_mat (v : val) : mat := match v with VMat m => m | _ => identity end.
Definition as_vec (v : val) : vec := match v with VVec c => c | _ => (zero, zero, zero) end.
Definition as_vecs (v : val) : list vec := match v with VVecs l => l | _ => [] end.
Definition as_uuid (v : val) : list N := match v with VUuid u => u | _ => zero_uuid end.
Definition as_dmx (v : val) : N := match v with VDmx _ n => n | _ => 0 end.
Definition as_none (v : val) : bool := match v with VDmx b _ => b | _ => false end.
Definition as_nat (v : val) : N := match v with VNat n => n | _ => 0 end.
Definition read_conv (k : conv) (reso : N) (old : val) (s : list N) : res (val * bool * N) :=
  let number {A} (mk : A -> val) (r : res (rd_res A)) :=      (* an empty text leaves the member alone *)
    if is_empty s then result old false 0 else do x <- r; got mk x in
  match k with
  | KText => result (VTxt s) true 0
  | KDouble => number VDbl (read_double point zero s)
  | KSint32 => number VInt (read_int as_sint32 0%Z s)
  | KUint32 => number VNat (read_int as_uint32 0 s)
  | KUint8 => number VNat (read_int as_uint8 0 s)
  | KSize => number VNat (read_int as_size_t 0 s)
  | KHex => got VNat (read_hex s)
  | KUuid => do x <- read_uuid (as_uuid old) s; got VUuid x
  | KColor => do x <- read_color point white s; got VVec x
  | KColors => do x <- read_colors point (as_vecs old) s; got VVecs x
  | KVec => do x <- read_vec point (as_vec old) s; got VVec x
  | KMatrix => do x <- read_matrix point (as_mat old) s; got VMat x
  | KRotation => do x <- read_rotation point (as_mat old) s; got VMat x
  | KPoint =>                                                  (* XmlFileHelper.cpp:1806-1821 *)
    do x <- read_doubles point [] s;
    match rd_ok x, rd_val x with
    | true, a :: b :: _ => result (VPt a b) true (rd_errs x)
    | _, _ => result (VPt zero zero) false (rd_errs x)
    end
  | KDate => do x <- read_date s; got VDate x
  | KBool => let '(b, ok) := bool_read s in result (VFlag b) ok 0
  | KEnum t =>
    let '(n, e) := enum_read t (as_nat old) s in
    match find (fun p => txeq s (fst p)) (et_read t), et_read_other t with
    | None, None => result old true (if e then 1 else 0)
    | _, _ => result (VNat n) true (if e then 1 else 0)
    end
  | KBreak => number VInt (read_break 0%Z s)
  | KAddress => do x <- read_address s; got VNat x
  | KDmx => do x <- read_dmx (as_dmx old) s reso; got (VDmx false) x
  | KHigh => do x <- read_dmx_none (as_dmx old) s reso; got (VDmx (fst x)) (snd x)
  | KOffset => do x <- read_offset s; got VOff x
  end.

(** ** Classes *)
Inductive cls :=
  | CActivationGroup | CFeature | CFeatureGroup | CSubPhysicalUnit | CAttribute | CWheel | CWheelSlot
  | CWheelSlotPrismFacet | CWheelSlotAnimationSystem | CModel | CGeometry | CGeometryAxis | CGeometryBeamFilter
  | CGeometryColorFilter | CGeometryGoboFilter | CGeometryShaperFilter | CGeometryLamp
  | CGeometryMediaServerCamera | CGeometryMediaServerLayer | CGeometryMediaServerMaster | CGeometryReference
  | CGeometryDisplay | CGeometryLaser | CGeometryWiringObject | CGeometryInventory | CGeometryStructure
  | CGeometrySupport | CGeometryMagnet | CLaserProtocol | CPinPatch | CBreak | CDmxMode | CDmxChannel
  | CDmxLogicalChannel | CDmxChannelFunction | CDmxChannelSet | CDmxSubChannelSet | CDmxRelation | CMacro
  | CMacroDMX | CMacroDMXStep | CMacroDMXValue | CMacroVisual | CMacroVisualStep | CMacroVisualValue
  | CRevision | CUserPreset | CPhysicalEmitter | CMeasurementF | CMeasurementE | CMeasurementPoint | CPoint
  | CDMXProfile | CCRIGroup | CCRI | CGamut | CColorSpace | CFilter | CConnector | CPhysicalDescriptions
  | CFTRDM | CSoftwareVersionID | CDMXPersonality | CProtocols | CMap | CArtNet | CsAcn | CKiNET
  | CPosiStageNet | COpenSoundControl | CCITP | CFixture | CAttributeDefinitions | CActivationGroups
  | CFeatureGroups | CAttributes | CWheels | CModels | CGeometries | CDMXModes | CRevisions | CFTPresets
  | CAdditionalColorSpaces | CGamuts | CFilters | CEmitters | CDMXProfiles | CCRIs | CConnectors
  | CProperties | COperatingTemperature | CWeight | CLegHeight | CDMXChannels | CRelations | CFTMacros.

(** [GetNodeName] of each class; below, the nodes that only hold others. *)
Definition node_name (c : cls) : list N := txt match c with
  | CActivationGroup => "ActivationGroup"   (* 185-188 *)
  | CFeature => "Feature"   (* 271-274 *)
  | CFeatureGroup => "FeatureGroup"   (* 407-410 *)
  | CSubPhysicalUnit => "SubPhysicalUnit"   (* 552-555 *)
  | CAttribute => "Attribute"   (* 719-722 *)
  | CWheel => "Wheel"   (* 926-929 *)
  | CWheelSlot => "Slot"   (* 1398-1401 *)
  | CWheelSlotPrismFacet => "Facet"   (* 1010-1013 *)
  | CWheelSlotAnimationSystem => "AnimationSystem"   (* 1144-1147 *)
  | CModel => "Model"   (* 1713-1716 *)
  | CGeometry => "Geometry"   (* 2415-2418 *)
  | CGeometryAxis => "Axis"   (* 2506-2509 *)
  | CGeometryBeamFilter => "FilterBeam"   (* 2566-2569 *)
  | CGeometryColorFilter => "FilterColor"   (* 2628-2631 *)
  | CGeometryGoboFilter => "FilterGobo"   (* 2751-2754 *)
  | CGeometryShaperFilter => "FilterShaper"   (* 2690-2693 *)
  | CGeometryLamp => "Beam"   (* 4584-4587 *)
  | CGeometryMediaServerCamera => "MediaServerCamera"   (* 2812-2815 *)
  | CGeometryMediaServerLayer => "MediaServerLayer"   (* 2873-2876 *)
  | CGeometryMediaServerMaster => "MediaServerMaster"   (* 2934-2937 *)
  | CGeometryReference => "GeometryReference"   (* 4842-4845 *)
  | CGeometryDisplay => "Display"   (* 3051-3054 *)
  | CGeometryLaser => "Laser"   (* 3353-3356 *)
  | CGeometryWiringObject => "WiringObject"   (* 3829-3832 *)
  | CGeometryInventory => "Inventory"   (* 3903-3906 *)
  | CGeometryStructure => "Structure"   (* 4062-4065 *)
  | CGeometrySupport => "Support"   (* 4340-4343 *)
  | CGeometryMagnet => "Magnet"   (* 4399-4402 *)
  | CLaserProtocol => "Protocol"   (* 3121-3124 *)
  | CPinPatch => "PinPatch"   (* 3456-3459 *)
  | CBreak => "Break"   (* 4727-4730 *)
  | CDmxMode => "DMXMode"   (* 4993-4996 *)
  | CDmxChannel => "DMXChannel"   (* 5642-5645 *)
  | CDmxLogicalChannel => "LogicalChannel"   (* 5943-5946 *)
  | CDmxChannelFunction => "ChannelFunction"   (* 6446-6449 *)
  | CDmxChannelSet => "ChannelSet"   (* 6917-6920 *)
  | CDmxSubChannelSet => "SubChannelSet"   (* 7074-7077 *)
  | CDmxRelation => "Relation"   (* 7201-7204 *)
  | CMacro => "FTMacro"   (* 7724-7727 *)
  | CMacroDMX => "MacroDMX"   (* 11592-11595 *)
  | CMacroDMXStep => "MacroDMXStep"   (* 11694-11697 *)
  | CMacroDMXValue => "MacroDMXValue"   (* 11792-11795 *)
  | CMacroVisual => "MacroVisual"   (* 11874-11877 *)
  | CMacroVisualStep => "MacroVisualStep"   (* 11979-11982 *)
  | CMacroVisualValue => "MacroVisualValue"   (* 12107-12110 *)
  | CRevision => "Revision"   (* 7323-7326 *)
  | CUserPreset => "FTPreset"   (* 7573-7576 *)
  | CPhysicalEmitter => "Emitter"   (* 7509-7512 *)
  | CMeasurementF => "Measurement"   (* 13129-13132 *)
  | CMeasurementE => "Measurement"   (* 13129-13132 *)
  | CMeasurementPoint => "MeasurementPoint"   (* 7798-7801 *)
  | CPoint => "Point"   (* 10489-10492 *)
  | CDMXProfile => "DMXProfile"   (* 10591-10594 *)
  | CCRIGroup => "CRIGroup"   (* 10700-10703 *)
  | CCRI => "CRI"   (* 10807-10810 *)
  | CGamut => "Gamut"   (* 12327-12330 *)
  | CColorSpace => "ColorSpace"   (* 12872-12875 *)
  | CFilter => "Filter"   (* 12995-12998 *)
  | CConnector => "Connector"   (* 13303-13306 *)
  | CPhysicalDescriptions => "PhysicalDescriptions"   (* 12505-12508 *)
  | CFTRDM => "FTRDM"   (* 10859-10862 *)
  | CSoftwareVersionID => "SoftwareVersionID"   (* 12200-12203 *)
  | CDMXPersonality => "DMXPersonality"   (* 11033-11036 *)
  | CProtocols => "Protocols"   (* 11165-11168 *)
  | CMap => "Map"   (* 11338-11341 *)
  | CArtNet => "Art-Net"   (* 11406-11409 *)
  | CsAcn => "sACN"   (* 11474-11477 *)
  | CKiNET => "KiNET"   (* 11495-11498 *)
  | CPosiStageNet => "PosiStageNet"   (* 11516-11519 *)
  | COpenSoundControl => "OpenSoundControl"   (* 11537-11540 *)
  | CCITP => "CITP"   (* 11558-11561 *)
  | CFixture => "FixtureType"   (* 9853-9856 *)
  | CAttributeDefinitions => "AttributeDefinitions"
  | CActivationGroups => "ActivationGroups"
  | CFeatureGroups => "FeatureGroups"
  | CAttributes => "Attributes"
  | CWheels => "Wheels"
  | CModels => "Models"
  | CGeometries => "Geometries"
  | CDMXModes => "DMXModes"
  | CRevisions => "Revisions"
  | CFTPresets => "FTPresets"
  | CAdditionalColorSpaces => "AdditionalColorSpaces"
  | CGamuts => "Gamuts"
  | CFilters => "Filters"
  | CEmitters => "Emitters"
  | CDMXProfiles => "DMXProfiles"
  | CCRIs => "CRIs"
  | CConnectors => "Connectors"
  | CProperties => "Properties"
  | COperatingTemperature => "OperatingTemperature"
  | CWeight => "Weight"
  | CLegHeight => "LegHeight"
  | CDMXChannels => "DMXChannels"
  | CRelations => "Relations"
  | CFTMacros => "FTMacros"
  end%string.

(** ** Attributes written *)
(** When an attribute is written: always; if a text, or the reference of a pointer, is not empty; if a flag is
    set; if an enumeration has that value; if a number is not 0; with an empty text unless a flag is
    set; through a pointer that is not checked. *)
Inductive when := Always | IfText (f : string) | IfFlag (f : string) | IfEnum (f : string) (n : N)
  | IfNonZero (f : string) | IfFlagElseEmpty (f : string) | Deref.
Record wentry := mkW { w_attr : list N; w_field : string; w_conv : conv; w_when : when }.
Definition w (a : string) (f : string) (k : conv) : wentry := mkW (txt a) f k Always.
Definition wi (a : string) (f : string) (k : conv) (c : when) : wentry := mkW (txt a) f k c.
Definition w_geo : list wentry := [w "Name" "fUniqueName" KText; w "Position" "fMatrix" KMatrix; wi "Model"
    "fModelReference" KText (IfText "fModelReference")].
Definition writes (c : cls) : list wentry :=
  match c with
  (* 137-148 *)
  | CActivationGroup => [w "Name" "fName" KText]
  (* 223-234 *)
  | CFeature => [w "Name" "fName" KText]
  (* 336-354 *)
  | CFeatureGroup => [w "Name" "fName" KText; w "Pretty" "fPrettyName" KText]
  (* 499-509 *)
  | CSubPhysicalUnit => [w "Type" "fType" (KEnum e_SubPhysicalUnitTypeEnum);
      w "PhysicalUnit" "fPhysicalUnit" (KEnum e_PhysicalUnitEnum); w "PhysicalFrom" "fPhysicalFrom" KDouble;
      w "PhysicalTo" "fPhysicalTo" KDouble]
  (* 627-651 *)
  | CAttribute => [w "Name" "fName" KText; w "Pretty" "fPrettyName" KText;
      wi "ActivationGroup" "fActivationGroup" KText (IfText "fActivationGroup");
      wi "Feature" "fFeature" KText (IfText "fFeature");
      wi "MainAttribute" "fMainAttribute" KText (IfText "fMainAttribute");
      wi "Color" "fColor" KColor (IfFlag "fHasColor"); w "PhysicalUnit" "fPhysicalUnit" (KEnum e_PhysicalUnitEnum)]
  (* 856-872 *)
  | CWheel => [w "Name" "fName" KText]
  (* 1268-1296 *)
  | CWheelSlot => [w "Name" "fName" KText; w "Color" "fColor" KColor;
      wi "MediaFileName" "fGobo" KText (IfText "fGobo"); wi "Filter" "fFilter" KText (IfText "fFilter");
      wi "Duration" "fDuration" KDouble (IfNonZero "fDuration"); wi "Width" "fWidth" KSize (IfNonZero "fWidth");
      wi "Height" "fHeight" KSize (IfNonZero "fHeight"); wi "FPS" "fFPS" KSize (IfNonZero "fFPS")]
  (* 957-965 *)
  | CWheelSlotPrismFacet => [w "Color" "fColor" KColor; w "Rotation" "fTransform" KRotation]
  (* 1095-1105 *)
  | CWheelSlotAnimationSystem => [w "P1" "fP1" KPoint; w "P2" "fP2" KPoint; w "P3" "fP3" KPoint;
      w "Radius" "fRadius" KDouble]
  (* 1585-1606 *)
  | CModel => [w "Name" "fUniqueName" KText; w "Length" "fLength" KDouble; w "Width" "fWidth" KDouble;
      w "Height" "fHeight" KDouble; w "PrimitiveType" "fPrimitiveType" (KEnum e_PrimitiveType);
      w "File" "fGeometryFile" KText; w "SVGOffsetX" "fSVGOffsetX" KDouble; w "SVGOffsetY" "fSVGOffsetY" KDouble;
      w "SVGSideOffsetX" "fSVGSideOffsetX" KDouble; w "SVGSideOffsetY" "fSVGSideOffsetY" KDouble;
      w "SVGFrontOffsetX" "fSVGFrontOffsetX" KDouble; w "SVGFrontOffsetY" "fSVGFrontOffsetY" KDouble]
  (* 4498-4521 *)
  | CGeometryLamp => w_geo ++ [w "LampType" "fLampType" (KEnum e_LampeType);
      w "PowerConsumption" "fPowerConsuption" KDouble; w "LuminousFlux" "fLuminousIntensity" KDouble;
      w "ColorTemperature" "fColorTemperature" KDouble; w "BeamAngle" "fBeamAngle" KDouble;
      w "BeamRadius" "fBeamRadius" KDouble; w "FieldAngle" "fFieldAngle" KDouble;
      w "ThrowRatio" "fThrowRatio" KDouble; w "RectangleRatio" "fRectangleRatio" KDouble;
      w "BeamType" "fBeamType" (KEnum e_BeamType); w "ColorRenderingIndex" "fColorIndex" KSint32;
      wi "EmitterSpectrum" "fEmitterSpectrum" KText (IfText "fEmitterSpectrum")]
  (* 4785-4802 *)
  | CGeometryReference => w_geo ++ [wi "Geometry" "fLinkedGeometry" KText (IfText "fLinkedGeometry")]
  (* 2997-3006 *)
  | CGeometryDisplay => w_geo ++ [w "Texture" "fTexture" KText; w "Width" "fWidth" KSize; w "Height" "fHeight" KSize;
      w "IsCurved" "fIsCurved" KBool]
  (* 3263-3286 *)
  | CGeometryLaser => w_geo ++ [w "ColorType" "fColorType" (KEnum e_LaserColorTypeEnum); w "Color" "fColor" KDouble;
      w "OutputStrength" "fOutputStrength" KDouble; wi "Emitter" "fEmitter" KText (IfText "fEmitter");
      w "BeamDiameter" "fBeamDiameter" KDouble; w "BeamDivergenceMin" "fBeamDivergenceMin" KDouble;
      w "BeamDivergenceMax" "fBeamDivergenceMax" KDouble; w "ScanAnglePan" "fScanAnglePan" KDouble;
      w "ScanAngleTilt" "fScanAngleTilt" KDouble; w "ScanSpeed" "fScanSpeed" KDouble]
  (* 3688-3717 *)
  | CGeometryWiringObject => w_geo ++ [w "ComponentType" "fComponentType" (KEnum e_ComponentTypeEnum);
      w "ConnectorType" "fConnectorType" KText; w "SignalType" "fSignalType" KText; w "PinCount" "fPinCount" KSize;
      w "SignalLayer" "fSignalLayer" KSize; w "Orientation" "fOrientation" (KEnum e_OrientationEnum);
      w "WireGroup" "fWireGroup" KText; w "ElectricalPayLoad" "fElectricalPayLoad" KDouble;
      w "VoltageRangeMin" "fVoltageRangeMin" KDouble; w "VoltageRangeMax" "fVoltageRangeMax" KDouble;
      w "FrequencyRangeMin" "fFrequencyRangeMin" KDouble; w "FrequencyRangeMax" "fFrequencyRangeMax" KDouble;
      w "CosPhi" "fCosPhi" KDouble; w "MaxPayLoad" "fMaxPayLoad" KDouble; w "Voltage" "fVoltage" KDouble;
      w "FuseCurrent" "fFuseCurrent" KDouble; w "FuseRating" "fFuseRating" (KEnum e_FuseRatingEnum)]
  (* 3860-3867 *)
  | CGeometryInventory => w_geo ++ [w "Count" "fCount" KSize]
  (* 3993-4008 *)
  | CGeometryStructure => w_geo ++ [w "LinkedGeometry" "fLinkedGeometry" KText;
      w "StructureType" "fStructureType" (KEnum e_StructureTypeEnum);
      w "CrossSectionType" "fCrossSectionType" (KEnum e_CrossSectionTypeEnum);
      w "CrossSectionHeight" "fCrossSectionHeight" KDouble;
      w "CrossSectionWallThickness" "fCrossSectionWallThickness" KDouble;
      w "TrussCrossSection" "fTrussCrossSection" KText]
  (* 4235-4256 *)
  | CGeometrySupport => w_geo ++ [w "SupportType" "fSupportType" (KEnum e_SupportTypeEnum);
      w "CapacityX" "fCapacityX" KDouble; w "CapacityY" "fCapacityY" KDouble; w "CapacityZ" "fCapacityZ" KDouble;
      w "CapacityXX" "fCapacityXX" KDouble; w "CapacityYY" "fCapacityYY" KDouble;
      w "CapacityZZ" "fCapacityZZ" KDouble; w "RopeCrossSection" "fRopeCrossSection" KText;
      w "RopeOffset" "fRopeOffset" KVec; w "ResistanceX" "fResistanceX" KDouble;
      w "ResistanceY" "fResistanceY" KDouble; w "ResistanceZ" "fResistanceZ" KDouble;
      w "ResistanceXX" "fResistanceXX" KDouble; w "ResistanceYY" "fResistanceYY" KDouble;
      w "ResistanceZZ" "fResistanceZZ" KDouble]
  (* 3082-3089 *)
  | CLaserProtocol => [w "Name" "fName" KText]
  (* 3411-3420 *)
  | CPinPatch => [wi "ToWiringObject" "fToWiringObject" KText (IfText "fToWiringObject");
      w "FromPin" "fFromPin" KSize; w "ToPin" "fToPin" KSize]
  (* 4677-4689 *)
  | CBreak => [w "DMXBreak" "fDmxBreak" KSint32; w "DMXOffset" "fDmxAdress" KAddress]
  (* 4871-4917 *)
  | CDmxMode => [w "Name" "fName" KText; w "Description" "fDescription" KText;
      wi "Geometry" "fGeomRef" KText (IfText "fGeomRef")]
  (* 5516-5537 *)
  | CDmxChannel => [w "DMXBreak" "fDmxBreak" KBreak; w "Offset" "fOffset" KOffset; w "Highlight" "fHeighlight" KHigh;
      wi "Geometry" "fGeomRef" KText (IfText "fGeomRef");
      wi "InitialFunction" "fInitialFunction" KText (IfText "fInitialFunction")]
  (* 5842-5862 *)
  | CDmxLogicalChannel => [wi "Attribute" "fAttribute" KText (IfText "fAttribute");
      w "Snap" "fSnap" (KEnum e_SnapEnum); w "Master" "fDmxMaster" (KEnum e_MasterEnum);
      w "MibFade" "fMoveInBlackFrames" KDouble; w "DMXChangeTimeLimit" "fDmxChangeTimeLimit" KDouble]
  (* 6131-6256 *)
  | CDmxChannelFunction => [w "Name" "fName" KText; w "Default" "fDefaultValue" KDmx;
      w "DMXFrom" "fAdressStart" KDmx; w "PhysicalFrom" "fPhysicalStart" KDouble;
      w "PhysicalTo" "fPhysicalEnd" KDouble; w "RealFade" "fRealFade" KDouble;
      w "RealAcceleration" "fRealAcceleration" KDouble; w "Min" "fMin" KDouble; w "Max" "fMax" KDouble;
      w "CustomName" "fCustomName" KText; w "OriginalAttribute" "fOrignalAttribute" KText;
      wi "Attribute" "fAttribute" KText (IfText "fAttribute"); wi "Wheel" "fOnWheel" KText (IfText "fOnWheel");
      wi "Emitter" "fEmitter" KText (IfText "fEmitter"); wi "Filter" "fFilter" KText (IfText "fFilter");
      wi "ColorSpace" "fColorSpace" KText (IfText "fColorSpace"); wi "Gamut" "fGamut" KText (IfText "fGamut");
      wi "DMXProfile" "fDMXProfile" KText (IfText "fDMXProfile");
      wi "ModeMaster" "fModeMaster" KText (IfText "fModeMaster");
      wi "ModeFrom" "fDmxModeStart" KText (IfText "fModeMaster");
      wi "ModeTo" "fDmxModeEnd" KText (IfText "fModeMaster")]
  (* 6834-6853 *)
  | CDmxChannelSet => [w "Name" "fUniqueName" KText; w "DMXFrom" "fDmxStart" KDmx;
      w "WheelSlotIndex" "fWheelSlotIdx" KSint32; wi "PhysicalFrom" "fPhysicalStart" KDouble (IfFlag "fSetPhysical");
      wi "PhysicalTo" "fPhysicalEnd" KDouble (IfFlag "fSetPhysical")]
  (* 7017-7031 *)
  | CDmxSubChannelSet => [w "Name" "fUniqueName" KText; w "PhysicalFrom" "fPhysicalFrom" KDouble;
      w "PhysicalTo" "fPhysicalTo" KDouble;
      wi "SubPhysicalUnit" "fSubPhysicalUnit" KText (IfText "fSubPhysicalUnit");
      wi "DMXProfile" "fDMXProfile" KText (IfText "fDMXProfile")]
  (* 7146-7160 *)
  | CDmxRelation => [w "Name" "fUniqueName" KText;
      wi "Master" "fMasterDmxChannel" KText (IfText "fMasterDmxChannel");
      wi "Follower" "fSlaveChannelFunction" KText (IfText "fSlaveChannelFunction");
      w "Type" "fRelationType" (KEnum e_RelationEnum)]
  (* 7601-7623 *)
  | CMacro => [w "Name" "fName" KText; wi "ChannelFunction" "fChannelFunction" KText (IfText "fChannelFunction")]
  (* 11699-11715 *)
  | CMacroDMXStep => [w "Duration" "fDuration" KDouble]
  (* 11797-11815 *)
  | CMacroDMXValue => [w "Value" "fValue" KText; wi "DMXChannel" "fDMXChannel" KText Deref]
  (* 11984-12002 *)
  | CMacroVisualStep => [w "Duration" "fDuration" KDouble; w "Fade" "fFade" KDouble; w "Delay" "fDelay" KDouble]
  (* 12112-12126 *)
  | CMacroVisualValue => [w "Value" "fDmxValue" KText; wi "ChannelFunction" "fChannelFunctionRef" KText Deref]
  (* 7266-7280 *)
  | CRevision => [w "Text" "fText" KText; w "Date" "fDateS" KDate; w "UserID" "fUserId" KSize;
      w "ModifiedBy" "fModifiedBy" KText]
  (* 7424-7442 *)
  | CPhysicalEmitter => [w "Name" "fName" KText; w "Color" "fColor" KColor;
      w "DominantWaveLength" "fDominantWaveLength" KDouble; w "DiodePart" "fDiodePart" KText]
  (* 13134-13155 *)
  | CMeasurementF => [w "Physical" "fPhysical" KDouble; w "Transmission" "fTransmission" KDouble;
      w "InterpolationTo" "fInterpolationTo" (KEnum e_EGdtfInterpolationTo)]
  (* 13134-13155 *)
  | CMeasurementE => [w "Physical" "fPhysical" KDouble; w "LuminousIntensity" "fLuminousIntensity" KDouble;
      w "InterpolationTo" "fInterpolationTo" (KEnum e_EGdtfInterpolationTo)]
  (* 7751-7761 *)
  | CMeasurementPoint => [w "WaveLength" "fWaveLength" KDouble; w "Energy" "fEngergy" KDouble]
  (* 10494-10508 *)
  | CPoint => [w "DMXPercentage" "fDMXPercentage" KDouble; w "CFC3" "fCFC3" KDouble; w "CFC2" "fCFC2" KDouble;
      w "CFC1" "fCFC1" KDouble; w "CFC0" "fCFC0" KDouble]
  (* 10596-10612 *)
  | CDMXProfile => [w "Name" "fUniqueName" KText]
  (* 10705-10721 *)
  | CCRIGroup => [w "ColorTemperature" "fColorTemperature" KDouble]
  (* 10812-10823 *)
  | CCRI => [w "CES" "fCES" (KEnum e_EGdtfColorSampleEnum); w "ColorRenderingIndex" "fCRI" KUint8]
  (* 12285-12293 *)
  | CGamut => [w "Name" "fUniqueName" KText; w "Points" "fGamutPoints" KColors]
  (* 12877-12895 *)
  | CColorSpace => [w "Name" "fUniqueName" KText; w "Mode" "fColorSpace" (KEnum e_EGdtfColorSpace);
      wi "Red" "fRed" KColor (IfEnum "fColorSpace" 1); wi "Green" "fGreen" KColor (IfEnum "fColorSpace" 1);
      wi "Blue" "fBlue" KColor (IfEnum "fColorSpace" 1); wi "WhitePoint" "fWhitePoint" KColor (IfEnum "fColorSpace" 1)]
  (* 13000-13017 *)
  | CFilter => [w "Name" "fName" KText; w "Color" "fColor" KColor]
  (* 13237-13250 *)
  | CConnector => [w "Name" "fName" KText; w "Type" "fType" KText; w "DMXBreak" "fDmxBreak" KUint32;
      w "Gender" "fGender" KSint32; w "Length" "fLength" KDouble]
  (* 10864-10879 *)
  | CFTRDM => [w "ManufacturerID" "fManufacturerID" KHex; w "DeviceModelID" "fDeviceModelID" KHex]
  (* 12205-12221 *)
  | CSoftwareVersionID => [w "Value" "fValue" KHex]
  (* 11038-11048 *)
  | CDMXPersonality => [w "Value" "fValue" KHex; wi "DMXMode" "fDMXMode" KText Deref]
  (* 11296-11304 *)
  | CMap => [w "Key" "fKey" KUint32; w "Value" "fValue" KUint32]
  (* 9434-9573 *)
  | CFixture => [w "Name" "fName" KText; w "ShortName" "fShortName" KText; w "LongName" "fLongName" KText;
      w "Manufacturer" "fManufacturer" KText; w "Description" "fFixtureTypeDescription" KText;
      w "FixtureTypeID" "fGuid" KUuid; w "Thumbnail" "fTumbnailName" KText;
      w "ThumbnailOffsetX" "fThumbnailOffsetX" KSint32; w "ThumbnailOffsetY" "fThumbnailOffsetY" KSint32;
      w "CanHaveChildren" "fCanHaveChildren" (KEnum e_CanHaveChildren);
      wi "RefFT" "fLinkedGuid" KUuid (IfFlagElseEmpty "fHasLinkedGuid")]
  (* the geometries without own attributes *)
  | CGeometry | CGeometryAxis | CGeometryBeamFilter | CGeometryColorFilter | CGeometryGoboFilter |
    CGeometryShaperFilter | CGeometryMediaServerCamera | CGeometryMediaServerLayer | CGeometryMediaServerMaster |
    CGeometryMagnet => w_geo
  | COperatingTemperature => [w "Low" "fOperatingTemperatureLow" KDouble; w "High" "fOperatingTemperatureHigh" KDouble]
  | CWeight => [w "Value" "fWeight" KDouble]
  | CLegHeight => [w "Value" "fLegHeight" KDouble]
  | _ => []
  end.

(** ** Attributes read *)
(** How an attribute is read.  [Plain]: a missing attribute is an empty text for the converter; a member that
    is a text is left alone.  [WhenPresent], [WhenText]: only if it is there, only if its text is not empty.
    [PresentTo f]: if it is there, and then [f] is set.  [OkTo f], [OkBoth f]: what the converter returns goes to
    [f], or is combined with it.  [WhenEnum f n]: only if [f] is [n].  [NoSlash]: every "/" becomes "_". *)
Inductive how := Plain | WhenPresent | WhenText | PresentTo (f : string) | OkTo (f : string) | OkBoth (f : string)
  | WhenEnum (f : string) (n : N) | NoSlash.
Record rentry := mkR { r_attr : list N; r_field : string; r_conv : conv; r_how : how }.
Definition r (a : string) (f : string) (k : conv) : rentry := mkR (txt a) f k Plain.
Definition ri (a : string) (f : string) (k : conv) (m : how) : rentry := mkR (txt a) f k m.
Definition r_geo : list rentry := [r "Name" "fUniqueName" KText; r "Position" "fMatrix" KMatrix; r "Model"
    "fModelReference" KText].
Definition reads (c : cls) : list rentry :=
  match c with
  (* 150-161 *)
  | CActivationGroup => [r "Name" "fName" KText]
  (* 236-247 *)
  | CFeature => [r "Name" "fName" KText]
  (* 356-383 *)
  | CFeatureGroup => [r "Name" "fName" KText; r "Pretty" "fPrettyName" KText]
  (* 511-521 *)
  | CSubPhysicalUnit => [r "Type" "fType" (KEnum e_SubPhysicalUnitTypeEnum);
      r "PhysicalUnit" "fPhysicalUnit" (KEnum e_PhysicalUnitEnum); r "PhysicalFrom" "fPhysicalFrom" KDouble;
      r "PhysicalTo" "fPhysicalTo" KDouble]
  (* 653-690 *)
  | CAttribute => [r "Name" "fName" KText; r "Pretty" "fPrettyName" KText;
      r "ActivationGroup" "fActivationGroup" KText; r "Feature" "fFeature" KText;
      r "MainAttribute" "fMainAttribute" KText; r "PhysicalUnit" "fPhysicalUnit" (KEnum e_PhysicalUnitEnum);
      ri "Color" "fColor" KColor (PresentTo "fHasColor")]
  (* 874-902 *)
  | CWheel => [r "Name" "fName" KText]
  (* 1298-1367 *)
  | CWheelSlot => [r "Name" "fName" KText; ri "Color" "fColor" KColor WhenText; r "MediaFileName" "fGobo" KText;
      r "Filter" "fFilter" KText; ri "Duration" "fDuration" KDouble WhenText; ri "Width" "fWidth" KSize WhenText;
      ri "Height" "fHeight" KSize WhenText; ri "FPS" "fFPS" KSize WhenText]
  (* 977-986 *)
  | CWheelSlotPrismFacet => [r "Color" "fColor" KColor; r "Rotation" "fTransform" KRotation]
  (* 1107-1117 *)
  | CWheelSlotAnimationSystem => [r "P1" "fP1" KPoint; r "P2" "fP2" KPoint; r "P3" "fP3" KPoint;
      r "Radius" "fRadius" KDouble]
  (* 1608-1679 *)
  | CModel => [r "Name" "fUniqueName" KText; r "Length" "fLength" KDouble; r "Width" "fWidth" KDouble;
      r "Height" "fHeight" KDouble; r "SVGOffsetX" "fSVGOffsetX" KDouble; r "SVGOffsetY" "fSVGOffsetY" KDouble;
      r "SVGSideOffsetX" "fSVGSideOffsetX" KDouble; r "SVGSideOffsetY" "fSVGSideOffsetY" KDouble;
      r "SVGFrontOffsetX" "fSVGFrontOffsetX" KDouble; r "SVGFrontOffsetY" "fSVGFrontOffsetY" KDouble;
      r "PrimitiveType" "fPrimitiveType" (KEnum e_PrimitiveType); r "File" "fGeometryFile" KText]
  (* 4523-4545 *)
  | CGeometryLamp => r_geo ++ [r "LampType" "fLampType" (KEnum e_LampeType);
      r "PowerConsumption" "fPowerConsuption" KDouble; r "LuminousFlux" "fLuminousIntensity" KDouble;
      r "ColorTemperature" "fColorTemperature" KDouble; r "BeamAngle" "fBeamAngle" KDouble;
      r "BeamRadius" "fBeamRadius" KDouble; r "FieldAngle" "fFieldAngle" KDouble;
      r "ThrowRatio" "fThrowRatio" KDouble; r "RectangleRatio" "fRectangleRatio" KDouble;
      r "BeamType" "fBeamType" (KEnum e_BeamType); r "ColorRenderingIndex" "fColorIndex" KSint32;
      r "EmitterSpectrum" "fEmitterSpectrum" KText]
  (* 4804-4815 *)
  | CGeometryReference => r_geo ++ [r "Geometry" "fLinkedGeometry" KText]
  (* 3008-3024 *)
  | CGeometryDisplay => r_geo ++ [r "Texture" "fTexture" KText; r "Width" "fWidth" KSize; r "Height" "fHeight" KSize;
      r "IsCurved" "fIsCurved" KBool]
  (* 3288-3315 *)
  | CGeometryLaser => r_geo ++ [r "ColorType" "fColorType" (KEnum e_LaserColorTypeEnum); r "Color" "fColor" KDouble;
      r "OutputStrength" "fOutputStrength" KDouble; r "Emitter" "fEmitter" KText;
      r "BeamDiameter" "fBeamDiameter" KDouble; r "BeamDivergenceMin" "fBeamDivergenceMin" KDouble;
      r "BeamDivergenceMax" "fBeamDivergenceMax" KDouble; r "ScanAnglePan" "fScanAnglePan" KDouble;
      r "ScanAngleTilt" "fScanAngleTilt" KDouble; r "ScanSpeed" "fScanSpeed" KDouble]
  (* 3719-3754 *)
  | CGeometryWiringObject => r_geo ++ [r "ComponentType" "fComponentType" (KEnum e_ComponentTypeEnum);
      r "ConnectorType" "fConnectorType" KText; r "SignalType" "fSignalType" KText; r "PinCount" "fPinCount" KSize;
      r "SignalLayer" "fSignalLayer" KSize; r "Orientation" "fOrientation" (KEnum e_OrientationEnum);
      r "WireGroup" "fWireGroup" KText; r "ElectricalPayLoad" "fElectricalPayLoad" KDouble;
      r "VoltageRangeMin" "fVoltageRangeMin" KDouble; r "VoltageRangeMax" "fVoltageRangeMax" KDouble;
      r "FrequencyRangeMin" "fFrequencyRangeMin" KDouble; r "FrequencyRangeMax" "fFrequencyRangeMax" KDouble;
      r "CosPhi" "fCosPhi" KDouble; r "MaxPayLoad" "fMaxPayLoad" KDouble; r "Voltage" "fVoltage" KDouble;
      r "FuseCurrent" "fFuseCurrent" KDouble; r "FuseRating" "fFuseRating" (KEnum e_FuseRatingEnum)]
  (* 3869-3876 *)
  | CGeometryInventory => r_geo ++ [r "Count" "fCount" KSize]
  (* 4010-4021 *)
  | CGeometryStructure => r_geo ++ [r "LinkedGeometry" "fLinkedGeometry" KText;
      r "StructureType" "fStructureType" (KEnum e_StructureTypeEnum);
      r "CrossSectionType" "fCrossSectionType" (KEnum e_CrossSectionTypeEnum);
      r "CrossSectionHeight" "fCrossSectionHeight" KDouble;
      r "CrossSectionWallThickness" "fCrossSectionWallThickness" KDouble;
      r "TrussCrossSection" "fTrussCrossSection" KText]
  (* 4258-4278 *)
  | CGeometrySupport => r_geo ++ [r "SupportType" "fSupportType" (KEnum e_SupportTypeEnum);
      r "CapacityX" "fCapacityX" KDouble; r "CapacityY" "fCapacityY" KDouble; r "CapacityZ" "fCapacityZ" KDouble;
      r "CapacityXX" "fCapacityXX" KDouble; r "CapacityYY" "fCapacityYY" KDouble;
      r "CapacityZZ" "fCapacityZZ" KDouble; r "RopeCrossSection" "fRopeCrossSection" KText;
      r "RopeOffset" "fRopeOffset" KVec; r "ResistanceX" "fResistanceX" KDouble;
      r "ResistanceY" "fResistanceY" KDouble; r "ResistanceZ" "fResistanceZ" KDouble;
      r "ResistanceXX" "fResistanceXX" KDouble; r "ResistanceYY" "fResistanceYY" KDouble;
      r "ResistanceZZ" "fResistanceZZ" KDouble]
  (* 3091-3098 *)
  | CLaserProtocol => [r "Name" "fName" KText]
  (* 3422-3431 *)
  | CPinPatch => [r "ToWiringObject" "fToWiringObject" KText; r "FromPin" "fFromPin" KSize; r "ToPin" "fToPin" KSize]
  (* 4691-4702 *)
  | CBreak => [r "DMXBreak" "fDmxBreak" KSint32; r "DMXOffset" "fDmxAdress" KAddress]
  (* 4919-4967 *)
  | CDmxMode => [r "Name" "fName" KText; r "Description" "fDescription" KText; r "Geometry" "fGeomRef" KText]
  (* 5539-5603 *)
  | CDmxChannel => [r "DMXBreak" "fDmxBreak" KBreak; ri "Offset" "fOffset" KOffset WhenPresent;
      ri "Default" "fDefaultValue_old" KDmx WhenPresent; ri "Highlight" "fHeighlight" KHigh WhenPresent;
      r "Geometry" "fGeomRef" KText; r "InitialFunction" "fInitialFunction" KText]
  (* 5864-5911 *)
  | CDmxLogicalChannel => [r "Attribute" "fAttribute" KText; r "Snap" "fSnap" (KEnum e_SnapEnum);
      r "Master" "fDmxMaster" (KEnum e_MasterEnum); r "MibFade" "fMoveInBlackFrames" KDouble;
      r "DMXChangeTimeLimit" "fDmxChangeTimeLimit" KDouble]
  (* 6258-6403 *)
  | CDmxChannelFunction => [r "Name" "fName" KText; r "OriginalAttribute" "fOrignalAttribute" KText;
      r "Default" "fDefaultValue" KDmx; r "DMXFrom" "fAdressStart" KDmx; r "PhysicalFrom" "fPhysicalStart" KDouble;
      r "PhysicalTo" "fPhysicalEnd" KDouble; r "RealFade" "fRealFade" KDouble;
      r "RealAcceleration" "fRealAcceleration" KDouble; r "Min" "fMin" KDouble; r "Max" "fMax" KDouble;
      r "CustomName" "fCustomName" KText; r "Attribute" "fAttribute" KText; r "Wheel" "fOnWheel" KText;
      r "Emitter" "fEmitter" KText; r "Filter" "fFilter" KText; r "ColorSpace" "fColorSpace" KText;
      r "Gamut" "fGamut" KText; r "DMXProfile" "fDMXProfile" KText; r "ModeMaster" "fModeMaster" KText;
      r "ModeFrom" "fDmxModeStart" KText; r "ModeTo" "fDmxModeEnd" KText]
  (* 6855-6879 *)
  | CDmxChannelSet => [r "Name" "fUniqueName" KText; ri "DMXFrom" "fDmxStart" KDmx (OkTo "fValid");
      r "WheelSlotIndex" "fWheelSlotIdx" KSint32; ri "PhysicalTo" "fPhysicalEnd" KDouble (OkTo "fSetPhysical");
      ri "PhysicalFrom" "fPhysicalStart" KDouble (OkBoth "fSetPhysical")]
  (* 7033-7046 *)
  | CDmxSubChannelSet => [r "Name" "fUniqueName" KText; r "PhysicalFrom" "fPhysicalFrom" KDouble;
      r "PhysicalTo" "fPhysicalTo" KDouble; r "SubPhysicalUnit" "fSubPhysicalUnit" KText;
      r "DMXProfile" "fDMXProfile" KText]
  (* 7162-7174 *)
  | CDmxRelation => [r "Name" "fUniqueName" KText; r "Master" "fMasterDmxChannel" KText;
      r "Follower" "fSlaveChannelFunction" KText; r "Type" "fRelationType" (KEnum e_RelationEnum)]
  (* 7625-7652 *)
  | CMacro => [r "Name" "fName" KText; r "ChannelFunction" "fChannelFunction" KText]
  (* 11717-11738 *)
  | CMacroDMXStep => [r "Duration" "fDuration" KDouble]
  (* 11817-11827 *)
  | CMacroDMXValue => [r "Value" "fValue" KText; r "DMXChannel" "fDMXChannel" KText]
  (* 12004-12030 *)
  | CMacroVisualStep => [r "Duration" "fDuration" KDouble; r "Fade" "fFade" KDouble; r "Delay" "fDelay" KDouble]
  (* 12128-12137 *)
  | CMacroVisualValue => [r "Value" "fDmxValue" KText; r "ChannelFunction" "fChannelFunctionRef" KText]
  (* 7282-7296 *)
  | CRevision => [r "Text" "fText" KText; r "Date" "fDateS" KDate; r "UserID" "fUserId" KSize;
      r "ModifiedBy" "fModifiedBy" KText]
  (* 7444-7479 *)
  | CPhysicalEmitter => [r "Name" "fName" KText; r "Color" "fColor" KColor;
      r "DominantWaveLength" "fDominantWaveLength" KDouble; r "DiodePart" "fDiodePart" KText]
  (* 13157-13188 *)
  | CMeasurementF => [r "Physical" "fPhysical" KDouble; r "LuminousIntensity" "fLuminousIntensity" KDouble;
      r "Transmission" "fTransmission" KDouble; r "InterpolationTo" "fInterpolationTo" (KEnum e_EGdtfInterpolationTo)]
  (* 13157-13188 *)
  | CMeasurementE => [r "Physical" "fPhysical" KDouble; r "LuminousIntensity" "fLuminousIntensity" KDouble;
      r "Transmission" "fTransmission" KDouble; r "InterpolationTo" "fInterpolationTo" (KEnum e_EGdtfInterpolationTo)]
  (* 7763-7773 *)
  | CMeasurementPoint => [r "WaveLength" "fWaveLength" KDouble; r "Energy" "fEngergy" KDouble]
  (* 10510-10523 *)
  | CPoint => [r "DMXPercentage" "fDMXPercentage" KDouble; r "CFC3" "fCFC3" KDouble; r "CFC2" "fCFC2" KDouble;
      r "CFC1" "fCFC1" KDouble; r "CFC0" "fCFC0" KDouble]
  (* 10614-10637 *)
  | CDMXProfile => [r "Name" "fUniqueName" KText]
  (* 10723-10747 *)
  | CCRIGroup => [r "ColorTemperature" "fColorTemperature" KDouble]
  (* 10825-10838 *)
  | CCRI => [r "CES" "fCES" (KEnum e_EGdtfColorSampleEnum); r "ColorRenderingIndex" "fCRI" KUint8]
  (* 12295-12303 *)
  | CGamut => [r "Name" "fUniqueName" KText; r "Points" "fGamutPoints" KColors]
  (* 12897-12917 *)
  | CColorSpace => [r "Name" "fUniqueName" KText; r "Mode" "fColorSpace" (KEnum e_EGdtfColorSpace);
      ri "Red" "fRed" KColor (WhenEnum "fColorSpace" 1); ri "Green" "fGreen" KColor (WhenEnum "fColorSpace" 1);
      ri "Blue" "fBlue" KColor (WhenEnum "fColorSpace" 1);
      ri "WhitePoint" "fWhitePoint" KColor (WhenEnum "fColorSpace" 1)]
  (* 13019-13051 *)
  | CFilter => [r "Name" "fName" KText; ri "Color" "fColor" KColor WhenText]
  (* 13252-13269 *)
  | CConnector => [r "Name" "fName" KText; r "Type" "fType" KText; r "DMXBreak" "fDmxBreak" KUint32;
      r "Gender" "fGender" KSint32; r "Length" "fLength" KDouble]
  (* 10881-10908 *)
  | CFTRDM => [r "ManufacturerID" "fManufacturerID" KHex; r "DeviceModelID" "fDeviceModelID" KHex]
  (* 12223-12245 *)
  | CSoftwareVersionID => [r "Value" "fValue" KHex]
  (* 11050-11063 *)
  | CDMXPersonality => [r "Value" "fValue" KHex; r "DMXMode" "fDMXMode" KText]
  (* 11306-11314 *)
  | CMap => [r "Key" "fKey" KUint32; r "Value" "fValue" KUint32]
  (* 9575-9820 *)
  | CFixture => [ri "Name" "fName" KText NoSlash; r "ShortName" "fShortName" KText; r "LongName" "fLongName" KText;
      r "Manufacturer" "fManufacturer" KText; r "Description" "fFixtureTypeDescription" KText;
      r "FixtureTypeID" "fGuid" KUuid; r "Thumbnail" "fTumbnailName" KText;
      r "ThumbnailOffsetX" "fThumbnailOffsetX" KSint32; r "ThumbnailOffsetY" "fThumbnailOffsetY" KSint32;
      r "CanHaveChildren" "fCanHaveChildren" (KEnum e_CanHaveChildren);
      ri "RefFT" "fLinkedGuid" KUuid (OkTo "fHasLinkedGuid")]
  (* the geometries without own attributes *)
  | CGeometry | CGeometryAxis | CGeometryBeamFilter | CGeometryColorFilter | CGeometryGoboFilter |
    CGeometryShaperFilter | CGeometryMediaServerCamera | CGeometryMediaServerLayer | CGeometryMediaServerMaster |
    CGeometryMagnet => r_geo
  | COperatingTemperature => [r "Low" "fOperatingTemperatureLow" KDouble; r "High" "fOperatingTemperatureHigh" KDouble]
  | CWeight => [r "Value" "fWeight" KDouble]
  | CLegHeight => [r "Value" "fLegHeight" KDouble]
  | _ => []
  end.

(** ** Members as the constructors leave them *)
Definition f (name : string) (v : val) : string * val := (name, v).
Definition f_geo : list (string * val) := [f "fUniqueName" (VTxt []); f "fMatrix" (VMat identity); f
    "fModelReference" (VTxt [])].
Definition fields (c : cls) : list (string * val) :=
  match c with
  | CActivationGroup => [f "fName" (VTxt [])]
  | CFeature => [f "fName" (VTxt [])]
  | CFeatureGroup => [f "fName" (VTxt []); f "fPrettyName" (VTxt [])]
  | CSubPhysicalUnit => [f "fType" (VNat 0); f "fPhysicalUnit" (VNat 0); f "fPhysicalFrom" (VDbl zero);
      f "fPhysicalTo" (VDbl zero)]
  | CAttribute => [f "fName" (VTxt []); f "fPrettyName" (VTxt []); f "fActivationGroup" (VTxt []);
      f "fFeature" (VTxt []); f "fMainAttribute" (VTxt []); f "fColor" (VVec white); f "fPhysicalUnit" (VNat 0);
      f "fHasColor" (VFlag false)]
  | CWheel => [f "fName" (VTxt [])]
  | CWheelSlot => [f "fName" (VTxt []); f "fColor" (VVec white); f "fGobo" (VTxt []); f "fFilter" (VTxt []);
      f "fDuration" (VDbl zero); f "fWidth" (VNat 0); f "fHeight" (VNat 0); f "fFPS" (VNat 0)]
  | CWheelSlotPrismFacet => [f "fColor" (VVec white); f "fTransform" (VMat identity)]
  | CWheelSlotAnimationSystem => [f "fP1" VUnset; f "fP2" VUnset; f "fP3" VUnset; f "fRadius" VUnset]
  | CModel => [f "fUniqueName" (VTxt []); f "fLength" (VDbl zero); f "fWidth" (VDbl zero); f "fHeight" (VDbl zero);
      f "fPrimitiveType" (VNat 0); f "fGeometryFile" (VTxt []); f "fSVGOffsetX" (VDbl zero);
      f "fSVGOffsetY" (VDbl zero); f "fSVGSideOffsetX" (VDbl zero); f "fSVGSideOffsetY" (VDbl zero);
      f "fSVGFrontOffsetX" (VDbl zero); f "fSVGFrontOffsetY" (VDbl zero)]
  | CGeometryLamp => f_geo ++ [f "fLampType" (VNat 0); f "fPowerConsuption" (int_dbl 1000);
      f "fLuminousIntensity" (int_dbl 10000); f "fColorTemperature" (int_dbl 6000); f "fBeamAngle" (int_dbl 25);
      f "fBeamRadius" (int_dbl 50); f "fFieldAngle" (int_dbl 25); f "fThrowRatio" (int_dbl 1);
      f "fRectangleRatio" (VDbl (decimal 17777 10000)); f "fBeamType" (VNat 0); f "fColorIndex" (VInt 100);
      f "fEmitterSpectrum" (VTxt [])]
  | CGeometryReference => f_geo ++ [f "fLinkedGeometry" (VTxt [])]
  | CGeometryDisplay => f_geo ++ [f "fTexture" (VTxt []); f "fWidth" VUnset; f "fHeight" VUnset; f "fIsCurved" VUnset]
  | CGeometryLaser => f_geo ++ [f "fColorType" (VNat 0); f "fColor" VUnset; f "fOutputStrength" VUnset;
      f "fEmitter" (VTxt []); f "fBeamDiameter" VUnset; f "fBeamDivergenceMin" VUnset; f "fBeamDivergenceMax" VUnset;
      f "fScanAnglePan" VUnset; f "fScanAngleTilt" VUnset; f "fScanSpeed" VUnset]
  | CGeometryWiringObject => f_geo ++ [f "fComponentType" (VNat 0); f "fConnectorType" (VTxt []);
      f "fSignalType" (VTxt []); f "fPinCount" (VNat 0); f "fSignalLayer" (VNat 0); f "fOrientation" (VNat 0);
      f "fWireGroup" (VTxt []); f "fElectricalPayLoad" (VDbl zero); f "fVoltageRangeMin" (VDbl zero);
      f "fVoltageRangeMax" (VDbl zero); f "fFrequencyRangeMin" (VDbl zero); f "fFrequencyRangeMax" (VDbl zero);
      f "fCosPhi" (VDbl zero); f "fMaxPayLoad" (VDbl zero); f "fVoltage" (VDbl zero); f "fFuseCurrent" (VDbl zero);
      f "fFuseRating" (VNat 0)]
  | CGeometryInventory => f_geo ++ [f "fCount" VUnset]
  | CGeometryStructure => f_geo ++ [f "fLinkedGeometry" (VTxt []); f "fStructureType" VUnset;
      f "fCrossSectionType" VUnset; f "fCrossSectionHeight" VUnset; f "fCrossSectionWallThickness" VUnset;
      f "fTrussCrossSection" (VTxt [])]
  | CGeometrySupport => f_geo ++ [f "fSupportType" VUnset; f "fCapacityX" VUnset; f "fCapacityY" VUnset;
      f "fCapacityZ" VUnset; f "fCapacityXX" VUnset; f "fCapacityYY" VUnset; f "fCapacityZZ" VUnset;
      f "fRopeCrossSection" (VTxt []); f "fRopeOffset" (VVec (zero, zero, zero)); f "fResistanceX" VUnset;
      f "fResistanceY" VUnset; f "fResistanceZ" VUnset; f "fResistanceXX" VUnset; f "fResistanceYY" VUnset;
      f "fResistanceZZ" VUnset]
  | CLaserProtocol => [f "fName" (VTxt [])]
  | CPinPatch => [f "fToWiringObject" (VTxt []); f "fFromPin" VUnset; f "fToPin" VUnset]
  | CBreak => [f "fDmxBreak" (VInt 1); f "fDmxAdress" (VNat 1)]
  | CDmxMode => [f "fName" (VTxt []); f "fDescription" (VTxt []); f "fGeomRef" (VTxt [])]
  | CDmxChannel => [f "fDmxBreak" (VInt 1); f "fOffset" (VOff (0, 0, 0, 0)); f "fHeighlight" (VDmx true 0);
      f "fGeomRef" (VTxt []); f "fInitialFunction" (VTxt []); f "fDefaultValue_old" (VDmx false 0)]
  | CDmxLogicalChannel => [f "fAttribute" (VTxt []); f "fSnap" (VNat 1); f "fDmxMaster" (VNat 0);
      f "fMoveInBlackFrames" (VDbl zero); f "fDmxChangeTimeLimit" (VDbl zero)]
  | CDmxChannelFunction => [f "fName" (VTxt []); f "fDefaultValue" (VDmx false 0); f "fAdressStart" (VDmx false 0);
      f "fPhysicalStart" (VDbl zero); f "fPhysicalEnd" (int_dbl 1); f "fRealFade" (VDbl zero);
      f "fRealAcceleration" (VDbl zero); f "fMin" (VDbl zero); f "fMax" (int_dbl 1); f "fCustomName" (VTxt []);
      f "fOrignalAttribute" (VTxt []); f "fAttribute" (VTxt []); f "fOnWheel" (VTxt []); f "fEmitter" (VTxt []);
      f "fFilter" (VTxt []); f "fColorSpace" (VTxt []); f "fGamut" (VTxt []); f "fDMXProfile" (VTxt []);
      f "fModeMaster" (VTxt []); f "fDmxModeStart" (VTxt []); f "fDmxModeEnd" (VTxt [])]
  | CDmxChannelSet => [f "fUniqueName" (VTxt []); f "fDmxStart" (VDmx false 0); f "fWheelSlotIdx" (VInt 0);
      f "fPhysicalStart" (VDbl zero); f "fPhysicalEnd" (int_dbl 1); f "fSetPhysical" (VFlag false);
      f "fValid" (VFlag true)]
  | CDmxSubChannelSet => [f "fUniqueName" (VTxt []); f "fPhysicalFrom" (VDbl zero); f "fPhysicalTo" (int_dbl 1);
      f "fSubPhysicalUnit" (VTxt []); f "fDMXProfile" (VTxt [])]
  | CDmxRelation => [f "fUniqueName" (VTxt []); f "fMasterDmxChannel" (VTxt []); f "fSlaveChannelFunction" (VTxt []);
      f "fRelationType" (VNat 2)]
  | CMacro => [f "fName" (VTxt []); f "fChannelFunction" (VTxt [])]
  | CMacroDMXStep => [f "fDuration" VUnset]
  | CMacroDMXValue => [f "fValue" (VTxt []); f "fDMXChannel" (VTxt [])]
  | CMacroVisualStep => [f "fDuration" (int_dbl 1); f "fFade" (VDbl zero); f "fDelay" (VDbl zero)]
  | CMacroVisualValue => [f "fDmxValue" (VTxt []); f "fChannelFunctionRef" (VTxt [])]
  | CRevision => [f "fText" (VTxt []); f "fDateS" (VDate zero_time); f "fUserId" (VNat 0); f "fModifiedBy" (VTxt [])]
  | CPhysicalEmitter => [f "fName" (VTxt []); f "fColor" (VVec white); f "fDominantWaveLength" (VDbl zero);
      f "fDiodePart" (VTxt [])]
  | CMeasurementF => [f "fPhysical" (VDbl zero); f "fTransmission" (VDbl zero); f "fInterpolationTo" (VNat 0);
      f "fLuminousIntensity" (VDbl zero)]
  | CMeasurementE => [f "fPhysical" (VDbl zero); f "fLuminousIntensity" (VDbl zero); f "fInterpolationTo" (VNat 0);
      f "fTransmission" (VDbl zero)]
  | CMeasurementPoint => [f "fWaveLength" (VDbl zero); f "fEngergy" (VDbl zero)]
  | CPoint => [f "fDMXPercentage" (VDbl zero); f "fCFC3" (VDbl zero); f "fCFC2" (VDbl zero); f "fCFC1" (VDbl zero);
      f "fCFC0" (VDbl zero)]
  | CDMXProfile => [f "fUniqueName" (VTxt [])]
  | CCRIGroup => [f "fColorTemperature" (int_dbl 6000)]
  | CCRI => [f "fCES" (VNat 0); f "fCRI" (VNat 100)]
  | CGamut => [f "fUniqueName" (VTxt []); f "fGamutPoints" (VVecs [])]
  | CColorSpace => [f "fUniqueName" (VTxt []); f "fColorSpace" (VNat 0); f "fRed" (VVec white);
      f "fGreen" (VVec white); f "fBlue" (VVec white); f "fWhitePoint" (VVec white)]
  | CFilter => [f "fName" (VTxt []); f "fColor" (VVec white)]
  | CConnector => [f "fName" (VTxt []); f "fType" (VTxt []); f "fDmxBreak" (VNat 0); f "fGender" (VInt 0);
      f "fLength" (VDbl zero)]
  | CFTRDM => [f "fManufacturerID" (VNat 0); f "fDeviceModelID" (VNat 0)]
  | CSoftwareVersionID => [f "fValue" (VNat 0)]
  | CDMXPersonality => [f "fValue" (VNat 0); f "fDMXMode" (VTxt [])]
  | CMap => [f "fKey" VUnset; f "fValue" VUnset]
  | CFixture => [f "fName" (VTxt []); f "fShortName" (VTxt []); f "fLongName" (VTxt []); f "fManufacturer" (VTxt []);
      f "fFixtureTypeDescription" (VTxt []); f "fGuid" (VUuid zero_uuid); f "fTumbnailName" (VTxt []);
      f "fThumbnailOffsetX" (VInt 0); f "fThumbnailOffsetY" (VInt 0); f "fCanHaveChildren" (VNat 0);
      f "fLinkedGuid" (VUuid zero_uuid); f "fHasLinkedGuid" (VFlag false)]
  | CGeometry | CGeometryAxis | CGeometryBeamFilter | CGeometryColorFilter | CGeometryGoboFilter |
    CGeometryShaperFilter | CGeometryMediaServerCamera | CGeometryMediaServerLayer | CGeometryMediaServerMaster |
    CGeometryMagnet => f_geo
  | COperatingTemperature => [f "fOperatingTemperatureLow" (VDbl zero); f "fOperatingTemperatureHigh" (int_dbl 40)]
  | CWeight => [f "fWeight" (VDbl zero)]
  | CLegHeight => [f "fLegHeight" (VDbl zero)]
  | _ => []
  end.

(** ** Attributes asked for and known: OnErrorCheck *)
(** [None]: no check.  The numbers of the enumerators are those of [EnumModel]. *)
Definition t (s : string) : list N := txt s.
Definition attribute_lists (c : cls) (vs : env) : option (list (list N) * list (list N)) :=
  match c with
  (* 163-178 *)
  | CActivationGroup => Some ([t "Name"],
      [])
  (* 249-264 *)
  | CFeature => Some ([t "Name"],
      [])
  (* 385-401 *)
  | CFeatureGroup => Some ([t "Name"; t "Pretty"],
      [])
  (* 523-540 *)
  | CSubPhysicalUnit => Some ([t "Type"; t "PhysicalUnit"],
      [t "PhysicalFrom"; t "PhysicalTo"])
  (* 692-713 *)
  | CAttribute => Some ([t "Name"; t "Pretty"; t "Feature"],
      [t "ActivationGroup"; t "MainAttribute"; t "PhysicalUnit"; t "Color"])
  (* 904-919 *)
  | CWheel => Some ([t "Name"],
      [])
  (* 1369-1392 *)
  | CWheelSlot => Some ([t "Name"],
      [t "Color"; t "MediaFileName"; t "Filter"; t "Duration"; t "Width"; t "Height"; t "FPS"])
  (* 988-1004 *)
  | CWheelSlotPrismFacet => Some ([t "Rotation"],
      [t "Color"])
  (* 1119-1137 *)
  | CWheelSlotAnimationSystem => Some ([t "P1"; t "P2"; t "P3"; t "Radius"],
      [])
  (* 1681-1707 *)
  | CModel => Some ([t "Name"],
      [t "File"; t "Length"; t "Width"; t "Height"; t "PrimitiveType"; t "SVGOffsetX"; t "SVGOffsetY"; t
    "SVGSideOffsetX";
         t "SVGSideOffsetY"; t "SVGFrontOffsetX"; t "SVGFrontOffsetY"])
  (* 2374-2392 *)
  | CGeometry => Some ([t "Name"; t "Position"],
      [t "Model"])
  (* 2482-2499 *)
  | CGeometryAxis => Some ([t "Name"; t "Position"],
      [t "Model"])
  (* 2542-2559 *)
  | CGeometryBeamFilter => Some ([t "Name"; t "Position"],
      [t "Model"])
  (* 2604-2621 *)
  | CGeometryColorFilter => Some ([t "Name"; t "Position"],
      [t "Model"])
  (* 2727-2744 *)
  | CGeometryGoboFilter => Some ([t "Name"; t "Position"],
      [t "Model"])
  (* 2666-2683 *)
  | CGeometryShaperFilter => Some ([t "Name"; t "Position"],
      [t "Model"])
  (* 4547-4577 *)
  | CGeometryLamp => Some ([t "Name"; t "Position"],
      [t "LampType"; t "PowerConsumption"; t "LuminousFlux"; t "ColorTemperature"; t "BeamAngle"; t "FieldAngle";
         t "BeamRadius"; t "ThrowRatio"; t "RectangleRatio"; t "BeamType"; t "ColorRenderingIndex"; t "Model";
         t "EmitterSpectrum"])
  (* 2788-2805 *)
  | CGeometryMediaServerCamera => Some ([t "Name"; t "Position"],
      [t "Model"])
  (* 2849-2866 *)
  | CGeometryMediaServerLayer => Some ([t "Name"; t "Position"],
      [t "Model"])
  (* 2910-2927 *)
  | CGeometryMediaServerMaster => Some ([t "Name"; t "Position"],
      [t "Model"])
  (* 4817-4835 *)
  | CGeometryReference => Some ([t "Name"; t "Geometry"; t "Position"],
      [t "Model"])
  (* 3026-3044 *)
  | CGeometryDisplay => Some ([t "Name"; t "Position"; t "Texture"],
      [t "Model"])
  (* 3317-3346 *)
  | CGeometryLaser => if kind_is "fColorType" 1 vs then Some ([t "Name"; t "Position"; t "ColorType"; t "Color"; t
    "OutputStrength"; t "BeamDiameter"; t "BeamDivergenceMin";
         t "BeamDivergenceMax"; t "ScanAnglePan"; t "ScanAngleTilt"; t "ScanSpeed"],
      [t "Model"; t "Emitter"])
    else Some ([t "Name"; t "Position"; t "ColorType"; t "OutputStrength"; t "BeamDiameter"; t "BeamDivergenceMin";
         t "BeamDivergenceMax"; t "ScanAnglePan"; t "ScanAngleTilt"; t "ScanSpeed"],
      [t "Model"; t "Color"; t "Emitter"])
  (* 3756-3822 *)
  | CGeometryWiringObject => 
    let consumer := [t "ElectricalPayLoad"; t "VoltageRangeMin"; t "VoltageRangeMax"; t "FrequencyRangeMin"; t
    "FrequencyRangeMax";
         t "CosPhi"] in
    let source := [t "MaxPayLoad"; t "Voltage"] in
    let fuse := [t "FuseCurrent"; t "FuseRating"] in
    let k := kind_is "fComponentType" in
    Some ([t "Name"; t "Position"; t "ComponentType"; t "ConnectorType"; t "SignalType"; t "PinCount"; t "SignalLayer";
         t "Orientation"; t "WireGroup"]
        ++ (if k 3 vs then consumer else []) ++ (if k 2 vs then source else []) ++ (if k 4 vs then fuse else []),
      [t "Model"] ++ (if k 3 vs then [] else consumer) ++ (if k 2 vs then [] else source)
        ++ (if k 4 vs then [] else fuse))
  (* 3878-3896 *)
  | CGeometryInventory => Some ([t "Name"; t "Position"; t "Count"],
      [t "Model"])
  (* 4023-4055 *)
  | CGeometryStructure => if kind_is "fCrossSectionType" 1 vs then Some ([t "Name"; t "Position"; t "StructureType";
    t "CrossSectionHeight"; t "CrossSectionWallThickness"],
      [t "Model"; t "LinkedGeometry"; t "CrossSectionType"; t "TrussCrossSection"])
    else Some ([t "Name"; t "Position"; t "StructureType"; t "TrussCrossSection"],
      [t "Model"; t "LinkedGeometry"; t "CrossSectionType"; t "CrossSectionHeight"; t "CrossSectionWallThickness"])
  (* 4280-4333 *)
  | CGeometrySupport => if kind_is "fSupportType" 0 vs then Some ([t "Name"; t "Position"; t "SupportType"; t
    "RopeCrossSection"; t "RopeOffset"],
      [t "Model"; t "CapacityX"; t "CapacityY"; t "CapacityZ"; t "CapacityXX"; t "CapacityYY"; t "CapacityZZ";
         t "ResistanceX"; t "ResistanceY"; t "ResistanceZ"; t "ResistanceXX"; t "ResistanceYY"; t "ResistanceZZ"])
    else Some ([t "Name"; t "Position"; t "SupportType"; t "CapacityX"; t "CapacityY"; t "CapacityZ"; t "CapacityXX";
         t "CapacityYY"; t "CapacityZZ"; t "ResistanceX"; t "ResistanceY"; t "ResistanceZ"; t "ResistanceXX";
         t "ResistanceYY"; t "ResistanceZZ"],
      [t "Model"; t "RopeCrossSection"; t "RopeOffset"])
  (* 4375-4392 *)
  | CGeometryMagnet => Some ([t "Name"; t "Position"],
      [t "Model"])
  (* 3100-3114 *)
  | CLaserProtocol => Some ([t "Name"],
      [])
  (* 3433-3449 *)
  | CPinPatch => Some ([t "ToWiringObject"; t "FromPin"; t "ToPin"],
      [])
  (* 4704-4720 *)
  | CBreak => Some ([],
      [t "DMXOffset"; t "DMXBreak"])
  (* 4969-4986 *)
  | CDmxMode => Some ([t "Name"; t "Geometry"],
      [t "Description"])
  (* 5605-5625 *)
  | CDmxChannel => Some ([t "Geometry"],
      [t "InitialFunction"; t "DMXBreak"; t "Offset"; t "Highlight"; t "Default"])
  (* 5913-5931 *)
  | CDmxLogicalChannel => Some ([t "Attribute"],
      [t "Snap"; t "Master"; t "MibFade"; t "DMXChangeTimeLimit"])
  (* 6405-6439 *)
  | CDmxChannelFunction => Some ([],
      [t "Name"; t "Attribute"; t "OriginalAttribute"; t "Default"; t "DMXFrom"; t "PhysicalFrom"; t "PhysicalTo";
         t "Wheel"; t "Emitter"; t "ModeMaster"; t "ModeFrom"; t "ModeTo"; t "RealFade"; t "Filter";
         t "RealAcceleration"; t "ColorSpace"; t "Gamut"; t "DMXProfile"; t "Min"; t "Max"; t "CustomName"])
  (* 6881-6910 *)
  | CDmxChannelSet => if flag "fSetPhysical" vs then Some ([t "PhysicalFrom"; t "PhysicalTo"],
      [t "Name"; t "DMXFrom"; t "WheelSlotIndex"])
    else Some ([],
      [t "Name"; t "DMXFrom"; t "WheelSlotIndex"; t "PhysicalFrom"; t "PhysicalTo"])
  (* 7048-7067 *)
  | CDmxSubChannelSet => Some ([t "SubPhysicalUnit"],
      [t "Name"; t "PhysicalFrom"; t "PhysicalTo"; t "DMXProfile"])
  (* 7176-7194 *)
  | CDmxRelation => Some ([t "Name"; t "Master"; t "Follower"; t "Type"],
      [])
  (* 7654-7670 *)
  | CMacro => Some ([t "Name"],
      [t "ChannelFunction"])
  (* 11740-11755 *)
  | CMacroDMXStep => Some ([],
      [t "Duration"])
  (* 11829-11845 *)
  | CMacroDMXValue => Some ([t "Value"; t "DMXChannel"],
      [])
  (* 12032-12049 *)
  | CMacroVisualStep => Some ([],
      [t "Duration"; t "Fade"; t "Delay"])
  (* 12139-12155 *)
  | CMacroVisualValue => Some ([t "Value"; t "ChannelFunction"],
      [])
  (* 7298-7316 *)
  | CRevision => Some ([t "Date"],
      [t "Text"; t "UserID"; t "ModifiedBy"])
  (* 7481-7502 *)
  | CPhysicalEmitter => Some ([t "Name"; t "Color"],
      [t "DominantWaveLength"; t "DiodePart"])
  (* 7775-7791 *)
  | CMeasurementPoint => Some ([t "WaveLength"; t "Energy"],
      [])
  (* 10525-10544 *)
  | CPoint => Some ([],
      [t "DMXPercentage"; t "CFC3"; t "CFC2"; t "CFC1"; t "CFC0"])
  (* 10639-10654 *)
  | CDMXProfile => Some ([],
      [t "Name"])
  (* 10749-10764 *)
  | CCRIGroup => Some ([],
      [t "ColorTemperature"])
  (* 10840-10856 *)
  | CCRI => Some ([],
      [t "CES"; t "ColorRenderingIndex"])
  (* 12305-12320 *)
  | CGamut => Some ([t "Name"; t "Points"],
      [])
  (* 12919-12939 *)
  | CColorSpace => Some ([],
      [t "Red"; t "Green"; t "Blue"; t "WhitePoint"; t "Mode"; t "Name"])
  (* 13271-13291 *)
  | CConnector => Some ([t "Name"; t "Type"],
      [t "DMXBreak"; t "Gender"; t "Length"])
  (* 10910-10926 *)
  | CFTRDM => Some ([t "ManufacturerID"; t "DeviceModelID"],
      [])
  (* 11244-11258 *)
  | CProtocols => Some ([],
      [])
  (* 11316-11331 *)
  | CMap => Some ([t "Key"; t "Value"],
      [])
  (* 9822-9847 *)
  | CFixture => Some ([t "Name"; t "ShortName"; t "LongName"; t "Manufacturer"; t "Description"; t "FixtureTypeID"],
      [t "Thumbnail"; t "RefFT"; t "ThumbnailOffsetX"; t "ThumbnailOffsetY"; t "CanHaveChildren"])
  | _ => None
  end.

(** ** Children *)
(** [All]: TraverseNodes or TraverseMultiNodes (XmlFileHelper.cpp:2420-2480) over all children; [Opt]: GetChildNode,
    a pointer; [One]: GetChildNode, a member that stays as constructed if there is no such node; [Ignored]:
    written, never read. *)
Inductive smode := All | Opt | One | Ignored.
(** What is done after reading: 5894-5902 and 6295-6375. *)
Inductive post := NoPost | FirstAtZero | AddSets.
Record slot := mkSlot { s_mode : smode; s_kinds : list (string * cls); s_post : post }.
Definition all (n : string) (c : cls) : slot := mkSlot All [(n, c)] NoPost.
Definition opt (n : string) (c : cls) : slot := mkSlot Opt [(n, c)] NoPost.
Definition one (n : string) (c : cls) : slot := mkSlot One [(n, c)] NoPost.
(** 2308-2346 and 9726-9752. *)
Definition geometries : slot := mkSlot All
  [("Axis", CGeometryAxis); ("Geometry", CGeometry); ("FilterBeam", CGeometryBeamFilter);
   ("FilterColor", CGeometryColorFilter); ("FilterGobo", CGeometryGoboFilter);
   ("FilterShaper", CGeometryShaperFilter); ("Beam", CGeometryLamp);
   ("MediaServerCamera", CGeometryMediaServerCamera); ("MediaServerLayer", CGeometryMediaServerLayer);
   ("MediaServerMaster", CGeometryMediaServerMaster); ("GeometryReference", CGeometryReference);
   ("Display", CGeometryDisplay); ("Laser", CGeometryLaser); ("WiringObject", CGeometryWiringObject);
   ("Inventory", CGeometryInventory); ("Structure", CGeometryStructure); ("Support", CGeometrySupport);
   ("Magnet", CGeometryMagnet)]%string NoPost.
(** In the order in which they are written. *)
Definition slots (c : cls) : list slot :=
  match c with
  | CFeatureGroup => [all "Feature" CFeature]
  | CAttribute => [all "SubPhysicalUnit" CSubPhysicalUnit]
  | CWheel => [all "Slot" CWheelSlot]
  | CWheelSlot => [all "Facet" CWheelSlotPrismFacet; opt "AnimationSystem" CWheelSlotAnimationSystem]
  | CGeometry | CGeometryAxis | CGeometryBeamFilter | CGeometryColorFilter | CGeometryGoboFilter
  | CGeometryShaperFilter | CGeometryLamp | CGeometryMediaServerCamera | CGeometryMediaServerLayer
  | CGeometryMediaServerMaster | CGeometryDisplay | CGeometryInventory | CGeometryStructure | CGeometrySupport
  | CGeometryMagnet => [geometries]
  | CGeometryReference => [geometries; all "Break" CBreak]
  | CGeometryLaser => [geometries; all "Protocol" CLaserProtocol]
  | CGeometryWiringObject => [geometries; all "PinPatch" CPinPatch]
  | CDmxMode => [one "DMXChannels" CDMXChannels; one "Relations" CRelations; one "FTMacros" CFTMacros]
  | CDMXChannels => [all "DMXChannel" CDmxChannel]
  | CRelations => [all "Relation" CDmxRelation]
  | CFTMacros => [all "FTMacro" CMacro]
  | CDmxChannel => [all "LogicalChannel" CDmxLogicalChannel]
  | CDmxLogicalChannel => [mkSlot All [("ChannelFunction", CDmxChannelFunction)] FirstAtZero]
  | CDmxChannelFunction =>
      [mkSlot All [("ChannelSet", CDmxChannelSet)] AddSets; all "SubChannelSet" CDmxSubChannelSet]
  | CMacro => [opt "MacroDMX" CMacroDMX; opt "MacroVisual" CMacroVisual]
  | CMacroDMX => [all "MacroDMXStep" CMacroDMXStep]
  | CMacroDMXStep => [all "MacroDMXValue" CMacroDMXValue]
  | CMacroVisual => [all "MacroVisualStep" CMacroVisualStep]
  | CMacroVisualStep => [all "MacroVisualValue" CMacroVisualValue]
  | CPhysicalEmitter => [all "Measurement" CMeasurementE]
  | CFilter => [all "Measurement" CMeasurementF]
  | CMeasurementE | CMeasurementF => [all "MeasurementPoint" CMeasurementPoint]
  | CDMXProfile => [all "Point" CPoint]
  | CCRIGroup => [all "CRI" CCRI]
  | CFTRDM => [all "SoftwareVersionID" CSoftwareVersionID]
  | CSoftwareVersionID => [all "DMXPersonality" CDMXPersonality]
  | CProtocols =>
      [opt "FTRDM" CFTRDM; opt "Art-Net" CArtNet; opt "sACN" CsAcn; opt "KiNET" CKiNET;
       opt "PosiStageNet" CPosiStageNet; opt "OpenSoundControl" COpenSoundControl; opt "CITP" CCITP]
  | CArtNet | CsAcn => [all "Map" CMap]
  | CPhysicalDescriptions =>
      [one "ColorSpace" CColorSpace; one "AdditionalColorSpaces" CAdditionalColorSpaces; one "Gamuts" CGamuts;
       one "Filters" CFilters; one "Emitters" CEmitters; one "DMXProfiles" CDMXProfiles; one "CRIs" CCRIs;
       one "Connectors" CConnectors; one "Properties" CProperties]
  | CAdditionalColorSpaces => [all "ColorSpace" CColorSpace]
  | CGamuts => [all "Gamut" CGamut]
  | CFilters => [all "Filter" CFilter]
  | CEmitters => [all "Emitter" CPhysicalEmitter]
  | CDMXProfiles => [all "DMXProfile" CDMXProfile]
  | CCRIs => [all "CRIGroup" CCRIGroup]
  | CConnectors => [all "Connector" CConnector]
  | CProperties =>
      [one "OperatingTemperature" COperatingTemperature; one "Weight" CWeight; one "LegHeight" CLegHeight]
  | CFixture =>
      [one "AttributeDefinitions" CAttributeDefinitions; one "Wheels" CWheels;
       one "PhysicalDescriptions" CPhysicalDescriptions; one "Models" CModels; one "Geometries" CGeometries;
       one "DMXModes" CDMXModes; one "Revisions" CRevisions;
       mkSlot Ignored [("FTPresets", CFTPresets)] NoPost; one "Protocols" CProtocols]
  | CAttributeDefinitions =>
      [one "ActivationGroups" CActivationGroups; one "FeatureGroups" CFeatureGroups; one "Attributes" CAttributes]
  | CActivationGroups => [all "ActivationGroup" CActivationGroup]
  | CFeatureGroups => [all "FeatureGroup" CFeatureGroup]
  | CAttributes => [all "Attribute" CAttribute]
  | CWheels => [all "Wheel" CWheel]
  | CModels => [all "Model" CModel]
  | CGeometries => [geometries]
  | CDMXModes => [all "DMXMode" CDmxMode]
  | CRevisions => [all "Revision" CRevision]
  | CFTPresets => [all "FTPreset" CUserPreset]
  | _ => []
  end%string.

(** Errors about a child by its name: 2338-2370 and 9753-9766 (a node that is no geometry; a Break
    where none is expected is reported twice). *)
Definition known (name : list N) (l : list string) : bool := existsb (fun s => txeq name (txt s)) l.
Definition child_errs (c : cls) (name : list N) : N :=
  match s_kinds (match slots c with s :: _ => s | [] => all "" CFixture end) with
  | [_] | [] => 0
  | kinds =>
    if known name (map fst kinds) then 0
    else match c with
      | CGeometries => 1
      | _ =>
        if known name ["Break"]%string then match c with CGeometryReference => 0 | _ => 2 end
        else if known name ["Protocol"; "PinPatch"]%string then 0 else 1
      end
  end.

(** ** Objects *)
(** The class, the members, the children in the order of [slots]. *)
Inductive obj := Obj (c : cls) (vs : env) (ks : list obj).
(** As constructed. *)
Fixpoint fresh_at (depth : nat) (c : cls) : obj :=
  match depth with
  | O => Obj c (fields c) []
  | S d =>
    Obj c (fields c)
      (flat_map (fun s => match s_mode s with
                          | One | Ignored => map (fun k => fresh_at d (snd k)) (s_kinds s)
                          | All | Opt => []
                          end) (slots c))
  end.
Definition fresh (c : cls) : obj := fresh_at 4 c.

(** The offsets of the enclosing DMX channel, which give the resolution of DMX values. *)
Definition offsets := (N * N * N * N)%type.
Definition own_offsets (c : cls) (ctx : offsets) (vs : env) : offsets :=
  match c with CDmxChannel => match get "fOffset" vs with VOff o => o | _ => (0, 0, 0, 0) end | _ => ctx end.
Definition reso_of (c : cls) (ctx : offsets) (vs : env) : N := bit_resolution (own_offsets c ctx vs).

(** ** Writing *)
(** SetNodeAttributeValue, rapidxmlsupport/XMLFileNodeImpl.cpp:102-110: the text as UTF-8, up to a zero byte. *)
Definition bytes_of (s : list N) : res (list N) := match to_bytes s with Some b => Ok (upto_nul b) | None => Exc end.
Definition is_zero (v : val) : bool :=
  match v with VDbl (Fin _ 0) => true | VNat 0 => true | _ => false end.
(** The text of an attribute, or [None] if it is not written. *)
Definition write_entry (reso : N) (vs : env) (e : wentry) : res (option (list N)) :=
  let text := do s <- write_conv (w_conv e) reso (get (w_field e) vs); Ok (Some s) in
  match w_when e with
  | Always => text
  | IfText g => if no_text g vs then Ok None else text
  | IfFlag g => if flag g vs then text else Ok None
  | IfEnum g n => if kind_is g n vs then text else Ok None
  | IfNonZero g => match get g vs with VUnset => UB | v => if is_zero v then Ok None else text end
  | IfFlagElseEmpty g => if flag g vs then text else Ok (Some [])
  | Deref => if no_text (w_field e) vs then UB else text
  end.
Fixpoint write_entries (reso : N) (vs : env) (es : list wentry) (attrs : list (list N * list N)) :
  res (list (list N * list N)) :=
  match es with
  | [] => Ok attrs
  | e :: rest =>
    do s <- write_entry reso vs e;
    match s with
    | None => write_entries reso vs rest attrs
    | Some s => do b <- bytes_of s; write_entries reso vs rest (set_attr (w_attr e) b attrs)
    end
  end.
(** [WriteToNode], 29-41. *)
Fixpoint write_obj (ctx : offsets) (o : obj) : res node :=
  match o with
  | Obj c vs ks =>
    do attrs <- write_entries (reso_of c ctx vs) vs (writes c) [];
    do kids <- (fix go (l : list obj) : res (list node) :=
      match l with
      | [] => Ok []
      | k :: rest => do n <- write_obj (own_offsets c ctx vs) k; do ns <- go rest; Ok (n :: ns)
      end) ks;
    Ok (Elem (node_name c) attrs kids)
  end.

(** ** Reading *)
(** GetNodeAttributeValue, rapidxmlsupport/XMLFileNodeImpl.cpp:87-100. *)
Definition text_of (b : list N) : res (list N) := match set_from_chars b with Some s => Ok s | None => Exc end.
Definition attr_text (name : list N) (attrs : list (list N * list N)) : res (option (list N)) :=
  match get_attr name attrs with None => Ok None | Some b => do s <- text_of b; Ok (Some s) end.
Definition no_slash (s : list N) : res (list N) :=
  match replace (S (List.length s)) s T"/" T"_" false with Done x => Ok x | NoEnd => Loop | Throw => Exc end.
Definition is_text (k : conv) : bool := match k with KText => true | _ => false end.
Definition read_entry (reso : env -> N) (attrs : list (list N * list N)) (e : rentry) (st : env * N) : res (env * N) :=
  let '(vs, errs) := st in
  do a <- attr_text (r_attr e) attrs;
  let convert (after : env -> bool -> env) :=
    do x <- read_conv (r_conv e) (reso vs) (get (r_field e) vs) (match a with Some s => s | None => [] end);
    let '(v, ok, n) := x in Ok (after (put (r_field e) v vs) ok, errs + n) in
  let same (vs : env) (ok : bool) := vs in
  match r_how e, a with
  | Plain, None => if is_text (r_conv e) then Ok st else convert same
  | Plain, Some _ => convert same
  | WhenPresent, None => Ok st
  | WhenPresent, Some _ => convert same
  | WhenText, Some (_ :: _) => convert same
  | WhenText, _ => Ok st
  | PresentTo g, Some _ => convert (fun vs _ => put g (VFlag true) vs)
  | PresentTo g, None => Ok st
  | OkTo g, _ => convert (fun vs ok => put g (VFlag ok) vs)
  | OkBoth g, _ => convert (fun vs ok => put g (VFlag (flag g vs && ok)) vs)
  | WhenEnum g n, _ => if kind_is g n vs then convert same else Ok st
  | NoSlash, _ =>
    do s <- no_slash (match a with Some s => s | None => match get (r_field e) vs with VTxt s => s | _ => [] end end);
    Ok (put (r_field e) (VTxt s) vs, errs)
  end.
Fixpoint read_entries (reso : env -> N) (attrs : list (list N * list N)) (es : list rentry) (st : env * N) : res (env * N) :=
  match es with [] => Ok st | e :: rest => do s <- read_entry reso attrs e st; read_entries reso attrs rest s end.

Fixpoint each_text (l : list (list N)) : res (list (list N)) :=
  match l with [] => Ok [] | b :: rest => do s <- text_of b; do ss <- each_text rest; Ok (s :: ss) end.
(** The children that are elements, with their names. *)
Fixpoint elements (kids : list node) : res (list (list N * node)) :=
  match kids with
  | [] => Ok []
  | Elem n a k :: rest => do s <- text_of n; do ss <- elements rest; Ok ((s, Elem n a k) :: ss)
  | _ :: rest => elements rest
  end.
Definition kind_of (kinds : list (string * cls)) (name : list N) : option cls :=
  match find (fun p => txeq name (txt (fst p))) kinds with Some p => Some (snd p) | None => None end.

(** 5894-5902. *)
Definition start_of (o : obj) : N := match o with Obj _ vs _ => as_dmx (get "fAdressStart" vs) end.
Definition put_val (g : string) (v : val) (o : obj) : obj := match o with Obj c vs ks => Obj c (put g v vs) ks end.
Definition first_at_zero (l : list obj) : list obj * N :=
  match l with
  | o :: rest => if start_of o =? 0 then (l, 0) else (put_val "fAdressStart" (VDmx false 0) o :: rest, 1)
  | [] => ([], 0)
  end.
(** 6295-6375 by [DmxModel.add_set]; the name of a set is its place in the list of nodes. *)
Definition set_start (o : obj) : N := match o with Obj _ vs _ => as_dmx (get "fDmxStart" vs) end.
Definition set_valid (o : obj) : bool := match o with Obj _ vs _ => flag "fValid" vs end.
Fixpoint add_sets (virtual : bool) (max : N) (i : N) (sets : list cset) (l : list obj) : res (list cset * N) :=
  match l with
  | [] => Ok (sets, 0)
  | o :: rest =>
    if set_valid o then
      do a <- add_set virtual max sets (mkSet [i] (set_start o) no_end false);
      do b <- add_sets virtual max (i + 1) (fst a) rest; Ok (fst b, snd a + snd b)
    else add_sets virtual max (i + 1) sets rest
  end.
Definition keep_sets (ctx : offsets) (l : list obj) : res (list obj * N) :=
  do x <- add_sets (is_virtual ctx) (channel_max ctx) 0 [] l;
  Ok (map (fun s => put_val "fDmxStart" (VDmx false (cs_start s)) (nth (N.to_nat (hd 0 (cs_name s))) l (fresh CDmxChannelSet)))
        (fst x), snd x).
Definition after_reading (p : post) (ctx : offsets) (l : list obj) : res (list obj * N) :=
  match p with
  | NoPost => Ok (l, 0)
  | FirstAtZero => Ok (first_at_zero l)
  | AddSets => keep_sets ctx l
  end.

Section Reading.
(** std::hash and the number of buckets of the unordered sets of CheckNodeAttributes ([AttrModel]). *)
Variable hash : list N -> N.
Variable buckets : N.

Fixpoint read_all (rd : cls -> node -> res (obj * N)) (kinds : list (string * cls)) (els : list (list N * node)) :
  res (list obj * N) :=
  match els with
  | [] => Ok ([], 0)
  | (name, n) :: rest =>
    match kind_of kinds name with
    | None => read_all rd kinds rest
    | Some c =>
      do x <- rd c n; do y <- read_all rd kinds rest; Ok (fst x :: fst y, snd x + snd y)
    end
  end.
Definition read_one (rd : cls -> node -> res (obj * N)) (kinds : list (string * cls)) (absent : cls -> list obj)
  (kids : list node) : res (list obj * N) :=
  match kinds with
  | (name, c) :: _ =>
    match child_named (txt name) kids with
    | Some n => do x <- rd c n; Ok ([fst x], snd x)
    | None => Ok (absent c, 0)
    end
  | [] => Ok ([], 0)
  end.
Definition read_slot (rd : cls -> node -> res (obj * N)) (ctx : offsets) (s : slot) (kids : list node)
  (els : list (list N * node)) : res (list obj * N) :=
  match s_mode s with
  | All =>
    do x <- read_all rd (s_kinds s) els;
    do y <- after_reading (s_post s) ctx (fst x); Ok (fst y, snd x + snd y)
  | Opt => read_one rd (s_kinds s) (fun _ => []) kids
  | One => read_one rd (s_kinds s) (fun c => [fresh c]) kids
  | Ignored => Ok (map (fun k => fresh (snd k)) (s_kinds s), 0)
  end.
Fixpoint read_slots (rd : cls -> node -> res (obj * N)) (ctx : offsets) (ss : list slot) (kids : list node)
  (els : list (list N * node)) : res (list obj * N) :=
  match ss with
  | [] => Ok ([], 0)
  | s :: rest =>
    do x <- read_slot rd ctx s kids els;
    do y <- read_slots rd ctx rest kids els; Ok (fst x ++ fst y, snd x + snd y)
  end.
(** OnErrorCheck, called after OnReadFromNode. *)
Definition check (c : cls) (vs : env) (attrs : list (list N * list N)) : res N :=
  match attribute_lists c vs with
  | None => Ok 0
  | Some (needed, optional) =>
    do raw <- each_text (map fst attrs);
    Ok (N.of_nat (List.length (check_node_attributes hash buckets raw needed optional)))
  end.
Definition sum (l : list N) : N := fold_right N.add 0 l.
(** [ReadFromNode], 43-54, of a new object of class [c]; the number counts the errors added.  [fuel] bounds how
    deep nodes are nested. *)
Fixpoint read_obj (fuel : nat) (ctx : offsets) (c : cls) (n : node) : res (obj * N) :=
  match fuel, n with
  | S d, Elem _ attrs kids =>
    do st <- read_entries (reso_of c ctx) attrs (reads c) (fields c, 0);
    let vs := fst st in
    do els <- elements kids;
    do ks <- read_slots (read_obj d (own_offsets c ctx vs)) (own_offsets c ctx vs) (slots c) kids els;
    do ce <- check c vs attrs;
    Ok (Obj c vs (fst ks), snd st + snd ks + sum (map (fun p => child_errs c (fst p)) els) + ce)
  | _, _ => Loop
  end.
(** For any node: more than its depth. *)
Fixpoint depth (n : node) : nat :=
  match n with
  | Elem _ _ kids => S (fold_right Nat.max O (map depth kids))
  | _ => O
  end.
Definition read_node (ctx : offsets) (c : cls) (n : node) : res (obj * N) := read_obj (depth n) ctx c n.
End Reading.
