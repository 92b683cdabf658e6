(** The scene of an MVR file: the objects of SceneDataExchange.cpp (line numbers without a file name are of that
    file) and the XML document GeneralSceneDescription.xml, written by WriteXml and read by
    ReadFromGeneralSceneDescription.

    As in [ObjModel] a class is given by tables: its members with the values of the constructor, what is
    written and what is read.  Parts of an object that have a node of their own (an address, a gobo, a
    protocol, the projection of a projector, an entry of the user data) are classes here.

    Simplified: a pointer to another object is the text of the GUID of that object, empty for a null pointer;
    nothing aborts the reading (CheckAbort); where two things go wrong, which of them is met first is not
    kept; files in the archive are not looked at; the parent and next pointers of objects follow from the
    lists of children. *)
From Coq Require Import String List NArith ZArith Bool.
From Verif Require Import Bytes Txt UtfModel StringModel UuidModel NumModel FloatModel ConvModel VecModel EnumModel
  XmlModel ObjModel.
Import ListNotations.
Open Scope N_scope.

(** ** Conversions *)
(** [SGuid]: a SceneDataGUID; [SMulti]: the GUID of the multipatch parent; [SMatrix]: a matrix of four rows and
    three columns; [SCustom]: a size_t that is cast to Sint32; [SNet]: the geometry of a protocol. *)
Inductive sconv := SC (k : conv) | SGuid | SMulti | SMatrix | SSint8 | SCustom | SNet.
(** GetUUIDString, 49-58: [VUuid] for eNormal, [VTxt] for the text of a placeholder. *)
Definition swrite_conv (k : sconv) (v : val) : res (list N) :=
  match k, v with
  | SC c, _ => write_conv c 0 v
  | SGuid, VUuid u => Ok (write_uuid u)
  | SGuid, VTxt s => Ok s
  | SMulti, VTxt s => Ok s
  | SMatrix, VMat m => Ok (write_matrix point false m)
  | SSint8, VInt z => Ok (write_int z)
  | SCustom, VNat n => Ok (write_int (to_signed 32 (Z.of_N n)))
  | SNet, VTxt s => Ok s
  | _, _ => UB
  end.
(** SceneDataGUID(text), 15-22.  The node is a null pointer: reporting a text of a wrong length
    (XmlFileHelper.cpp:98-103) calls a member function of it (GdtfError.cpp:28-36). *)
Definition guid_of (s : list N) : res (list N) :=
  do x <- read_uuid zero_uuid s; if rd_errs x =? 0 then Ok (rd_val x) else UB.
Definition sread_conv (k : sconv) (old : val) (s : list N) : res val :=
  match k with
  | SC c => do x <- read_conv c 0 old s; Ok (fst (fst x))
  | SGuid => do u <- guid_of s; Ok (VUuid u)
  | SMulti => if is_empty s then Ok (VTxt []) else do u <- guid_of s; Ok (VTxt (write_uuid u))
  | SMatrix => do x <- read_matrix point (as_mat old) s; Ok (VMat (rd_val x))
  | SSint8 => if is_empty s then Ok old else do x <- read_int as_sint8 0%Z s; Ok (VInt (rd_val x))
  | SCustom => do x <- read_conv KSize 0 old s; Ok (fst (fst x))
  | SNet => Ok (VTxt (if is_empty s then T"NetworkInOut_1" else s))       (* 1858 *)
  end.

(** ** Classes *)
Inductive scls :=
  | SProvider | SEntry | SSymdef | SPosition | SClass | SMapDef | SSource | SGeometry3D | SSymbol | SCommand
  | SAlignment | SOverwrite | SConnection | SLayer | SGroup | SFixture | SScenery | SFocusPoint | STruss | SSupport
  | SVideoScreen | SProjector | SProjection | SAddress | SGobo | SMapping | SProtocol.
(** GetNodeName of each class, names from Prefix/CommonPrefix.h:66-252. *)
Definition sname (c : scls) : list N := txt match c with
  | SProvider => "Data" | SEntry => "VWEntry" | SSymdef => "Symdef" | SPosition => "Position" | SClass => "Class"
  | SMapDef => "MappingDefinition" | SSource => "Source" | SGeometry3D => "Geometry3D" | SSymbol => "Symbol"
  | SCommand => "CustomCommand" | SAlignment => "Alignment" | SOverwrite => "Overwrite"
  | SConnection => "Connection" | SLayer => "Layer" | SGroup => "GroupObject" | SFixture => "Fixture"
  | SScenery => "SceneObject" | SFocusPoint => "FocusPoint" | STruss => "Truss" | SSupport => "Support"
  | SVideoScreen => "VideoScreen" | SProjector => "Projector" | SProjection => "Projection"
  | SAddress => "Address" | SGobo => "Gobo" | SMapping => "Mapping" | SProtocol => "Protocol"
  end%string.
(** An object: class, members, and a list of children for each of its slots. *)
Inductive sobj := SObj (c : scls) (vs : env) (kss : list (list sobj)).

(** ** Members and the values of the constructors *)
Definition no_ref : val := VTxt [].
Definition f_base : env := [("fGuid", VUuid zero_uuid); ("fName", VTxt []); ("fMultipatchObj", no_ref)]%string.
Definition f_no_guid : env := [("fName", VTxt []); ("fMultipatchObj", no_ref)]%string.
Definition f_matrix : env := [("fMatrix", VMat identity); ("fClass", no_ref)]%string.
Definition f_spec : env := [("fGdtfFile", VTxt []); ("fGdtfDmxMode", VTxt [])]%string.
Definition f_group : env := f_base ++ f_matrix.
Definition sfields (c : scls) : env := match c with
  | SProvider => [("fProvider", VTxt []); ("fVersion", VTxt [])]%string                    (* 326-330 *)
  | SEntry => [("fKey", VTxt []); ("fData", VTxt [])]%string
  | SSymdef | SPosition | SClass => f_base                                         (* 217 *)
  | SMapDef => f_base ++ [("fSizeX", VNat 0); ("fSizeY", VNat 0); ("fScaleHandling", VNat 0)]%string   (* 726-732 *)
  | SSource => f_no_guid ++ [("fLinkedGeometry", VTxt []); ("fType", VUnset); ("fValue", VTxt [])]%string
  | SGeometry3D => f_no_guid ++ f_matrix ++ [("fFileName", VTxt [])]%string                (* 157 *)
  | SSymbol => f_base ++ f_matrix ++ [("fSymDef", no_ref)]%string                          (* 2804-2807 *)
  | SCommand => f_no_guid ++ [("fChannelFunction", VTxt []); ("fIsPercentage", VFlag false); ("fValue", VDbl zero)]%string
  | SAlignment => f_no_guid ++ [("fBeamGeometry", VTxt []); ("fUpVector", VVec (zero, zero, zero));
      ("fDirection", VVec (zero, zero, zero))]%string                                     (* 1246-1252 *)
  | SOverwrite => f_no_guid ++ [("fUniversal", VTxt []); ("fTarget", VTxt [])]%string
  | SConnection => f_no_guid ++ [("fOwn", VTxt []); ("fOther", VTxt []); ("fToObject", VTxt (txt "eNoGuid"))]%string   (* 1060 *)
  | SLayer | SGroup | SFocusPoint => f_group
  | SScenery | STruss | SSupport | SVideoScreen | SProjector => f_group ++ f_spec
  | SFixture => f_group ++ f_spec ++ [("fFocusPoint", no_ref); ("fPosition", no_ref); ("fFixtureId", VTxt []);
      ("fFixtureIdNumeric", VNat 0); ("fUnitNumber", VInt 0); ("fFixtureTypeId", VInt 0); ("fCustomId", VNat 0);
      ("fColor", VVec (decimal 312712 1000000, decimal 329008 1000000, Fin false (100 * units)));
      ("fFunction", VTxt []); ("fCastShadow", VFlag false); ("fDMXInvertPan", VFlag false);
      ("fDMXInvertTilt", VFlag false)]%string                                             (* 1890-1903 *)
  | SProjection => [("fScaleHandling", VUnset)]%string                                     (* 2694-2697 *)
  | SAddress => [("fBreak", VNat 0); ("fAbsuluteAdress", VNat 0)]%string
  | SGobo => [("fGobo", VTxt []); ("fGoboRotation", VDbl zero)]%string
  | SMapping => f_no_guid ++ [("fLinkedDefUuid", VTxt (txt "eNoGuid")); ("fUx", VUnset); ("fUy", VUnset);
      ("fOx", VUnset); ("fOy", VUnset); ("fRz", VUnset)]%string                           (* 878-888 *)
  | SProtocol => [("fGeometry", VTxt (txt "NetworkInOut_1")); ("fName", VTxt []); ("fType", VTxt []); ("fVersion", VTxt []);
      ("fTransmision", VUnset)]%string
  end.

(** ** What is written *)
(** When an entry is written: always; if a text, or a pointer, is not empty; if a number is not 0; unless the GUID is
    eNoGuid; unless the matrix counts as the identity. *)
Inductive swhen := WAlways | WIfText | WIfNonZero | WIfGuid | WIfMatrix.
(** An attribute, a child node that only has a text, the text of the node itself, the text of a custom
    command; the children of slot [i], in a node of their own if [container] is given, which is left out without
    children unless [empty_too]; [Deref]: through a pointer that is not checked. *)
Inductive witem :=
| WAttr (a : list N) (f : string) (k : sconv) (w : swhen)
| WNode (n : list N) (f : string) (k : sconv) (w : swhen)
| WOwn (f : string) (k : sconv)
| WCommand
| WSlot (i : nat) (container : option (list N)) (empty_too : bool) (deref : bool).
Definition wa (a f : string) (k : sconv) : witem := WAttr (txt a) f k WAlways.
Definition wn (n f : string) (k : sconv) : witem := WNode (txt n) f k WAlways.
(** 262-285. *)
Definition w_no_guid : list witem := [WAttr T"name" "fName" (SC KText) WIfText; WAttr T"multipatch" "fMultipatchObj" SMulti WIfText].
Definition w_base : list witem := WAttr T"uuid" "fGuid" SGuid WIfGuid :: w_no_guid.
(** 1506-1598. *)
Definition w_matrix : list witem := [
  WNode T"Matrix" "fMatrix" SMatrix WIfMatrix;
  WSlot 0 (Some T"Geometries") false false; WSlot 1 (Some T"CustomCommands") false false;
  WSlot 2 (Some T"Alignments") false false; WSlot 3 (Some T"Overwrites") false false;
  WNode T"Classing" "fClass" (SC KText) WIfText;
  WSlot 4 (Some T"Connections") false false].
(** 2508-2527. *)
Definition w_group : list witem := w_base ++ w_matrix ++ [WSlot 5 (Some T"ChildList") false false].
(** 92-112. *)
Definition w_spec : list witem := w_group ++ [wn "GDTFSpec" "fGdtfFile" (SC KText); wn "GDTFMode" "fGdtfDmxMode" (SC KText)].
Definition swrites (c : scls) : list witem := match c with
  | SProvider => [wa "provider" "fProvider" (SC KText); wa "ver" "fVersion" (SC KText); WSlot 0 None false false]   (* 337-364 *)
  | SEntry => [wa "key" "fKey" (SC KText); WOwn "fData" (SC KText)]
  | SSymdef => w_base ++ [WSlot 0 (Some T"ChildList") true false]     (* 476-492 *)
  | SPosition | SClass => w_base                                     (* 573-578, 610-615 *)
  | SMapDef => w_base ++ [wn "SizeX" "fSizeX" (SC KUint32); wn "SizeY" "fSizeY" (SC KUint32); WSlot 0 None false true;
      wn "ScaleHandling" "fScaleHandling" (SC (KEnum e_ScaleHandlingType))]        (* 796-821 *)
  | SSource => w_no_guid ++ [WAttr T"linkedGeometry" "fLinkedGeometry" (SC KText) WIfText;
      wa "type" "fType" (SC (KEnum e_SourceType)); WOwn "fValue" (SC KText)]       (* 684-698 *)
  | SGeometry3D => w_no_guid ++ w_matrix ++ [wa "fileName" "fFileName" (SC KText)]  (* 187-193 *)
  | SSymbol => w_base ++ w_matrix ++ [WAttr T"symdef" "fSymDef" (SC KText) WIfText] (* 2822-2828 *)
  | SCommand => w_no_guid ++ [WCommand]                              (* 1187-1198 *)
  | SAlignment => w_no_guid ++ [wa "geometry" "fBeamGeometry" (SC KText); wa "up" "fUpVector" (SC KVec);
      wa "direction" "fDirection" (SC KVec)]                         (* 1289-1298 *)
  | SOverwrite => w_no_guid ++ [wa "universal" "fUniversal" (SC KText); wa "target" "fTarget" (SC KText)]   (* 1359-1367 *)
  | SConnection => w_no_guid ++ [wa "own" "fOwn" (SC KText); wa "other" "fOther" (SC KText); wa "toObject" "fToObject" SGuid]   (* 1112-1121 *)
  | SLayer | SGroup | SFocusPoint => w_group
  | SScenery | STruss | SSupport => w_spec
  | SVideoScreen => w_spec ++ [WSlot 6 (Some T"Sources") true false] (* 2656-2666 *)
  | SProjector => w_spec ++ [WSlot 6 (Some T"Projections") true false]   (* 2742-2761 *)
  | SProjection => [WSlot 0 None false false; wn "ScaleHandling" "fScaleHandling" (SC (KEnum e_ScaleHandlingType))]
  | SFixture => w_spec ++ [WNode T"Focus" "fFocusPoint" (SC KText) WIfText; WNode T"Position" "fPosition" (SC KText) WIfText;
      WSlot 6 (Some T"Addresses") true false; wn "FixtureID" "fFixtureId" (SC KText);
      WNode T"FixtureIDNumeric" "fFixtureIdNumeric" (SC KSize) WIfNonZero; wn "UnitNumber" "fUnitNumber" (SC KSint32);
      wn "FixtureTypeId" "fFixtureTypeId" SSint8; wn "CustomId" "fCustomId" SCustom; wn "Color" "fColor" (SC KColor);
      WSlot 7 None false false; WNode T"Function" "fFunction" (SC KText) WIfText; wn "CastShadow" "fCastShadow" (SC KBool);
      WSlot 8 (Some T"Mappings") true false; wn "DMXInvertPan" "fDMXInvertPan" (SC KBool);
      wn "DMXInvertTilt" "fDMXInvertTilt" (SC KBool); WSlot 9 (Some T"Protocols") true false]     (* 2133-2296 *)
  | SAddress => [wa "break" "fBreak" (SC KSize); WOwn "fAbsuluteAdress" (SC KSize)]   (* 2166-2175 *)
  | SGobo => [WOwn "fGobo" (SC KText); wa "rotation" "fGoboRotation" (SC KDouble)]    (* 2230-2235 *)
  | SMapping => w_no_guid ++ [wa "linkedDef" "fLinkedDefUuid" SGuid; wn "ux" "fUx" (SC KUint32); wn "uy" "fUy" (SC KUint32);
      wn "ox" "fOx" (SC KUint32); wn "oy" "fOy" (SC KUint32); wn "rz" "fRz" (SC KDouble)]         (* 956-995 *)
  | SProtocol => [wa "geometry" "fGeometry" SNet; wa "name" "fName" (SC KText); wa "type" "fType" (SC KText);
      wa "version" "fVersion" (SC KText); wa "transmission" "fTransmision" (SC (KEnum e_TransmissionTypeEnum))]   (* 2280-2294 *)
  end.

(** Magnitude() == 0, 1510: the squares are rounded to multiples of the smallest double. *)
Definition square_zero (x : fl) : bool := match x with Fin _ u => near_even (u * u) units =? 0 | _ => false end.
Definition no_offset (v : vec) : bool := let '(x, y, z) := v in square_zero x && square_zero y && square_zero z.
(** VWPoint3D::operator==, 1511-1513: the distance is below 1e-7.  Simplified: computed exactly, not in doubles. *)
Definition dist (x : fl) (e : Z) : option Z := match x with Fin neg u => Some (((if neg then - Z.of_N u else Z.of_N u) - e * Z.of_N units) ^ 2)%Z | _ => None end.
Definition near_unit (v : vec) (e1 e2 e3 : Z) : bool :=
  let '(x, y, z) := v in
  match dist x e1, dist y e2, dist z e3 with
  | Some a, Some b, Some c => ((a + b + c) * 100000000000000 <? Z.of_N units ^ 2)%Z
  | _, _, _ => false
  end.
Definition is_identity (m : mat) : bool :=
  no_offset (mO m) && near_unit (mU m) 1 0 0 && near_unit (mV m) 0 1 0 && near_unit (mW m) 0 0 1.
Definition written (w : swhen) (v : val) : bool :=
  match w, v with
  | WAlways, _ => true
  | WIfText, VTxt [] => false
  | WIfNonZero, VNat 0 => false
  | WIfGuid, VUnset => false
  | WIfMatrix, VMat m => negb (is_identity m)
  | _, _ => true
  end.

(** 1193-1197. *)
Definition command_text (vs : env) : res (list N) :=
  match get "fChannelFunction" vs, get "fIsPercentage" vs, get "fValue" vs with
  | VTxt f, VFlag p, VDbl x => Ok (f ++ (if p then T"/percent,f " else T",f ") ++ fl_text point x)
  | _, _, _ => UB
  end.
Definition text_node (n b : list N) : node := Elem n [] [Text b].
(** The node so far: attributes and children.  [kss], [nss]: the children and their nodes. *)
Definition write_item (vs : env) (kss : list (list sobj)) (nss : list (list node)) (it : witem)
  (st : list (list N * list N) * list node) : res (list (list N * list N) * list node) :=
  let '(attrs, kids) := st in
  match it with
  | WAttr a f k w =>
    if written w (get f vs) then
      do s <- swrite_conv k (get f vs); do b <- bytes_of s; Ok (set_attr a b attrs, kids)
    else Ok st
  | WNode n f k w =>
    if written w (get f vs) then
      do s <- swrite_conv k (get f vs); do b <- bytes_of s; Ok (attrs, kids ++ [text_node n b])
    else Ok st
  | WOwn f k => do s <- swrite_conv k (get f vs); do b <- bytes_of s; Ok (attrs, set_text b kids)
  | WCommand => do s <- command_text vs; do b <- bytes_of s; Ok (attrs, set_text b kids)
  | WSlot i container empty_too deref =>
    let ns := nth i nss [] in
    match nth i kss [] with
    | [] => if deref then UB
        else match container with Some n => Ok (attrs, if empty_too then kids ++ [Elem n [] []] else kids) | None => Ok st end
    | _ :: _ => Ok (attrs, kids ++ match container with Some n => [Elem n [] ns] | None => ns end)
    end
  end.
Fixpoint write_items (vs : env) (kss : list (list sobj)) (nss : list (list node)) (its : list witem)
  (st : list (list N * list N) * list node) : res (list (list N * list N) * list node) :=
  match its with [] => Ok st | it :: r => do st' <- write_item vs kss nss it st; write_items vs kss nss r st' end.
(** Not written at all: a group without children (2493-2501), a gobo without a name (2231). *)
Definition left_out (c : scls) (vs : env) (kss : list (list sobj)) : bool :=
  match c with
  | SGroup => match nth 5 kss [] with [] => true | _ :: _ => false end
  | SGobo => no_text "fGobo" vs
  | _ => false
  end.
(** PrintToFile, 249-260. *)
Fixpoint write_sobj (o : sobj) : res (list node) :=
  match o with
  | SObj c vs kss =>
    if left_out c vs kss then Ok [] else
    do nss <- (fix slots (l : list (list sobj)) : res (list (list node)) :=
      match l with
      | [] => Ok []
      | ks :: r =>
        do ns <- (fix go (l : list sobj) : res (list node) :=
          match l with [] => Ok [] | k :: r => do n <- write_sobj k; do ns <- go r; Ok (n ++ ns) end) ks;
        do nss <- slots r; Ok (ns :: nss)
      end) kss;
    do st <- write_items vs kss nss (swrites c) ([], []);
    Ok [Elem (sname c) (fst st) (snd st)]
  end.
Fixpoint write_sobjs (l : list sobj) : res (list node) :=
  match l with [] => Ok [] | o :: r => do n <- write_sobj o; do ns <- write_sobjs r; Ok (n ++ ns) end.

(** ** What is read *)
(** An attribute, also if it is absent (as an empty text, unless it is read into the member itself); a
    child node and the text of the node itself. *)
Inductive ritem :=
| RAttr (a : list N) (f : string) (k : sconv)
| RNode (n : list N) (f : string) (k : sconv)
| ROwn (f : string) (k : sconv)
| RCommand.
Definition ra (a f : string) (k : sconv) : ritem := RAttr (txt a) f k.
Definition rn (n f : string) (k : sconv) : ritem := RNode (txt n) f k.
(** 300-318. *)
Definition r_no_guid : list ritem := [ra "name" "fName" (SC KText); ra "multipatch" "fMultipatchObj" SMulti].
Definition r_base : list ritem := ra "uuid" "fGuid" SGuid :: r_no_guid.
(** 1600-1720. *)
Definition r_matrix : list ritem := [rn "Matrix" "fMatrix" SMatrix; rn "Classing" "fClass" (SC KText)].
Definition r_group : list ritem := r_base ++ r_matrix.
(** 114-129. *)
Definition r_spec : list ritem := r_group ++ [rn "GDTFSpec" "fGdtfFile" (SC KText); rn "GDTFMode" "fGdtfDmxMode" (SC KText)].
Definition sreads (c : scls) : list ritem := match c with
  | SProvider => [ra "provider" "fProvider" (SC KText); ra "ver" "fVersion" (SC KText)]    (* 366-399 *)
  | SEntry => [ROwn "fData" (SC KText); ra "key" "fKey" (SC KText)]
  | SSymdef | SPosition | SClass => r_base                            (* 494-527, 580-585, 617-622, 2992-3007 *)
  | SMapDef => r_base ++ [rn "SizeX" "fSizeX" (SC KUint32); rn "SizeY" "fSizeY" (SC KUint32);
      rn "ScaleHandling" "fScaleHandling" (SC (KEnum e_ScaleHandlingType))]        (* 823-864 *)
  | SSource => r_no_guid ++ [ra "linkedGeometry" "fLinkedGeometry" (SC KText); ra "type" "fType" (SC (KEnum e_SourceType));
      ROwn "fValue" (SC KText)]                                       (* 700-712 *)
  | SGeometry3D => r_no_guid ++ r_matrix ++ [ra "fileName" "fFileName" (SC KText)]  (* 195-201 *)
  | SSymbol => r_base ++ r_matrix ++ [ra "symdef" "fSymDef" (SC KText)]             (* 2830-2837, 1644-1650 *)
  | SCommand => r_no_guid ++ [RCommand]                               (* 1200-1227 *)
  | SAlignment => r_no_guid ++ [ra "geometry" "fBeamGeometry" (SC KText); ra "up" "fUpVector" (SC KVec);
      ra "direction" "fDirection" (SC KVec)]                          (* 1300-1308 *)
  | SOverwrite => r_no_guid ++ [ra "universal" "fUniversal" (SC KText); ra "target" "fTarget" (SC KText)]   (* 1369-1376 *)
  | SConnection => r_no_guid ++ [ra "own" "fOwn" (SC KText); ra "other" "fOther" (SC KText); ra "toObject" "fToObject" SGuid]   (* 1123-1134 *)
  | SLayer | SGroup | SFocusPoint => r_group
  | SScenery | STruss | SSupport | SVideoScreen | SProjector => r_spec
  | SProjection => [rn "ScaleHandling" "fScaleHandling" (SC (KEnum e_ScaleHandlingType))]   (* 2784-2790 *)
  | SFixture => r_spec ++ [rn "Focus" "fFocusPoint" (SC KText); rn "Position" "fPosition" (SC KText);
      rn "FixtureID" "fFixtureId" (SC KText); rn "FixtureIDNumeric" "fFixtureIdNumeric" (SC KSize);
      rn "UnitNumber" "fUnitNumber" (SC KSint32); rn "FixtureTypeId" "fFixtureTypeId" SSint8;
      rn "CustomId" "fCustomId" SCustom; rn "Color" "fColor" (SC KColor); rn "Function" "fFunction" (SC KText);
      rn "CastShadow" "fCastShadow" (SC KBool); rn "DMXInvertPan" "fDMXInvertPan" (SC KBool);
      rn "DMXInvertTilt" "fDMXInvertTilt" (SC KBool)]                 (* 2298-2452 *)
  | SAddress => [ROwn "fAbsuluteAdress" (SC KSize); ra "break" "fBreak" (SC KSize)]   (* 2348-2361: as Sint32, then as size_t *)
  | SGobo => [ROwn "fGobo" (SC KText); ra "rotation" "fGoboRotation" (SC KDouble)]    (* 2378-2387 *)
  | SMapping => r_no_guid ++ [ra "linkedDef" "fLinkedDefUuid" SGuid; rn "ux" "fUx" (SC KUint32); rn "uy" "fUy" (SC KUint32);
      rn "ox" "fOx" (SC KUint32); rn "oy" "fOy" (SC KUint32); rn "rz" "fRz" (SC KDouble)]         (* 997-1045 *)
  | SProtocol => [ra "geometry" "fGeometry" SNet; ra "name" "fName" (SC KText); ra "type" "fType" (SC KText);
      ra "version" "fVersion" (SC KText); ra "transmission" "fTransmision" (SC (KEnum e_TransmissionTypeEnum))]   (* 2435-2450 *)
  end.
(** Slots: every node of a kind, if [RAllUuid] only those with an attribute "uuid"; the first node of the kind; the first one,
    or what the constructor leaves. *)
Inductive rmode := RAll | RAllUuid | ROpt | ROne.
Record rslot := mkSlot { rs_container : option (list N); rs_mode : rmode; rs_kinds : list (string * scls) }.
Definition k_geo : list (string * scls) := [("Geometry3D", SGeometry3D); ("Symbol", SSymbol)]%string.
(** 4068-4078. *)
Definition k_scene : list (string * scls) := [("Fixture", SFixture); ("SceneObject", SScenery); ("FocusPoint", SFocusPoint);
  ("Truss", STruss); ("VideoScreen", SVideoScreen); ("Support", SSupport); ("Projector", SProjector); ("GroupObject", SGroup)]%string.
Definition sl_matrix : list rslot := [
  mkSlot (Some T"Geometries") RAll k_geo; mkSlot (Some T"CustomCommands") RAll [("CustomCommand", SCommand)]%string;
  mkSlot (Some T"Alignments") RAll [("Alignment", SAlignment)]%string; mkSlot (Some T"Overwrites") RAll [("Overwrite", SOverwrite)]%string;
  mkSlot (Some T"Connections") RAll [("Connection", SConnection)]%string].
Definition sl_group : list rslot := sl_matrix ++ [mkSlot (Some T"ChildList") RAllUuid k_scene].
Definition k_source : list (string * scls) := [("Source", SSource)]%string.
Definition sslots (c : scls) : list rslot := match c with
  | SProvider => [mkSlot None RAll [("VWEntry", SEntry)]%string]
  | SSymdef => [mkSlot (Some T"ChildList") RAll k_geo]
  | SMapDef | SProjection => [mkSlot None ROpt k_source]
  | SGeometry3D | SSymbol => sl_matrix
  | SLayer | SGroup | SFocusPoint | SScenery | STruss | SSupport => sl_group
  | SVideoScreen => sl_group ++ [mkSlot (Some T"Sources") ROpt k_source]
  | SProjector => sl_group ++ [mkSlot (Some T"Projections") ROne [("Projection", SProjection)]%string]
  | SFixture => sl_group ++ [mkSlot (Some T"Addresses") RAll [("Address", SAddress)]%string;
      mkSlot None ROne [("Gobo", SGobo)]%string; mkSlot (Some T"Mappings") RAll [("Mapping", SMapping)]%string;
      mkSlot (Some T"Protocols") RAll [("Protocol", SProtocol)]%string]
  | SEntry | SPosition | SClass | SSource | SCommand | SAlignment | SOverwrite | SConnection | SAddress | SGobo | SMapping
  | SProtocol => []
  end.
(** A new object that nothing is read into. *)
Definition sfresh (c : scls) : sobj := SObj c (sfields c) (map (fun _ => []) (sslots c)).

(** GetNodeValue, rapidxmlsupport/XMLFileNodeImpl.cpp:61-69. *)
Definition node_text (kids : list node) : res (list N) :=
  match get_text kids with None => Ok [] | Some b => text_of b end.
(** 1205-1226; TrimRight changes the text itself. *)
Definition read_command (s : list N) (vs : env) : res env :=
  let '(percent, f) :=
    match tx_find s T"/percent" 0 false with
    | Some p => (true, left s p)
    | None => (false, left s (match tx_find s T"," 0 false with Some p => p | None => npos end))
    end in
  let t := trim_right s in
  let v := right t (match tx_rfind t T" " npos false with Some p => nlen t - p - 1 | None => nlen t end) in
  do x <- atof point v;
  Ok (put "fValue" (VDbl x) (put "fChannelFunction" (VTxt f) (put "fIsPercentage" (VFlag percent) vs))).
Definition read_item (attrs : list (list N * list N)) (kids : list node) (it : ritem) (vs : env) : res env :=
  let convert f k s := do v <- sread_conv k (get f vs) s; Ok (put f v vs) in
  match it with
  | RAttr a f k =>
    do t <- attr_text a attrs;
    match t, k with
    | None, SC KText => Ok vs
    | None, _ => convert f k []
    | Some s, _ => convert f k s
    end
  | RNode n f k =>
    match child_named n kids with
    | Some (Elem _ _ ks) => do s <- node_text ks; convert f k s
    | _ => Ok vs
    end
  | ROwn f k => do s <- node_text kids; convert f k s
  | RCommand => do s <- node_text kids; read_command s vs
  end.
Fixpoint read_items (attrs : list (list N * list N)) (kids : list node) (its : list ritem) (vs : env) : res env :=
  match its with [] => Ok vs | it :: r => do vs' <- read_item attrs kids it vs; read_items attrs kids r vs' end.

Definition skind_of (kinds : list (string * scls)) (name : list N) : option scls :=
  match find (fun p => txeq name (txt (fst p))) kinds with Some p => Some (snd p) | None => None end.
Definition has_uuid (n : node) : bool :=
  match n with Elem _ attrs _ => match get_attr T"uuid" attrs with Some _ => true | None => false end | _ => false end.
Fixpoint read_kinds (rd : scls -> node -> res sobj) (uuid : bool) (kinds : list (string * scls)) (els : list (list N * node)) : res (list sobj) :=
  match els with
  | [] => Ok []
  | (name, n) :: r =>
    match skind_of kinds name with
    | Some c => if uuid && negb (has_uuid n) then read_kinds rd uuid kinds r
        else do o <- rd c n; do os <- read_kinds rd uuid kinds r; Ok (o :: os)
    | None => read_kinds rd uuid kinds r
    end
  end.
Definition read_first (rd : scls -> node -> res sobj) (kinds : list (string * scls)) (kids : list node) : res (list sobj) :=
  match kinds with
  | (name, c) :: _ => match child_named (txt name) kids with Some n => do o <- rd c n; Ok [o] | None => Ok [] end
  | [] => Ok []
  end.
Definition sread_slot (rd : scls -> node -> res sobj) (s : rslot) (kids : list node) : res (list sobj) :=
  let from (kids : list node) :=
    match rs_mode s with
    | RAll => do els <- elements kids; read_kinds rd false (rs_kinds s) els
    | RAllUuid => do els <- elements kids; read_kinds rd true (rs_kinds s) els
    | ROpt | ROne => read_first rd (rs_kinds s) kids
    end in
  do l <- match rs_container s with
    | None => from kids
    | Some n => match child_named n kids with Some (Elem _ _ ks) => from ks | _ => Ok [] end
    end;
  Ok (match rs_mode s, l, rs_kinds s with ROne, [], (_, c) :: _ => [sfresh c] | _, _, _ => l end).
Fixpoint sread_slots (rd : scls -> node -> res sobj) (ss : list rslot) (kids : list node) : res (list (list sobj)) :=
  match ss with [] => Ok [] | s :: r => do l <- sread_slot rd s kids; do ls <- sread_slots rd r kids; Ok (l :: ls) end.
(** ReadFromNode, 287-298, of a new object of class [c]; [fuel] bounds how deep nodes are nested. *)
Fixpoint read_sobj (fuel : nat) (c : scls) (n : node) : res sobj :=
  match fuel, n with
  | S d, Elem _ attrs kids =>
    do vs <- read_items attrs kids (sreads c) (sfields c);
    do kss <- sread_slots (read_sobj d) (sslots c) kids;
    Ok (SObj c vs kss)
  | _, _ => Loop
  end.
Definition sread_node (c : scls) (n : node) : res sobj := read_sobj (depth n) c n.

(** ** The document *)
Record scene := mkScene { sc_provider : list N; sc_version : list N; sc_data : list sobj; sc_layers : list sobj;
  sc_maps : list sobj; sc_positions : list sobj; sc_symdefs : list sobj; sc_classes : list sobj }.
(** WriteXml, 3590-3683; the classes are not written. *)
Definition write_scene (s : scene) : res node :=
  do provider <- bytes_of (sc_provider s);
  do version <- bytes_of (sc_version s);
  do data <- write_sobjs (sc_data s);
  do layers <- write_sobjs (sc_layers s);
  do maps <- write_sobjs (sc_maps s);
  do positions <- write_sobjs (sc_positions s);
  do symdefs <- write_sobjs (sc_symdefs s);
  Ok (Elem T"GeneralSceneDescription"
    [(T"verMajor", T"1"); (T"verMinor", T"6"); (T"provider", provider); (T"providerVersion", version)]
    [Elem T"UserData" [] data; Elem T"Scene" [] [Elem T"Layers" [] layers; Elem T"AUXData" [] (maps ++ positions ++ symdefs)]]).

(** What the file holds before references are resolved.  The key of a symbol definition in the map is the text of its
    attribute. *)
Record raw := mkRaw { rw_data : list sobj; rw_symdefs : list (list N * sobj); rw_positions : list sobj; rw_classes : list sobj;
  rw_maps : list sobj; rw_layers : list sobj }.
Definition read_data (n : node) : res (list sobj) :=
  match n with Elem _ _ kids => do els <- elements kids; read_kinds sread_node false [("Data", SProvider)]%string els | _ => Ok [] end.
Definition key_of (n : node) : res (list N) :=
  match n with Elem _ attrs _ => do t <- attr_text T"uuid" attrs; Ok (match t with Some s => s | None => [] end) | _ => Ok [] end.
(** 3851-3889. *)
Fixpoint read_aux (els : list (list N * node)) (r : raw) : res raw :=
  match els with
  | [] => Ok r
  | (name, n) :: rest =>
    do r <- if txeq name T"Symdef" then
        do o <- sread_node SSymdef n; do k <- key_of n;
        Ok (mkRaw (rw_data r) (rw_symdefs r ++ [(k, o)]) (rw_positions r) (rw_classes r) (rw_maps r) (rw_layers r))
      else if txeq name T"Position" then
        do o <- sread_node SPosition n;
        Ok (mkRaw (rw_data r) (rw_symdefs r) (rw_positions r ++ [o]) (rw_classes r) (rw_maps r) (rw_layers r))
      else if txeq name T"Class" then
        do o <- sread_node SClass n;
        Ok (mkRaw (rw_data r) (rw_symdefs r) (rw_positions r) (rw_classes r ++ [o]) (rw_maps r) (rw_layers r))
      else if txeq name T"MappingDefinition" then
        do o <- sread_node SMapDef n;
        Ok (mkRaw (rw_data r) (rw_symdefs r) (rw_positions r) (rw_classes r) (rw_maps r ++ [o]) (rw_layers r))
      else Ok r;
    read_aux rest r
  end.
Definition in_child {A} (n : list N) (kids : list node) (none : A) (f : node -> res A) : res A :=
  match child_named n kids with Some k => f k | None => Ok none end.
(** 3812-3923, 4029-4043. *)
Definition read_raw (root : node) : res raw :=
  match root with
  | Elem _ _ kids =>
    do data <- in_child T"UserData" kids [] read_data;
    in_child T"Scene" kids (mkRaw data [] [] [] [] []) (fun scene =>
      match scene with
      | Elem _ _ skids =>
        do r <- in_child T"AUXData" skids (mkRaw data [] [] [] [] []) (fun aux =>
          match aux with Elem _ _ ks => do els <- elements ks; read_aux els (mkRaw data [] [] [] [] []) | _ => Ok (mkRaw data [] [] [] [] []) end);
        do layers <- in_child T"Layers" skids [] (fun ls =>
          match ls with Elem _ _ ks => do els <- elements ks; read_kinds sread_node true [("Layer", SLayer)]%string els | _ => Ok [] end);
        Ok (mkRaw (rw_data r) (rw_symdefs r) (rw_positions r) (rw_classes r) (rw_maps r) layers)
      | _ => Ok (mkRaw data [] [] [] [] [])
      end)
  | _ => Ok (mkRaw [] [] [] [] [] [])
  end.

(** ** References *)
Definition sclass (o : sobj) : scls := let (c, _, _) := o in c.
Definition smembers (o : sobj) : env := let (_, vs, _) := o in vs.
Definition skids (o : sobj) : list (list sobj) := let (_, _, kss) := o in kss.
(** The objects of ReadChildObjs but groups, 4088. *)
Definition in_scene (c : scls) : bool :=
  match c with SFixture | SScenery | SFocusPoint | STruss | SSupport | SVideoScreen | SProjector => true | _ => false end.
Definition uuid_of_obj (o : sobj) : list N := as_uuid (get "fGuid" (smembers o)).
(** getGuid().GetUUIDString(). *)
Definition guid_text (o : sobj) : list N :=
  match get "fGuid" (smembers o) with VUuid u => write_uuid u | VTxt s => s | _ => T"eNoGuid" end.
Definition ref (f : string) (vs : env) : list N := match get f vs with VTxt s => s | _ => [] end.

(** The objects in the order in which ReadChildObjs adds them to fSceneObjects (4084-4104): children first. *)
Fixpoint scene_objs (o : sobj) : list sobj :=
  match o with
  | SObj c _ kss =>
    (fix slots (l : list (list sobj)) : list sobj :=
      match l with
      | [] => []
      | ks :: r => (fix go (l : list sobj) : list sobj := match l with [] => [] | k :: r => scene_objs k ++ go r end) ks ++ slots r
      end) kss ++ (if in_scene c then [o] else [])
  end.
(** Multipatch parents, 310-317: looked for among the scene objects so far.  [seen]: their GUIDs as text. *)
Definition keep_multi (seen : list (list N)) (vs : env) : env :=
  match get "fMultipatchObj" vs with
  | VTxt s => if existsb (eqb_bytes s) seen then vs else put "fMultipatchObj" no_ref vs
  | _ => vs
  end.
Fixpoint multi (seen : list (list N)) (o : sobj) : sobj * list (list N) :=
  match o with
  | SObj c vs kss =>
    let '(kss', seen') := (fix slots (seen : list (list N)) (l : list (list sobj)) : list (list sobj) * list (list N) :=
      match l with
      | [] => ([], seen)
      | ks :: r =>
        let '(ks', s1) := (fix go (seen : list (list N)) (l : list sobj) : list sobj * list (list N) :=
          match l with
          | [] => ([], seen)
          | k :: r => let '(k', s1) := multi seen k in let '(r', s2) := go s1 r in (k' :: r', s2)
          end) seen ks in
        let '(r', s2) := slots s1 r in (ks' :: r', s2)
      end) seen kss in
    (SObj c (keep_multi seen vs) kss', if in_scene c then seen' ++ [guid_text o] else seen')
  end.
Fixpoint multis (seen : list (list N)) (l : list sobj) : list sobj :=
  match l with [] => [] | o :: r => let '(o', seen') := multi seen o in o' :: multis seen' r end.

(** The first of the texts that the test holds for; its own text then stands for the pointer. *)
Definition first_of (same : list N -> list N -> bool) (s : list N) (texts : list (list N)) : list N :=
  if is_empty s then [] else match find (same s) texts with Some t => t | None => [] end.
Definition relink (f : string) (same : list N -> list N -> bool) (texts : list (list N)) (vs : env) : env :=
  match get f vs with VTxt s => put f (VTxt (first_of same s texts)) vs | _ => vs end.
Definition clear (f : string) (vs : env) : env := match get f vs with VTxt _ => put f no_ref vs | _ => vs end.
Fixpoint map_obj (f : scls -> env -> env) (o : sobj) : sobj :=
  match o with SObj c vs kss => SObj c (f c vs) (map (map (map_obj f)) kss) end.

Section Keys.
(** The keys of fSymDefMap, an unordered_map of TXString: which texts count as one key depends on std::hash and on
    TXString::operator==, which ignores case. *)
Variable same_key : list N -> list N -> bool.
(** fSymDefMap: a number is the place of the definition in fSymDefObjs, [None] a null pointer. *)
Definition symmap := list (list N * option nat).
Fixpoint map_find (k : list N) (m : symmap) : option (option nat) :=
  match m with [] => None | (k', v) :: r => if same_key k k' then Some v else map_find k r end.
Fixpoint map_set (k : list N) (v : option nat) (m : symmap) : symmap :=
  match m with [] => [(k, v)] | (k', w) :: r => if same_key k k' then (k', v) :: r else (k', w) :: map_set k v r end.
(** 3004. *)
Fixpoint build (i : nat) (l : list (list N * sobj)) (m : symmap) : symmap :=
  match l with [] => m | (k, _) :: r => build (S i) r (map_set k (Some i) m) end.
Definition is_symbol (o : sobj) : bool := match sclass o with SSymbol => true | _ => false end.
Definition symbols (i : nat) (o : sobj) : list sobj := filter is_symbol (nth i (skids o) []).
Definition sym_ref (o : sobj) : list N := ref "fSymDef" (smembers o).

(** 3993-4012: one round through the map.  A null pointer in the map is dereferenced.  Simplified: a key
    that is not there is added while the map is traversed, which is taken as undefined. *)
Definition round_ok (defs : list sobj) (m : symmap) : bool :=
  forallb (fun e => match snd e with
    | None => false
    | Some i => match nth_error defs i with
      | Some d => forallb (fun s => match map_find (sym_ref s) m with Some _ => true | None => false end) (symbols 0 d)
      | None => false
      end
    end) m.
(** 4014-4025: the geometries of the object itself; operator[] adds a null pointer for a key that is not there. *)
Definition own_symbols (m : symmap) (o : sobj) : symmap :=
  fold_left (fun m s => match map_find (sym_ref s) m with Some _ => m | None => map_set (sym_ref s) None m end) (symbols 0 o) m.
Fixpoint resolve_symbols (defs : list sobj) (objs : list sobj) (m : symmap) : res symmap :=
  match objs with
  | [] => Ok m
  | o :: r => if round_ok defs m then resolve_symbols defs r (own_symbols m o) else UB
  end.
Definition found (defs : list sobj) (m : symmap) (s : list N) : list N :=
  match map_find s m with Some (Some i) => match nth_error defs i with Some d => guid_text d | None => [] end | _ => [] end.
Definition link_symbol (defs : list sobj) (m : symmap) (o : sobj) : sobj :=
  match o with
  | SObj SSymbol vs kss => SObj SSymbol (put "fSymDef" (VTxt (found defs m (ref "fSymDef" vs))) vs) (map (map (map_obj (fun _ => clear "fSymDef"))) kss)
  | SObj c vs kss => SObj c vs (map (map (map_obj (fun _ => clear "fSymDef"))) kss)
  end.
Definition clear_all (o : sobj) : sobj := map_obj (fun _ => clear "fSymDef") o.
(** The geometries in slot 0 are linked, those further down are not. *)
Fixpoint link_own (defs : list sobj) (m : symmap) (o : sobj) : sobj :=
  match o with
  | SObj c vs kss =>
    SObj c vs match map (map (link_own defs m)) kss, kss with
      | _ :: r, geos :: _ => (if in_scene c then map (link_symbol defs m) geos else map clear_all geos) :: r
      | l, _ => l
      end
  end.
(** A definition that is not in the map (another one has its key), or any if there are no scene objects, keeps null pointers. *)
Definition link_def (defs : list sobj) (m : symmap) (any : bool) (i : nat) (o : sobj) : sobj :=
  match o with
  | SObj c vs kss =>
    let here := any && existsb (fun e => match snd e with Some j => (i =? j)%nat | None => false end) m in
    SObj c vs match kss with geos :: r => map (if here then link_symbol defs m else clear_all) geos :: r | [] => [] end
  end.
Fixpoint link_defs (defs : list sobj) (m : symmap) (any : bool) (i : nat) (l : list sobj) : list sobj :=
  match l with [] => [] | o :: r => link_def defs m any i o :: link_defs defs m any (S i) r end.

(** Two objects with one UUID, 4091-4101. *)
Fixpoint twice (seen : list (list N)) (l : list (list N)) : bool :=
  match l with [] => false | u :: r => existsb (eqb_bytes u) seen || twice (seen ++ [u]) r end.

Definition of_class (c : scls) (o : sobj) : bool := match c, sclass o with SFocusPoint, SFocusPoint => true | _, _ => false end.
(** 3928-4027 after [read_raw]; the flag: fDuplicatedUuids. *)
Definition resolve (r : raw) : res (scene * bool) :=
  let defs := map snd (rw_symdefs r) in
  let objs := flat_map scene_objs (rw_layers r) in
  do m <- resolve_symbols defs objs (build 0 (rw_symdefs r) []);
  let any := match objs with [] => false | _ :: _ => true end in
  let focus := map guid_text (filter (of_class SFocusPoint) objs) in
  let positions := map guid_text (rw_positions r) in
  let classes := map guid_text (rw_classes r) in
  let fixture c vs := match c with SFixture => relink "fPosition" txeq positions (relink "fFocusPoint" txeq focus vs) | _ => vs end in
  let classing (c : scls) vs := if in_scene c then relink "fClass" eqb_bytes classes vs else clear "fClass" vs in
  let aux l := map (fun o => fst (multi [] (map_obj (fun _ => clear "fClass") o))) l in
  Ok (mkScene [] [] (rw_data r)
    (multis [] (map (fun o => link_own defs m (map_obj (fun c vs => classing c (fixture c vs)) o)) (rw_layers r)))
    (aux (rw_maps r)) (aux (rw_positions r)) (aux (link_defs defs m any 0 defs)) (aux (rw_classes r)),
    twice [] (map uuid_of_obj objs)).
(** ReadFromGeneralSceneDescription, 3792-4027, for the root element. *)
Definition read_scene (root : node) : res (scene * bool) := do r <- read_raw root; resolve r.
End Keys.

(** ** Addresses *)
(** SceneDataDmxAdress, 1821-1852; size_t.  GetUniverse counts up; [fuel] bounds the rounds. *)
Definition size_max : N := two64.
Definition address_of (universe address : N) : N :=
  let u := if universe =? 0 then universe else universe - 1 in (u * 512 mod size_max + address) mod size_max.
Fixpoint count_universe (fuel : nat) (abs universe : N) : res N :=
  match fuel with
  | O => Loop
  | S f => if universe * 512 mod size_max <? abs then count_universe f abs ((universe + 1) mod size_max) else Ok universe
  end.
(** GetAdress, 1837-1844. *)
Definition address_in (abs universe : N) : N := (abs + size_max - 512 * ((universe + size_max - 1) mod size_max) mod size_max) mod size_max.
