(** Enumeration attributes of description files: the paired converters of XmlFileHelper.cpp, as tables.

    An enumeration value is its number in Include/GDTFPrefix.h.  Each table lists
    - the enumerators (GDTFPrefix.h),
    - the writer: the cases of the switch and what is returned for any other number,
    - the reader: the chain of comparisons in program order (the comparison with the empty text is
      the entry [T""]) and what the last [else] does: the number it assigns ([None]: the result is
      left as it was) and whether it reports a parsing error.
    The texts are the macros of Prefix/CommonPrefix.h.  Every reader returns true.
    The tables were extracted from the source by a script; the comparisons are [TXString::operator==],
    which ignores the case of ASCII letters ([StringModel.txeq]). *)
From Coq Require Import List NArith String Bool.
From Verif Require Import Bytes Txt StringModel.
Import ListNotations.
Open Scope N_scope.

Record enum_table := mkEnum {
  et_values : list N;
  et_write : list (N * list N);
  et_write_other : list N;
  et_read : list (list N * N);
  et_read_other : option N;
  et_reports : bool }.

(** The switch of a writer. *)
Definition enum_write (t : enum_table) (v : N) : list N :=
  match find (fun p => fst p =? v) (et_write t) with Some p => snd p | None => et_write_other t end.
(** The comparison chain of a reader, for an output variable that holds [old] before: the value
    after the call and whether a parsing error was added. *)
Definition enum_read (t : enum_table) (old : N) (s : list N) : N * bool :=
  match find (fun p => txeq s (fst p)) (et_read t) with
  | Some p => (snd p, false)
  | None => (match et_read_other t with Some v => v | None => old end, et_reports t)
  end.

(** [ConvertPrimitiveType], XmlFileHelper.cpp:791-827 (writer), 830-855 (reader); [EGdtfModel_PrimitiveType], GDTFPrefix.h:240. *)
Definition e_PrimitiveType : enum_table := mkEnum
  [0; 1; 2; 3; 4; 5; 6; 7; 8; 9; 10; 11; 12]
  [(1, T"Cube"); (3, T"Sphere"); (2, T"Cylinder"); (0, T"Undefined"); (4, T"Base"); (6, T"Head");
    (5, T"Yoke"); (7, T"Scanner"); (8, T"Conventional"); (9, T"Pigtail"); (10, T"Base1_1");
    (11, T"Scanner1_1"); (12, T"Conventional1_1")]
  T"Undefined"
  [(T"Cube", 1); (T"Sphere", 3); (T"Cylinder", 2); (T"Base", 4); (T"Head", 6); (T"Yoke", 5);
    (T"Scanner", 7); (T"Conventional", 8); (T"Undefined", 0); (T"Pigtail", 9); (T"Base1_1", 10);
    (T"Scanner1_1", 11); (T"Conventional1_1", 12); (T"", 0)]
  (Some 0) true.
(** [ConvertSpecialAttrEnum], XmlFileHelper.cpp:857-883 (writer), 885-912 (reader); [EGdtfSpecial], GDTFPrefix.h:221. *)
Definition e_SpecialAttrEnum : enum_table := mkEnum
  [0; 1; 2; 3; 4; 5; 6; 7; 8; 9; 10; 11; 12; 13; 14]
  [(0, T"None"); (1, T"Dimmer"); (2, T"Pan"); (3, T"Tilt"); (4, T"X"); (5, T"Y"); (6, T"Z");
    (7, T"RGB"); (8, T"Hue"); (9, T"Saturation"); (10, T"Brightness"); (11, T"ColorWheel");
    (12, T"Focus"); (13, T"Zoom"); (14, T"Dummy")]
  T"None"
  [(T"None", 0); (T"Dimmer", 1); (T"Pan", 2); (T"Tilt", 3); (T"X", 4); (T"Y", 5); (T"Z", 6);
    (T"RGB", 7); (T"Hue", 8); (T"Saturation", 9); (T"Brightness", 10); (T"ColorWheel", 11);
    (T"Focus", 12); (T"Zoom", 13); (T"Dummy", 14); (T"", 0)]
  (Some 0) true.
(** [ConvertPhysicalUnitEnum], XmlFileHelper.cpp:914-946 (writer), 948-982 (reader); [EGdtfPhysicalUnit], GDTFPrefix.h:195. *)
Definition e_PhysicalUnitEnum : enum_table := mkEnum
  [0; 1; 2; 3; 4; 5; 6; 7; 8; 9; 10; 12; 13; 14; 15; 16; 17; 18; 19; 20; 21; 22]
  [(0, T"None"); (1, T"Percent"); (2, T"Length"); (3, T"Mass"); (4, T"Time"); (5, T"Temperature");
    (6, T"LuminousIntensity"); (7, T"Angle"); (8, T"Force"); (9, T"Frequency"); (10, T"Current");
    (12, T"Voltage"); (13, T"Power"); (14, T"Energy"); (15, T"Area"); (16, T"Volume");
    (17, T"Speed"); (18, T"Acceleration"); (19, T"AngularSpeed"); (20, T"AngularAccc");
    (21, T"WaveLength"); (22, T"ColorComponent")]
  T"None"
  [(T"None", 0); (T"Percent", 1); (T"Length", 2); (T"Mass", 3); (T"Time", 4); (T"Temperature", 5);
    (T"LuminousIntensity", 6); (T"Angle", 7); (T"Force", 8); (T"Frequency", 9); (T"Current", 10);
    (T"Voltage", 12); (T"Power", 13); (T"Energy", 14); (T"Area", 15); (T"Volume", 16);
    (T"Speed", 17); (T"Acceleration", 18); (T"AngularSpeed", 19); (T"AngularAccc", 20);
    (T"WaveLength", 21); (T"ColorComponent", 22); (T"", 0)]
  (Some 0) true.
(** [ConvertBeamType], XmlFileHelper.cpp:1004-1021 (writer), 983-1002 (reader); [EGdtfBeamType], GDTFPrefix.h:265. *)
Definition e_BeamType : enum_table := mkEnum
  [0; 1; 2; 3; 4; 5; 6]
  [(3, T"Rectangle"); (2, T"None"); (1, T"Spot"); (0, T"Wash"); (4, T"PC"); (5, T"Fresnel");
    (6, T"Glow")]
  T"Wash"
  [(T"Wash", 0); (T"Spot", 1); (T"None", 2); (T"Rectangle", 3); (T"PC", 4); (T"Fresnel", 5);
    (T"Glow", 6); (T"", 0)]
  (Some 0) true.
(** [ConvertLampeType], XmlFileHelper.cpp:1301-1319 (writer), 1321-1337 (reader); [EGdtfLampType], GDTFPrefix.h:257. *)
Definition e_LampeType : enum_table := mkEnum
  [0; 1; 2; 3]
  [(3, T"LED"); (2, T"Halogen"); (1, T"Tungsten"); (0, T"Discharge")]
  T"Discharge"
  [(T"Discharge", 0); (T"Halogen", 2); (T"Tungsten", 1); (T"LED", 3); (T"", 0)]
  (Some 0) true.
(** [ConvertSnapEnum], XmlFileHelper.cpp:1339-1353 (writer), 1355-1372 (reader); [EGdtfDmxSnap], GDTFPrefix.h:284. *)
Definition e_SnapEnum : enum_table := mkEnum
  [0; 1; 2; 3]
  [(1, T"No"); (2, T"On"); (3, T"Off"); (0, T"Yes")]
  T"No"
  [(T"No", 1); (T"On", 2); (T"Off", 3); (T"Yes", 0); (T"", 1)]
  (Some 1) true.
(** [ConvertMasterEnum], XmlFileHelper.cpp:1374-1386 (writer), 1388-1404 (reader); [EGdtfDmxMaster], GDTFPrefix.h:276. *)
Definition e_MasterEnum : enum_table := mkEnum
  [0; 1; 2]
  [(0, T"None"); (1, T"Grand"); (2, T"Group")]
  T"None"
  [(T"None", 0); (T"Grand", 1); (T"Group", 2); (T"", 0)]
  (Some 0) true.
(** [ConvertRelationEnum], XmlFileHelper.cpp:1406-1417 (writer), 1419-1435 (reader); [EGdtfDmxRelationType], GDTFPrefix.h:299. *)
Definition e_RelationEnum : enum_table := mkEnum
  [1; 2]
  [(1, T"Multiply"); (2, T"Override")]
  T"Override"
  [(T"Multiply", 1); (T"Override", 2); (T"", 2)]
  (Some 2) true.
(** [ConvertEGdtfColorSampleEnum], XmlFileHelper.cpp:1489-1597 (writer), 1599-1708 (reader); [EGdtfColorSample], GDTFPrefix.h:527. *)
Definition e_EGdtfColorSampleEnum : enum_table := mkEnum
  [0; 1; 2; 3; 4; 5; 6; 7; 8; 9; 10; 11; 12; 13; 14; 15; 16; 17; 18; 19; 20; 21; 22; 23; 24; 25;
    26; 27; 28; 29; 30; 31; 32; 33; 34; 35; 36; 37; 38; 39; 40; 41; 42; 43; 44; 45; 46; 47; 48; 49;
    50; 51; 52; 53; 54; 55; 56; 57; 58; 59; 60; 61; 62; 63; 64; 65; 66; 67; 68; 69; 70; 71; 72; 73;
    74; 75; 76; 77; 78; 79; 80; 81; 82; 83; 84; 85; 86; 87; 88; 89; 90; 91; 92; 93; 94; 95; 96; 97;
    98]
  [(0, T"CES01"); (1, T"CES02"); (2, T"CES03"); (3, T"CES04"); (4, T"CES05"); (5, T"CES06");
    (6, T"CES07"); (7, T"CES08"); (8, T"CES09"); (9, T"CES10"); (10, T"CES11"); (11, T"CES12");
    (12, T"CES13"); (13, T"CES14"); (14, T"CES15"); (15, T"CES16"); (16, T"CES17"); (17, T"CES18");
    (18, T"CES19"); (19, T"CES20"); (20, T"CES21"); (21, T"CES22"); (22, T"CES23"); (23, T"CES24");
    (24, T"CES25"); (25, T"CES26"); (26, T"CES27"); (27, T"CES28"); (28, T"CES29"); (29, T"CES30");
    (30, T"CES31"); (31, T"CES32"); (32, T"CES33"); (33, T"CES34"); (34, T"CES35"); (35, T"CES36");
    (36, T"CES37"); (37, T"CES38"); (38, T"CES39"); (39, T"CES40"); (40, T"CES41"); (41, T"CES42");
    (42, T"CES43"); (43, T"CES44"); (44, T"CES45"); (45, T"CES46"); (46, T"CES47"); (47, T"CES48");
    (48, T"CES49"); (49, T"CES50"); (50, T"CES51"); (51, T"CES52"); (52, T"CES53"); (53, T"CES54");
    (54, T"CES55"); (55, T"CES56"); (56, T"CES57"); (57, T"CES58"); (58, T"CES59"); (59, T"CES60");
    (60, T"CES61"); (61, T"CES62"); (62, T"CES63"); (63, T"CES64"); (64, T"CES65"); (65, T"CES66");
    (66, T"CES67"); (67, T"CES68"); (68, T"CES69"); (69, T"CES70"); (70, T"CES71"); (71, T"CES72");
    (72, T"CES73"); (73, T"CES74"); (74, T"CES75"); (75, T"CES76"); (76, T"CES77"); (77, T"CES78");
    (78, T"CES79"); (79, T"CES80"); (80, T"CES81"); (81, T"CES82"); (82, T"CES83"); (83, T"CES84");
    (84, T"CES85"); (85, T"CES86"); (86, T"CES87"); (87, T"CES88"); (88, T"CES89"); (89, T"CES90");
    (90, T"CES91"); (91, T"CES92"); (92, T"CES93"); (93, T"CES94"); (94, T"CES95"); (95, T"CES96");
    (96, T"CES97"); (97, T"CES98"); (98, T"CES99")]
  T"CES01"
  [(T"CES01", 0); (T"CES02", 1); (T"CES03", 2); (T"CES04", 3); (T"CES05", 4); (T"CES06", 5);
    (T"CES07", 6); (T"CES08", 7); (T"CES09", 8); (T"CES10", 9); (T"CES11", 10); (T"CES12", 11);
    (T"CES13", 12); (T"CES14", 13); (T"CES15", 14); (T"CES16", 15); (T"CES17", 16); (T"CES18", 17);
    (T"CES19", 18); (T"CES20", 19); (T"CES21", 20); (T"CES22", 21); (T"CES23", 22); (T"CES24", 23);
    (T"CES25", 24); (T"CES26", 25); (T"CES27", 26); (T"CES28", 27); (T"CES29", 28); (T"CES30", 29);
    (T"CES31", 30); (T"CES32", 31); (T"CES33", 32); (T"CES34", 33); (T"CES35", 34); (T"CES36", 35);
    (T"CES37", 36); (T"CES38", 37); (T"CES39", 38); (T"CES40", 39); (T"CES41", 40); (T"CES42", 41);
    (T"CES43", 42); (T"CES44", 43); (T"CES45", 44); (T"CES46", 45); (T"CES47", 46); (T"CES48", 47);
    (T"CES49", 48); (T"CES50", 49); (T"CES51", 50); (T"CES52", 51); (T"CES53", 52); (T"CES54", 53);
    (T"CES55", 54); (T"CES56", 55); (T"CES57", 56); (T"CES58", 57); (T"CES59", 58); (T"CES60", 59);
    (T"CES61", 60); (T"CES62", 61); (T"CES63", 62); (T"CES64", 63); (T"CES65", 64); (T"CES66", 65);
    (T"CES67", 66); (T"CES68", 67); (T"CES69", 68); (T"CES70", 69); (T"CES71", 70); (T"CES72", 71);
    (T"CES73", 72); (T"CES74", 73); (T"CES75", 74); (T"CES76", 75); (T"CES77", 76); (T"CES78", 77);
    (T"CES79", 78); (T"CES80", 79); (T"CES81", 80); (T"CES82", 81); (T"CES83", 82); (T"CES84", 83);
    (T"CES85", 84); (T"CES86", 85); (T"CES87", 86); (T"CES88", 87); (T"CES89", 88); (T"CES90", 89);
    (T"CES91", 90); (T"CES92", 91); (T"CES93", 92); (T"CES94", 93); (T"CES95", 94); (T"CES96", 95);
    (T"CES97", 96); (T"CES98", 97); (T"CES99", 98)]
  None true.
(** [ConvertEGdtfColorSpace], XmlFileHelper.cpp:1710-1723 (writer), 1725-1739 (reader); [EGdtfColorSpace], GDTFPrefix.h:630. *)
Definition e_EGdtfColorSpace : enum_table := mkEnum
  [0; 1; 2; 3]
  [(0, T"sRGB"); (1, T"Custom"); (2, T"ProPhoto"); (3, T"ANSI")]
  T"sRGB"
  [(T"sRGB", 0); (T"Custom", 1); (T"ProPhoto", 2); (T"ANSI", 3)]
  None true.
(** [ConvertEGdtfInterpolationTo], XmlFileHelper.cpp:1741-1754 (writer), 1757-1773 (reader); [EGdtfInterpolationTo], GDTFPrefix.h:638. *)
Definition e_EGdtfInterpolationTo : enum_table := mkEnum
  [0; 1; 2]
  [(0, T"Linear"); (1, T"Step"); (2, T"Log")]
  T"Linear"
  [(T"Linear", 0); (T"Step", 1); (T"Log", 2); (T"", 0)]
  (Some 0) true.
(** [ConvertESourceType], XmlFileHelper.cpp:1841-1854 (writer), 1857-1871 (reader); [ESourceType], GDTFPrefix.h:645. *)
Definition e_SourceType : enum_table := mkEnum
  [0; 1; 3; 4]
  [(0, T"NDI"); (1, T"File"); (3, T"CITP"); (4, T"CaptureDevice")]
  T"NDI"
  [(T"NDI", 0); (T"File", 1); (T"CITP", 3); (T"CaptureDevice", 4); (T"", 0)]
  (Some 0) false.
(** [ConvertEScaleHandlingType], XmlFileHelper.cpp:1873-1885 (writer), 1888-1901 (reader); [EScaleHandlingType], GDTFPrefix.h:653. *)
Definition e_ScaleHandlingType : enum_table := mkEnum
  [0; 1; 2]
  [(0, T"ScaleKeepRatio"); (1, T"ScaleIgnoreRatio"); (2, T"KeepSizeCenter")]
  T"ScaleKeepRatio"
  [(T"ScaleKeepRatio", 0); (T"ScaleIgnoreRatio", 1); (T"KeepSizeCenter", 2); (T"", 0)]
  (Some 0) false.
(** [ConvertLaserColorTypeEnum], XmlFileHelper.cpp:1904-1915 (writer), 1917-1929 (reader); [EGdtfLaserColorType], GDTFPrefix.h:660. *)
Definition e_LaserColorTypeEnum : enum_table := mkEnum
  [0; 1]
  [(0, T"RGB"); (1, T"SingleWaveLength")]
  T"RGB"
  [(T"RGB", 0); (T"SingleWaveLength", 1); (T"", 0)]
  (Some 0) false.
(** [ConvertComponentTypeEnum], XmlFileHelper.cpp:1932-1950 (writer), 1952-1971 (reader); [EGdtfComponentType], GDTFPrefix.h:666. *)
Definition e_ComponentTypeEnum : enum_table := mkEnum
  [0; 1; 2; 3; 4; 5; 6; 7; 8]
  [(0, T"Input"); (1, T"Output"); (2, T"PowerSource"); (3, T"Consumer"); (4, T"Fuse");
    (5, T"NetworkProvider"); (6, T"NetworkInput"); (7, T"NetworkOutput"); (8, T"NetworkInOut")]
  T"Input"
  [(T"Input", 0); (T"Output", 1); (T"PowerSource", 2); (T"Consumer", 3); (T"Fuse", 4);
    (T"NetworkProvider", 5); (T"NetworkInput", 6); (T"NetworkOutput", 7); (T"NetworkInOut", 8);
    (T"", 0)]
  (Some 0) false.
(** [ConvertOrientationEnum], XmlFileHelper.cpp:1974-1987 (writer), 1989-2004 (reader); [EGdtfOrientation], GDTFPrefix.h:679. *)
Definition e_OrientationEnum : enum_table := mkEnum
  [0; 1; 2; 3]
  [(0, T"Left"); (1, T"Right"); (2, T"Top"); (3, T"Bottom")]
  T"Left"
  [(T"Left", 0); (T"Right", 1); (T"Top", 2); (T"Bottom", 3); (T"", 0)]
  (Some 0) false.
(** [ConvertFuseRatingEnum], XmlFileHelper.cpp:2007-2021 (writer), 2023-2039 (reader); [EGdtfFuseRating], GDTFPrefix.h:687. *)
Definition e_FuseRatingEnum : enum_table := mkEnum
  [0; 1; 2; 3; 4]
  [(0, T"B"); (1, T"C"); (2, T"D"); (3, T"K"); (4, T"Z")]
  T"B"
  [(T"B", 0); (T"C", 1); (T"D", 2); (T"K", 3); (T"Z", 4); (T"", 0)]
  (Some 0) false.
(** [ConvertStructureTypeEnum], XmlFileHelper.cpp:2041-2052 (writer), 2054-2067 (reader); [EGdtfStructureType], GDTFPrefix.h:696. *)
Definition e_StructureTypeEnum : enum_table := mkEnum
  [0; 1]
  [(0, T"CenterLineBased"); (1, T"Detail")]
  T"CenterLineBased"
  [(T"CenterLineBased", 0); (T"Detail", 1); (T"", 0)]
  (Some 0) false.
(** [ConvertCrossSectionTypeEnum], XmlFileHelper.cpp:2069-2080 (writer), 2082-2095 (reader); [EGdtfCrossSectionType], GDTFPrefix.h:702. *)
Definition e_CrossSectionTypeEnum : enum_table := mkEnum
  [0; 1]
  [(0, T"TrussFramework"); (1, T"Tube")]
  T"TrussFramework"
  [(T"TrussFramework", 0); (T"Tube", 1); (T"", 0)]
  (Some 0) false.
(** [ConvertSupportTypeEnum], XmlFileHelper.cpp:2097-2108 (writer), 2110-2123 (reader); [EGdtfSupportType], GDTFPrefix.h:708. *)
Definition e_SupportTypeEnum : enum_table := mkEnum
  [0; 1]
  [(0, T"Rope"); (1, T"GroundSupport")]
  T"Rope"
  [(T"Rope", 0); (T"GroundSupport", 1); (T"", 0)]
  (Some 0) false.
(** [ConvertSubPhysicalUnitTypeEnum], XmlFileHelper.cpp:2125-2145 (writer), 2147-2169 (reader); [EGdtfSubPhysicalUnitType], GDTFPrefix.h:714. *)
Definition e_SubPhysicalUnitTypeEnum : enum_table := mkEnum
  [0; 1; 2; 3; 4; 5; 6; 7; 8; 9; 10]
  [(0, T"PlacementOffset"); (1, T"Amplitude"); (2, T"AmplitudeMin"); (3, T"AmplitudeMax");
    (4, T"Duration"); (5, T"DutyCycle"); (6, T"TimeOffset"); (7, T"MinimumOpening"); (8, T"Value");
    (9, T"RatioHorizontal"); (10, T"RatioVertical")]
  T"PlacementOffset"
  [(T"PlacementOffset", 0); (T"Amplitude", 1); (T"AmplitudeMin", 2); (T"AmplitudeMax", 3);
    (T"Duration", 4); (T"DutyCycle", 5); (T"TimeOffset", 6); (T"MinimumOpening", 7); (T"Value", 8);
    (T"RatioHorizontal", 9); (T"RatioVertical", 10); (T"", 0)]
  (Some 0) false.
(** [ConvertTransmissionTypeEnum], XmlFileHelper.cpp:2171-2199 (writer), 2201-2229 (reader); [ETransmissionType], GDTFPrefix.h:729. *)
Definition e_TransmissionTypeEnum : enum_table := mkEnum
  [0; 1; 2; 3]
  [(3, T"Anycast"); (1, T"Multicast"); (0, T"Unicast"); (2, T"Broadcast")]
  T""
  [(T"Anycast", 3); (T"Multicast", 1); (T"Unicast", 0); (T"Broadcast", 2); (T"", 3)]
  (Some 3) false.
(** [ConvertEGdtfCanHaveChildren], XmlFileHelper.cpp:1775-1796; false is 0, true is 1. *)
Definition e_CanHaveChildren : enum_table := mkEnum
  [0; 1] [(1, T"Yes"); (0, T"No")] T""
  [(T"Yes", 1); (T"No", 0); (T"", 1)] (Some 1) true.

(** All of them. *)
Definition enum_tables : list enum_table :=
  [e_PrimitiveType; e_SpecialAttrEnum; e_PhysicalUnitEnum; e_BeamType;
   e_LampeType; e_SnapEnum; e_MasterEnum; e_RelationEnum;
   e_EGdtfColorSampleEnum; e_EGdtfColorSpace; e_EGdtfInterpolationTo; e_SourceType;
   e_ScaleHandlingType; e_LaserColorTypeEnum; e_ComponentTypeEnum; e_OrientationEnum;
   e_FuseRatingEnum; e_StructureTypeEnum; e_CrossSectionTypeEnum; e_SupportTypeEnum;
   e_SubPhysicalUnitTypeEnum; e_TransmissionTypeEnum; e_CanHaveChildren].

(** [ConvertBool], XmlFileHelper.cpp:1823-1839: any other text gives false and the result false. *)
Definition bool_write (v : bool) : list N := if v then T"true" else T"false".
Definition bool_read (s : list N) : bool * bool :=
  if txeq s T"true" then (true, true) else if txeq s T"false" then (false, true) else (false, false).
