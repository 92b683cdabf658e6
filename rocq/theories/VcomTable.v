(** The tables of the interface objects of the library: the identifiers of the interfaces, the classes made for
    them, and the functions that give an object to the caller.  The tables were extracted from the sources with a
    script and checked by eye; every row names the place it was taken from.

    Not in the tables: [CXMLFileImpl::DoSimpleNode] (XMLFileImpl.cpp:690-824), which fills an object the caller
    already has, [CSceneObjImpl::GetGdtfFixture] (CSceneObjImpl.cpp:417-490), which reads a file, and the second of
    two overloads of one name. *)
From Coq Require Import List String NArith.
From Verif Require Import VcomDefs.
Import ListNotations.
Local Open Scope string_scope.

(** The identifiers (the headers named beside each row). *)
Definition iids : list (string * iid) := [
  ("IID_MediaRessourceVectorInterface", Iid 3863731493 34396 18195 [170; 95; 250; 118; 253; 122; 170; 114]%N); (* Include/IMediaRessourceVectorInterface.h:528 *)
  ("IID_SceneDataProvider", Iid 3761666212 64600 17126 [178; 19; 117; 207; 82; 220; 92; 103]%N); (* Implementation/CSceneDataProviderImpl.h:33 *)
  ("IID_SceneObject", Iid 3340266622 24683 16685 [190; 224; 185; 126; 216; 246; 3; 163]%N); (* Implementation/CSceneObjImpl.h:127 *)
  ("IID_SourceObj", Iid 325544471 49896 20436 [168; 92; 140; 170; 58; 171; 22; 238]%N); (* Implementation/CSourceImpl.h:36 *)
  ("IID_ISymDef", Iid 2103872621 28639 20356 [144; 13; 137; 195; 221; 181; 5; 172]%N); (* Implementation/CSymDefImpl.h:37 *)
  ("IID_IClass", Iid 110422084 7249 19178 [176; 120; 74; 209; 75; 8; 178; 142]%N); (* Implementation/CClassImpl.h:32 *)
  ("IID_PositionObj", Iid 3888505352 38990 17700 [186; 186; 185; 251; 215; 27; 142; 98]%N); (* Implementation/CPositionImpl.h:31 *)
  ("IID_MappingDefinitionObj", Iid 2541625581 44289 18441 [134; 170; 79; 215; 77; 213; 64; 119]%N); (* Implementation/CMappingDefinitionImpl.h:41 *)
  ("IID_MappingObj", Iid 2562390607 7802 19251 [183; 17; 123; 199; 97; 218; 90; 65]%N); (* Implementation/CMappingImpl.h:42 *)
  ("IID_ConnectionObj", Iid 1628850395 2503 18220 [157; 50; 22; 6; 147; 122; 177; 212]%N); (* Implementation/CConnectionImpl.h:36 *)
  ("IID_CustomCommand", Iid 351504079 8530 17597 [141; 140; 220; 92; 20; 172; 108; 146]%N); (* Implementation/CCustomCommandImpl.h:37 *)
  ("IID_Alignment", Iid 2841155506 29772 17501 [128; 243; 15; 168; 230; 30; 11; 95]%N); (* Implementation/CAlignmentImpl.h:37 *)
  ("IID_Overwrite", Iid 2679514128 61695 20257 [187; 202; 218; 145; 24; 166; 7; 207]%N); (* Implementation/COverwriteImpl.h:35 *)
  ("IID_GeometryReference", Iid 3866810806 44628 17522 [153; 189; 143; 100; 209; 88; 241; 152]%N); (* Implementation/CGeometryReferenceImpl.h:34 *)
  ("IID_IGdtfFixture", Iid 2407250441 1875 18801 [169; 27; 81; 206; 150; 210; 182; 63]%N); (* Include/IMediaRessourceVectorInterface.h:1737 *)
  ("IID_GdtfWheel", Iid 158890955 17702 19977 [183; 202; 11; 210; 112; 108; 181; 253]%N); (* Implementation/CGdtfWheel.h:36 *)
  ("IID_GdtfActivationGroup", Iid 1451257639 50065 17747 [188; 66; 12; 180; 210; 150; 2; 252]%N); (* Implementation/CGdtfActivationGroup.h:33 *)
  ("IID_GdtfFeatureGroup", Iid 3047586533 20557 19662 [132; 248; 50; 132; 12; 254; 3; 238]%N); (* Implementation/CGdtfFeatureGroup.h:38 *)
  ("IID_GdtfAttribute", Iid 636839949 28441 19416 [160; 121; 207; 157; 24; 103; 145; 246]%N); (* Implementation/CGdtfAttribute.h:46 *)
  ("IID_GdtfModel", Iid 4038753205 47328 19291 [190; 36; 94; 213; 109; 205; 25; 86]%N); (* Implementation/CGdtfModel.h:75 *)
  ("IID_GdtfGeometry", Iid 2716164073 786 17224 [142; 53; 210; 28; 110; 11; 46; 131]%N); (* Implementation/CGdtfGeometry.h:213 *)
  ("IID_GdtfDmxMode", Iid 1412682061 58566 19001 [176; 42; 240; 166; 9; 230; 61; 86]%N); (* Implementation/CGdtfDmxMode.h:54 *)
  ("IID_GdtfRevision", Iid 1089724030 31120 20170 [175; 83; 22; 58; 40; 159; 203; 82]%N); (* Implementation/CGdtfRevision.h:36 *)
  ("IID_GdtfUserPreset", Iid 1340615130 23909 19570 [178; 118; 204; 134; 79; 79; 36; 245]%N); (* Implementation/CGdtfUserPreset.h:25 *)
  ("IID_GdtfMacro", Iid 3124615932 11488 17369 [171; 11; 220; 255; 48; 171; 73; 177]%N); (* Implementation/CGdtfMacro.h:36 *)
  ("IID_GdtfMacroDMX", Iid 238592580 37723 16881 [173; 26; 206; 252; 112; 85; 163; 207]%N); (* Implementation/CGdtfMacroDMX.h:31 *)
  ("IID_GdtfMacroDMXStep", Iid 2312345527 2963 18032 [147; 251; 98; 154; 199; 144; 25; 225]%N); (* Implementation/CGdtfMacroDMXStep.h:33 *)
  ("IID_GdtfMacroDMXValue", Iid 1137843973 4393 17075 [157; 125; 135; 62; 173; 227; 121; 20]%N); (* Implementation/CGdtfMacroDMXValue.h:31 *)
  ("IID_GdtfMacroVisual", Iid 71041466 6310 19625 [151; 182; 89; 20; 125; 200; 150; 49]%N); (* Implementation/CGdtfMacroVisual.h:30 *)
  ("IID_GdtfMacroVisualStep", Iid 708643408 39752 19565 [129; 3; 170; 253; 11; 41; 193; 87]%N); (* Implementation/CGdtfMacroVisualStep.h:41 *)
  ("IID_GdtfMacroVisualValue", Iid 267049999 40356 20330 [188; 122; 206; 235; 125; 141; 90; 212]%N); (* Implementation/CGdtfMacroVisualValue.h:35 *)
  ("IID_GdtfFeature", Iid 724377746 64507 20093 [167; 36; 112; 175; 60; 150; 69; 106]%N); (* Implementation/CGdtfFeature.h:35 *)
  ("IID_GdtfWheelSlot", Iid 3230917765 34791 17426 [190; 32; 99; 75; 106; 226; 223; 246]%N); (* Implementation/CGdtfWheelSlot.h:54 *)
  ("IID_GdtfDmxChannel", Iid 98387207 21617 18856 [129; 215; 46; 236; 193; 61; 221; 190]%N); (* Implementation/CGdtfDmxChannel.h:56 *)
  ("IID_GdtfDmxRelation", Iid 387919042 62552 17172 [176; 16; 185; 91; 225; 65; 18; 175]%N); (* Implementation/CGdtfDmxRelation.h:33 *)
  ("IID_GdtfPhysicalEmitter", Iid 2698598416 10439 16635 [190; 155; 166; 143; 196; 120; 243; 85]%N); (* Implementation/CGdtfPhysicalEmitter.h:42 *)
  ("IID_GdtfMeasurementPoint", Iid 4176509512 49918 20169 [148; 236; 78; 123; 54; 44; 94; 98]%N); (* Implementation/CGdtfMeasurementPoint.h:33 *)
  ("IID_GdtfDmxLogicalChannel", Iid 3334929413 29928 19649 [172; 218; 156; 174; 4; 208; 242; 175]%N); (* Implementation/CGdtfDmxLogicalChannel.h:47 *)
  ("IID_GdtfDmxChannelFunction", Iid 910493729 31069 18622 [139; 176; 161; 157; 205; 183; 150; 55]%N); (* Implementation/CGdtfDmxChannelFunction.h:83 *)
  ("IID_GdtfDmxChannelSet", Iid 1082618318 858 19362 [132; 0; 142; 187; 185; 33; 148; 100]%N); (* Implementation/CGdtfDmxChannelSet.h:41 *)
  ("IID_GdtfDmxSubChannelSet", Iid 492176339 10493 18395 [150; 132; 232; 101; 146; 142; 178; 99]%N); (* Implementation/CGdtfDmxSubChannelSet.h:39 *)
  ("IID_GdtfBreak", Iid 1743982719 60411 18617 [150; 172; 81; 164; 238; 147; 246; 216]%N); (* Implementation/CGdtfBreak.h:32 *)
  ("IID_GdtfWheelSlotPrismFacet", Iid 2081899699 35625 19780 [168; 172; 54; 133; 244; 194; 185; 177]%N); (* Implementation/CGdtfWheelSlotPrismFacet.h:30 *)
  ("IID_GdtfWheelSlotAnimationSystem", Iid 2853975865 41098 17729 [151; 151; 213; 237; 81; 219; 249; 180]%N); (* Implementation/CGdtfWheelSlotAnimationSystem.h:40 *)
  ("IID_GdtfXmlParsingError", Iid 1271938296 42017 18035 [132; 136; 94; 250; 225; 12; 104; 86]%N); (* Implementation/CGdtfXmlParsingError.h:38 *)
  ("IID_GdtfTRDM", Iid 4270046620 60018 20181 [144; 206; 45; 147; 79; 193; 14; 183]%N); (* Implementation/CGdtfFTRDM.h:37 *)
  ("IID_GdtfMap", Iid 1287232893 34124 20248 [131; 242; 83; 63; 106; 83; 252; 194]%N); (* Implementation/CGdtfMap.h:32 *)
  ("IID_GdtfArtNet", Iid 3744180158 30288 20193 [186; 115; 108; 172; 26; 161; 23; 203]%N); (* Implementation/CGdtfArtNet.h:30 *)
  ("IID_GdtfSACN", Iid 1016794052 45131 17095 [185; 57; 228; 66; 237; 220; 78; 82]%N); (* Implementation/CGdtfSACN.h:30 *)
  ("IID_GdtfDMXPersonality", Iid 3796080087 64937 20398 [184; 59; 172; 232; 56; 36; 37; 131]%N); (* Implementation/CGdtfDMXPersonality.h:35 *)
  ("IID_GdtfSoftwareVersionID", Iid 4032991928 19799 19596 [188; 209; 252; 87; 49; 197; 49; 227]%N); (* Implementation/CGdtfSoftwareVersionID.h:36 *)
  ("IID_GdtfMeasurement", Iid 47590158 20211 20152 [132; 112; 53; 47; 35; 40; 194; 25]%N); (* Implementation/CGdtfMeasurement.h:44 *)
  ("IID_GdtfFilter", Iid 1727124658 61504 19790 [177; 84; 76; 203; 43; 104; 194; 192]%N); (* Implementation/CGdtfFilter.h:40 *)
  ("IID_GdtfDMXProfile", Iid 1775058419 33348 18568 [165; 90; 9; 7; 89; 107; 3; 200]%N); (* Implementation/CGdtfDmxProfile.h:35 *)
  ("IID_GdtfPoint", Iid 2512861254 8668 17200 [163; 17; 52; 40; 240; 229; 207; 180]%N); (* Implementation/CGdtfPoint.h:41 *)
  ("IID_GdtfColorSpace", Iid 1889045684 7838 19110 [143; 53; 116; 210; 10; 239; 254; 108]%N); (* Implementation/CGdtfColorSpace.h:42 *)
  ("IID_GdtfGamut", Iid 323492821 1229 18501 [171; 244; 92; 184; 194; 13; 219; 167]%N); (* Implementation/CGdtfGamut.h:34 *)
  ("IID_GdtfCRIGroup", Iid 2562455952 42977 18561 [178; 124; 221; 206; 14; 113; 245; 182]%N); (* Implementation/CGdtfCRIGroup.h:35 *)
  ("IID_GdtfCRI", Iid 1274050443 4259 18653 [187; 82; 89; 154; 5; 193; 232; 40]%N); (* Implementation/CGdtfCRI.h:35 *)
  ("IID_GdtfConnector", Iid 904612994 17281 17341 [142; 138; 184; 176; 9; 172; 249; 169]%N); (* Implementation/CGdtfConnector.h:41 *)
  ("IID_FileIdentifier", Iid 3031468209 14227 4571 [156; 53; 0; 80; 141; 94; 152; 81]%N); (* Interface/IFileIdentifier.h:18 *)
  ("IID_FolderIdentifier", Iid 3228434051 14225 4571 [156; 53; 0; 80; 141; 94; 152; 81]%N); (* Interface/IFolderIdentifier.h:86 *)
  ("IID_ZIPFile", Iid 1031627515 19865 16626 [142; 135; 153; 148; 223; 100; 237; 93]%N); (* Interface/IZIPFile.h:50 *)
  ("IID_RawOSFile", Iid 1333753821 14230 4571 [156; 53; 0; 80; 141; 94; 152; 81]%N); (* Interface/IRawOSFile.h:17 *)
  ("IID_XMLFile", Iid 1920258183 14233 4571 [156; 53; 0; 80; 141; 94; 152; 81]%N); (* Interface/IXMLFile.h:106 *)
  ("IID_XMLFileNode", Iid 3652445682 14233 4571 [156; 53; 0; 80; 141; 94; 152; 81]%N); (* XMLLib/XMLFileNodeImpl.h:15 *)
  ("IID_IUtility", Iid 1886171520 52549 19098 [171; 220; 98; 171; 95; 254; 55; 107]%N); (* Include/IMediaRessourceVectorInterface.h:1847 *)
  ("IID_GdtfLaserProtocol", Iid 1947132988 52781 18868 [186; 233; 80; 40; 175; 80; 84; 120]%N); (* Implementation/CGdtfLaserProtocol.h:29 *)
  ("IID_GdtfPinPatch", Iid 2650753348 40849 19278 [191; 125; 60; 227; 36; 136; 220; 237]%N); (* Implementation/CGdtfPinPatch.h:34 *)
  ("IID_GdtfSubPhysicalUnit", Iid 386268013 58761 16576 [169; 238; 141; 123; 245; 58; 84; 200]%N); (* Implementation/CGdtfSubPhysicalUnit.h:37 *)
  ("IID_IMVRxchangeService", Iid 1886171520 52549 19098 [172; 252; 98; 171; 95; 254; 55; 107]%N); (* Include/IMediaRessourceVectorInterface.h:2089 *)
  ("IID_StdFile", Iid 3096253820 14230 4571 [156; 53; 0; 80; 141; 94; 152; 81]%N) (* Interface/IStdFile.h:35 *)
].

(** [VWQueryInterface] (ModuleMain.cpp:95-243): the class of the object made for an identifier, in the order of the
    comparisons. *)
Definition factory : list (string * string) := [
  ("IID_MediaRessourceVectorInterface", "CMediaRessourceVectorImpl"); (* 100 *)
  ("IID_SceneDataProvider", "CSceneDataProviderImpl"); (* 102 *)
  ("IID_SceneObject", "CSceneObjImpl"); (* 104 *)
  ("IID_SourceObj", "CSourceImpl"); (* 106 *)
  ("IID_ISymDef", "CSymDefImpl"); (* 108 *)
  ("IID_IClass", "CClassImpl"); (* 110 *)
  ("IID_PositionObj", "CPositionImpl"); (* 112 *)
  ("IID_MappingDefinitionObj", "CMappingDefinitionImpl"); (* 114 *)
  ("IID_MappingObj", "CMappingImpl"); (* 116 *)
  ("IID_ConnectionObj", "CConnectionImpl"); (* 118 *)
  ("IID_CustomCommand", "CCustomCommandImpl"); (* 120 *)
  ("IID_Alignment", "CAlignmentImpl"); (* 122 *)
  ("IID_Overwrite", "COverwriteImpl"); (* 124 *)
  ("IID_GeometryReference", "CGeometryReferenceImpl"); (* 126 *)
  ("IID_IGdtfFixture", "CGdtfFixtureImpl"); (* 128 *)
  ("IID_GdtfWheel", "CGdtfWheelImpl"); (* 130 *)
  ("IID_GdtfActivationGroup", "CGdtfActivationGroupImpl"); (* 132 *)
  ("IID_GdtfFeatureGroup", "CGdtfFeatureGroupImpl"); (* 134 *)
  ("IID_GdtfAttribute", "CGdtfAttributeImpl"); (* 136 *)
  ("IID_GdtfModel", "CGdtfModelImpl"); (* 138 *)
  ("IID_GdtfGeometry", "CGdtfGeometryImpl"); (* 140 *)
  ("IID_GdtfDmxMode", "CGdtfDmxModeImpl"); (* 142 *)
  ("IID_GdtfRevision", "CGdtfRevisionImpl"); (* 144 *)
  ("IID_GdtfUserPreset", "CGdtfUserPresetImpl"); (* 146 *)
  ("IID_GdtfMacro", "CGdtfMacroImpl"); (* 148 *)
  ("IID_GdtfMacroDMX", "CGdtfMacroDMXImpl"); (* 150 *)
  ("IID_GdtfMacroDMXStep", "CGdtfMacroDMXStepImpl"); (* 152 *)
  ("IID_GdtfMacroDMXValue", "CGdtfMacroDMXValueImpl"); (* 154 *)
  ("IID_GdtfMacroVisual", "CGdtfMacroVisualImpl"); (* 156 *)
  ("IID_GdtfMacroVisualStep", "CGdtfMacroVisualStepImpl"); (* 158 *)
  ("IID_GdtfMacroVisualValue", "CGdtfMacroVisualValueImpl"); (* 160 *)
  ("IID_GdtfFeature", "CGdtfFeatureImpl"); (* 162 *)
  ("IID_GdtfWheelSlot", "CGdtfWheelSlotImpl"); (* 164 *)
  ("IID_GdtfDmxChannel", "CGdtfDmxChannelImpl"); (* 166 *)
  ("IID_GdtfDmxRelation", "CGdtfDmxRelationImpl"); (* 168 *)
  ("IID_GdtfPhysicalEmitter", "CGdtfPhysicalEmitterImpl"); (* 170 *)
  ("IID_GdtfMeasurementPoint", "CGdtfMeasurementPointImpl"); (* 172 *)
  ("IID_GdtfDmxLogicalChannel", "CGdtfDmxLogicalChannelImpl"); (* 174 *)
  ("IID_GdtfDmxChannelFunction", "CGdtfDmxChannelFunctionImpl"); (* 176 *)
  ("IID_GdtfDmxChannelSet", "CGdtfDmxChannelSetImpl"); (* 178 *)
  ("IID_GdtfDmxSubChannelSet", "CGdtfDmxSubChannelSetImpl"); (* 180 *)
  ("IID_GdtfBreak", "CGdtfBreakImpl"); (* 182 *)
  ("IID_GdtfWheelSlotPrismFacet", "CGdtfWheelSlotPrismFacetImpl"); (* 184 *)
  ("IID_GdtfWheelSlotAnimationSystem", "CGdtfWheelSlotAnimationSystemImpl"); (* 186 *)
  ("IID_GdtfXmlParsingError", "CGdtfXmlParsingErrorImpl"); (* 188 *)
  ("IID_GdtfTRDM", "CGdtf_FTRDMImpl"); (* 190 *)
  ("IID_GdtfMap", "CGdtfMapImpl"); (* 192 *)
  ("IID_GdtfArtNet", "CGdtfArtNetImpl"); (* 194 *)
  ("IID_GdtfSACN", "CGdtfSACNImpl"); (* 196 *)
  ("IID_GdtfDMXPersonality", "CGdtfDMXPersonalityImpl"); (* 198 *)
  ("IID_GdtfSoftwareVersionID", "CGdtfSoftwareVersionIDImpl"); (* 200 *)
  ("IID_GdtfMeasurement", "CGdtfMeasurementImpl"); (* 202 *)
  ("IID_GdtfFilter", "CGdtfFilterImpl"); (* 204 *)
  ("IID_GdtfDMXProfile", "CGdtfDMXProfileImpl"); (* 206 *)
  ("IID_GdtfPoint", "CGdtfPointImpl"); (* 208 *)
  ("IID_GdtfColorSpace", "CGdtfColorSpaceImpl"); (* 210 *)
  ("IID_GdtfGamut", "CGdtfGamutImpl"); (* 212 *)
  ("IID_GdtfCRIGroup", "CGdtfCRIGroupImpl"); (* 214 *)
  ("IID_GdtfCRI", "CGdtfCRIImpl"); (* 216 *)
  ("IID_GdtfConnector", "CGdtfConnectorImpl"); (* 218 *)
  ("IID_FileIdentifier", "CFileIdentifier"); (* 220 *)
  ("IID_FolderIdentifier", "CFolderIdentifier"); (* 222 *)
  ("IID_ZIPFile", "CZIPFileImpl"); (* 224 *)
  ("IID_RawOSFile", "CRawOSFileImpl"); (* 226 *)
  ("IID_XMLFile", "CXMLFileImpl"); (* 228 *)
  ("IID_XMLFileNode", "CXMLFileNodeImpl"); (* 230 *)
  ("IID_IUtility", "CUtilityImpl"); (* 232 *)
  ("IID_GdtfLaserProtocol", "CGdtfLaserProtocolImpl"); (* 234 *)
  ("IID_GdtfPinPatch", "CGdtfPinPatchImpl"); (* 236 *)
  ("IID_GdtfSubPhysicalUnit", "CGdtfSubPhysicalUnitImpl"); (* 238 *)
  ("IID_IMVRxchangeService", "CMVRxchangeServiceImpl") (* 241 *)
].

(** The interface that each identifier is declared for (the headers of the interfaces). *)
Definition declared : list (string * string) := [
  ("IID_MediaRessourceVectorInterface", "IMediaRessourceVectorInterface"); (* Include/IMediaRessourceVectorInterface.h:528 *)
  ("IID_SceneDataProvider", "ISceneDataProvider"); (* Implementation/CSceneDataProviderImpl.h:33 *)
  ("IID_SceneObject", "ISceneObj"); (* Implementation/CSceneObjImpl.h:127 *)
  ("IID_SourceObj", "ISource"); (* Implementation/CSourceImpl.h:36 *)
  ("IID_ISymDef", "ISymDef"); (* Implementation/CSymDefImpl.h:37 *)
  ("IID_IClass", "IClass"); (* Implementation/CClassImpl.h:32 *)
  ("IID_PositionObj", "IPosition"); (* Implementation/CPositionImpl.h:31 *)
  ("IID_MappingDefinitionObj", "IMappingDefinition"); (* Implementation/CMappingDefinitionImpl.h:41 *)
  ("IID_MappingObj", "IMapping"); (* Implementation/CMappingImpl.h:42 *)
  ("IID_ConnectionObj", "IConnection"); (* Implementation/CConnectionImpl.h:36 *)
  ("IID_CustomCommand", "ICustomCommand"); (* Implementation/CCustomCommandImpl.h:37 *)
  ("IID_Alignment", "IAlignment"); (* Implementation/CAlignmentImpl.h:37 *)
  ("IID_Overwrite", "IOverwrite"); (* Implementation/COverwriteImpl.h:35 *)
  ("IID_GeometryReference", "IGeometryReference"); (* Implementation/CGeometryReferenceImpl.h:34 *)
  ("IID_IGdtfFixture", "IGdtfFixture"); (* Include/IMediaRessourceVectorInterface.h:1737 *)
  ("IID_GdtfWheel", "IGdtfWheel"); (* Implementation/CGdtfWheel.h:36 *)
  ("IID_GdtfActivationGroup", "IGdtfActivationGroup"); (* Implementation/CGdtfActivationGroup.h:33 *)
  ("IID_GdtfFeatureGroup", "IGdtfFeatureGroup"); (* Implementation/CGdtfFeatureGroup.h:38 *)
  ("IID_GdtfAttribute", "IGdtfAttribute"); (* Implementation/CGdtfAttribute.h:46 *)
  ("IID_GdtfModel", "IGdtfModel"); (* Implementation/CGdtfModel.h:75 *)
  ("IID_GdtfGeometry", "IGdtfGeometry"); (* Implementation/CGdtfGeometry.h:213 *)
  ("IID_GdtfDmxMode", "IGdtfDmxMode"); (* Implementation/CGdtfDmxMode.h:54 *)
  ("IID_GdtfRevision", "IGdtfRevision"); (* Implementation/CGdtfRevision.h:36 *)
  ("IID_GdtfUserPreset", "IGdtfUserPreset"); (* Implementation/CGdtfUserPreset.h:25 *)
  ("IID_GdtfMacro", "IGdtfMacro"); (* Implementation/CGdtfMacro.h:36 *)
  ("IID_GdtfMacroDMX", "IGdtfMacroDMX"); (* Implementation/CGdtfMacroDMX.h:31 *)
  ("IID_GdtfMacroDMXStep", "IGdtfMacroDMXStep"); (* Implementation/CGdtfMacroDMXStep.h:33 *)
  ("IID_GdtfMacroDMXValue", "IGdtfMacroDMXValue"); (* Implementation/CGdtfMacroDMXValue.h:31 *)
  ("IID_GdtfMacroVisual", "IGdtfMacroVisual"); (* Implementation/CGdtfMacroVisual.h:30 *)
  ("IID_GdtfMacroVisualStep", "IGdtfMacroVisualStep"); (* Implementation/CGdtfMacroVisualStep.h:41 *)
  ("IID_GdtfMacroVisualValue", "IGdtfMacroVisualValue"); (* Implementation/CGdtfMacroVisualValue.h:35 *)
  ("IID_GdtfFeature", "IGdtfFeature"); (* Implementation/CGdtfFeature.h:35 *)
  ("IID_GdtfWheelSlot", "IGdtfWheelSlot"); (* Implementation/CGdtfWheelSlot.h:54 *)
  ("IID_GdtfDmxChannel", "IGdtfDmxChannel"); (* Implementation/CGdtfDmxChannel.h:56 *)
  ("IID_GdtfDmxRelation", "IGdtfDmxRelation"); (* Implementation/CGdtfDmxRelation.h:33 *)
  ("IID_GdtfPhysicalEmitter", "IGdtfPhysicalEmitter"); (* Implementation/CGdtfPhysicalEmitter.h:42 *)
  ("IID_GdtfMeasurementPoint", "IGdtfMeasurementPoint"); (* Implementation/CGdtfMeasurementPoint.h:33 *)
  ("IID_GdtfDmxLogicalChannel", "IGdtfDmxLogicalChannel"); (* Implementation/CGdtfDmxLogicalChannel.h:47 *)
  ("IID_GdtfDmxChannelFunction", "IGdtfDmxChannelFunction"); (* Implementation/CGdtfDmxChannelFunction.h:83 *)
  ("IID_GdtfDmxChannelSet", "IGdtfDmxChannelSet"); (* Implementation/CGdtfDmxChannelSet.h:41 *)
  ("IID_GdtfDmxSubChannelSet", "IGdtfDmxSubChannelSet"); (* Implementation/CGdtfDmxSubChannelSet.h:39 *)
  ("IID_GdtfBreak", "IGdtfBreak"); (* Implementation/CGdtfBreak.h:32 *)
  ("IID_GdtfWheelSlotPrismFacet", "IGdtfWheelSlotPrismFacet"); (* Implementation/CGdtfWheelSlotPrismFacet.h:30 *)
  ("IID_GdtfWheelSlotAnimationSystem", "IGdtfWheelSlotAnimationSystem"); (* Implementation/CGdtfWheelSlotAnimationSystem.h:40 *)
  ("IID_GdtfXmlParsingError", "IGdtfXmlParsingError"); (* Implementation/CGdtfXmlParsingError.h:38 *)
  ("IID_GdtfTRDM", "IGdtf_FTRDM"); (* Implementation/CGdtfFTRDM.h:37 *)
  ("IID_GdtfMap", "IGdtfMap"); (* Implementation/CGdtfMap.h:32 *)
  ("IID_GdtfArtNet", "IGdtfArtNet"); (* Implementation/CGdtfArtNet.h:30 *)
  ("IID_GdtfSACN", "IGdtfSACN"); (* Implementation/CGdtfSACN.h:30 *)
  ("IID_GdtfDMXPersonality", "IGdtfDMXPersonality"); (* Implementation/CGdtfDMXPersonality.h:35 *)
  ("IID_GdtfSoftwareVersionID", "IGdtfSoftwareVersionID"); (* Implementation/CGdtfSoftwareVersionID.h:36 *)
  ("IID_GdtfMeasurement", "IGdtfMeasurement"); (* Implementation/CGdtfMeasurement.h:44 *)
  ("IID_GdtfFilter", "IGdtfFilter"); (* Implementation/CGdtfFilter.h:40 *)
  ("IID_GdtfDMXProfile", "IGdtfDMXProfile"); (* Implementation/CGdtfDmxProfile.h:35 *)
  ("IID_GdtfPoint", "IGdtfPoint"); (* Implementation/CGdtfPoint.h:41 *)
  ("IID_GdtfColorSpace", "IGdtfColorSpace"); (* Implementation/CGdtfColorSpace.h:42 *)
  ("IID_GdtfGamut", "IGdtfGamut"); (* Implementation/CGdtfGamut.h:34 *)
  ("IID_GdtfCRIGroup", "IGdtfCRIGroup"); (* Implementation/CGdtfCRIGroup.h:35 *)
  ("IID_GdtfCRI", "IGdtfCRI"); (* Implementation/CGdtfCRI.h:35 *)
  ("IID_GdtfConnector", "IGdtfConnector"); (* Implementation/CGdtfConnector.h:41 *)
  ("IID_FileIdentifier", "IFileIdentifier"); (* Interface/IFileIdentifier.h:18 *)
  ("IID_FolderIdentifier", "IFolderIdentifier"); (* Interface/IFolderIdentifier.h:86 *)
  ("IID_ZIPFile", "IZIPFile"); (* Interface/IZIPFile.h:50 *)
  ("IID_RawOSFile", "IRawOSFile"); (* Interface/IRawOSFile.h:17 *)
  ("IID_XMLFile", "IXMLFile"); (* Interface/IXMLFile.h:106 *)
  ("IID_XMLFileNode", "IXMLFileNode"); (* XMLLib/XMLFileNodeImpl.h:15 *)
  ("IID_IUtility", "IUtility"); (* Include/IMediaRessourceVectorInterface.h:1847 *)
  ("IID_GdtfLaserProtocol", "IGdtfLaserProtocol"); (* Implementation/CGdtfLaserProtocol.h:29 *)
  ("IID_GdtfPinPatch", "IGdtfPinPatch"); (* Implementation/CGdtfPinPatch.h:34 *)
  ("IID_GdtfSubPhysicalUnit", "IGdtfSubPhysicalUnit"); (* Implementation/CGdtfSubPhysicalUnit.h:37 *)
  ("IID_IMVRxchangeService", "IMVRxchangeService"); (* Include/IMediaRessourceVectorInterface.h:2089 *)
  ("IID_StdFile", "IStdFile") (* Interface/IStdFile.h:35 *)
].

(** The interface that each class implements: the argument of [VCOMImpl] (or of [VCOMImmediateImpl] for
    [CRawOSFileImpl]) that the class is derived from. *)
Definition implements : list (string * string) := [
  ("CMediaRessourceVectorImpl", "IMediaRessourceVectorInterface"); (* Implementation/CMediaRessourceVectorImpl.h:20 *)
  ("CSceneDataProviderImpl", "ISceneDataProvider"); (* Implementation/CSceneDataProviderImpl.h:11 *)
  ("CSceneObjImpl", "ISceneObj"); (* Implementation/CSceneObjImpl.h:11 *)
  ("CSourceImpl", "ISource"); (* Implementation/CSourceImpl.h:11 *)
  ("CSymDefImpl", "ISymDef"); (* Implementation/CSymDefImpl.h:11 *)
  ("CClassImpl", "IClass"); (* Implementation/CClassImpl.h:11 *)
  ("CPositionImpl", "IPosition"); (* Implementation/CPositionImpl.h:11 *)
  ("CMappingDefinitionImpl", "IMappingDefinition"); (* Implementation/CMappingDefinitionImpl.h:11 *)
  ("CMappingImpl", "IMapping"); (* Implementation/CMappingImpl.h:11 *)
  ("CConnectionImpl", "IConnection"); (* Implementation/CConnectionImpl.h:11 *)
  ("CCustomCommandImpl", "ICustomCommand"); (* Implementation/CCustomCommandImpl.h:12 *)
  ("CAlignmentImpl", "IAlignment"); (* Implementation/CAlignmentImpl.h:12 *)
  ("COverwriteImpl", "IOverwrite"); (* Implementation/COverwriteImpl.h:12 *)
  ("CGeometryReferenceImpl", "IGeometryReference"); (* Implementation/CGeometryReferenceImpl.h:11 *)
  ("CGdtfFixtureImpl", "IGdtfFixture"); (* Implementation/CGdtfFixture.h:15 *)
  ("CGdtfWheelImpl", "IGdtfWheel"); (* Implementation/CGdtfWheel.h:12 *)
  ("CGdtfActivationGroupImpl", "IGdtfActivationGroup"); (* Implementation/CGdtfActivationGroup.h:12 *)
  ("CGdtfFeatureGroupImpl", "IGdtfFeatureGroup"); (* Implementation/CGdtfFeatureGroup.h:12 *)
  ("CGdtfAttributeImpl", "IGdtfAttribute"); (* Implementation/CGdtfAttribute.h:12 *)
  ("CGdtfModelImpl", "IGdtfModel"); (* Implementation/CGdtfModel.h:12 *)
  ("CGdtfGeometryImpl", "IGdtfGeometry"); (* Implementation/CGdtfGeometry.h:12 *)
  ("CGdtfDmxModeImpl", "IGdtfDmxMode"); (* Implementation/CGdtfDmxMode.h:12 *)
  ("CGdtfRevisionImpl", "IGdtfRevision"); (* Implementation/CGdtfRevision.h:12 *)
  ("CGdtfUserPresetImpl", "IGdtfUserPreset"); (* Implementation/CGdtfUserPreset.h:12 *)
  ("CGdtfMacroImpl", "IGdtfMacro"); (* Implementation/CGdtfMacro.h:12 *)
  ("CGdtfMacroDMXImpl", "IGdtfMacroDMX"); (* Implementation/CGdtfMacroDMX.h:10 *)
  ("CGdtfMacroDMXStepImpl", "IGdtfMacroDMXStep"); (* Implementation/CGdtfMacroDMXStep.h:11 *)
  ("CGdtfMacroDMXValueImpl", "IGdtfMacroDMXValue"); (* Implementation/CGdtfMacroDMXValue.h:11 *)
  ("CGdtfMacroVisualImpl", "IGdtfMacroVisual"); (* Implementation/CGdtfMacroVisual.h:11 *)
  ("CGdtfMacroVisualStepImpl", "IGdtfMacroVisualStep"); (* Implementation/CGdtfMacroVisualStep.h:11 *)
  ("CGdtfMacroVisualValueImpl", "IGdtfMacroVisualValue"); (* Implementation/CGdtfMacroVisualValue.h:11 *)
  ("CGdtfFeatureImpl", "IGdtfFeature"); (* Implementation/CGdtfFeature.h:12 *)
  ("CGdtfWheelSlotImpl", "IGdtfWheelSlot"); (* Implementation/CGdtfWheelSlot.h:12 *)
  ("CGdtfDmxChannelImpl", "IGdtfDmxChannel"); (* Implementation/CGdtfDmxChannel.h:12 *)
  ("CGdtfDmxRelationImpl", "IGdtfDmxRelation"); (* Implementation/CGdtfDmxRelation.h:12 *)
  ("CGdtfPhysicalEmitterImpl", "IGdtfPhysicalEmitter"); (* Implementation/CGdtfPhysicalEmitter.h:12 *)
  ("CGdtfMeasurementPointImpl", "IGdtfMeasurementPoint"); (* Implementation/CGdtfMeasurementPoint.h:12 *)
  ("CGdtfDmxLogicalChannelImpl", "IGdtfDmxLogicalChannel"); (* Implementation/CGdtfDmxLogicalChannel.h:12 *)
  ("CGdtfDmxChannelFunctionImpl", "IGdtfDmxChannelFunction"); (* Implementation/CGdtfDmxChannelFunction.h:12 *)
  ("CGdtfDmxChannelSetImpl", "IGdtfDmxChannelSet"); (* Implementation/CGdtfDmxChannelSet.h:12 *)
  ("CGdtfDmxSubChannelSetImpl", "IGdtfDmxSubChannelSet"); (* Implementation/CGdtfDmxSubChannelSet.h:12 *)
  ("CGdtfBreakImpl", "IGdtfBreak"); (* Implementation/CGdtfBreak.h:12 *)
  ("CGdtfWheelSlotPrismFacetImpl", "IGdtfWheelSlotPrismFacet"); (* Implementation/CGdtfWheelSlotPrismFacet.h:10 *)
  ("CGdtfWheelSlotAnimationSystemImpl", "IGdtfWheelSlotAnimationSystem"); (* Implementation/CGdtfWheelSlotAnimationSystem.h:10 *)
  ("CGdtfXmlParsingErrorImpl", "IGdtfXmlParsingError"); (* Implementation/CGdtfXmlParsingError.h:12 *)
  ("CGdtf_FTRDMImpl", "IGdtf_FTRDM"); (* Implementation/CGdtfFTRDM.h:10 *)
  ("CGdtfMapImpl", "IGdtfMap"); (* Implementation/CGdtfMap.h:12 *)
  ("CGdtfArtNetImpl", "IGdtfArtNet"); (* Implementation/CGdtfArtNet.h:10 *)
  ("CGdtfSACNImpl", "IGdtfSACN"); (* Implementation/CGdtfSACN.h:10 *)
  ("CGdtfDMXPersonalityImpl", "IGdtfDMXPersonality"); (* Implementation/CGdtfDMXPersonality.h:11 *)
  ("CGdtfSoftwareVersionIDImpl", "IGdtfSoftwareVersionID"); (* Implementation/CGdtfSoftwareVersionID.h:11 *)
  ("CGdtfMeasurementImpl", "IGdtfMeasurement"); (* Implementation/CGdtfMeasurement.h:11 *)
  ("CGdtfFilterImpl", "IGdtfFilter"); (* Implementation/CGdtfFilter.h:10 *)
  ("CGdtfDMXProfileImpl", "IGdtfDMXProfile"); (* Implementation/CGdtfDmxProfile.h:11 *)
  ("CGdtfPointImpl", "IGdtfPoint"); (* Implementation/CGdtfPoint.h:11 *)
  ("CGdtfColorSpaceImpl", "IGdtfColorSpace"); (* Implementation/CGdtfColorSpace.h:9 *)
  ("CGdtfGamutImpl", "IGdtfGamut"); (* Implementation/CGdtfGamut.h:12 *)
  ("CGdtfCRIGroupImpl", "IGdtfCRIGroup"); (* Implementation/CGdtfCRIGroup.h:10 *)
  ("CGdtfCRIImpl", "IGdtfCRI"); (* Implementation/CGdtfCRI.h:10 *)
  ("CGdtfConnectorImpl", "IGdtfConnector"); (* Implementation/CGdtfConnector.h:12 *)
  ("CFileIdentifier", "IFileIdentifier"); (* Wrapper/FileIdentifier.h:17 *)
  ("CFolderIdentifier", "IFolderIdentifier"); (* Wrapper/FolderIdentifier.h:13 *)
  ("CZIPFileImpl", "IZIPFile"); (* Wrapper/ZIPFileImpl.h:62 *)
  ("CRawOSFileImpl", "IRawOSFile"); (* Wrapper/RawOSFileimpl.h:10 *)
  ("CXMLFileImpl", "IXMLFile"); (* XMLLib/XMLFileImpl.h:16 *)
  ("CXMLFileNodeImpl", "IXMLFileNode"); (* XMLLib/XMLFileNodeImpl.h:17 *)
  ("CUtilityImpl", "IUtility"); (* Implementation/CUtility.h:11 *)
  ("CGdtfLaserProtocolImpl", "IGdtfLaserProtocol"); (* Implementation/CGdtfLaserProtocol.h:12 *)
  ("CGdtfPinPatchImpl", "IGdtfPinPatch"); (* Implementation/CGdtfPinPatch.h:12 *)
  ("CGdtfSubPhysicalUnitImpl", "IGdtfSubPhysicalUnit"); (* Implementation/CGdtfSubPhysicalUnit.h:12 *)
  ("CMVRxchangeServiceImpl", "IMVRxchangeService") (* mvrxchange/CMVRxchangeService.h:26 *)
].

(** The functions that give out an object: name, class of the object they are called on (for [GetFirstChild] and
    [GetNextObject], which are called on the scene, of the object they are called for), identifier they ask for,
    class they cast to, interface of the parameter, order of the steps, check of the own pointer, whether the
    parameter is emptied on failure, and what is given out. *)
Definition getters : list getter := [
  G "CGdtfActivationGroupImpl::GetAttributeAt" "CGdtfActivationGroupImpl" "IID_GdtfAttribute" "CGdtfAttributeImpl" "IGdtfAttribute" NewFirst (Checks 4) false (KAt AtGeSize Brackets 460); (* CGdtfActivationGroup.cpp:64 *)
  G "CGdtfArtNetImpl::GetMapAt" "CGdtfArtNetImpl" "IID_GdtfMap" "CGdtfMapImpl" "IGdtfMap" NewFirst (Checks 4) false (KAt AtGeSize Brackets 460); (* CGdtfArtNet.cpp:30 *)
  G "CGdtfArtNetImpl::CreateMap" "CGdtfArtNetImpl" "IID_GdtfMap" "CGdtfMapImpl" "IGdtfMap" NewFirst (Checks 4) false KNew; (* CGdtfArtNet.cpp:77 *)
  G "CGdtfAttributeImpl::GetActivationGroup" "CGdtfAttributeImpl" "IID_GdtfActivationGroup" "CGdtfActivationGroupImpl" "IGdtfActivationGroup" NewFirst (Checks 4) false (KOne (Some 461%N)); (* CGdtfAttribute.cpp:37 *)
  G "CGdtfAttributeImpl::GetFeature" "CGdtfAttributeImpl" "IID_GdtfFeature" "CGdtfFeatureImpl" "IGdtfFeature" NewFirst (Checks 4) false (KOne (Some 461%N)); (* CGdtfAttribute.cpp:84 *)
  G "CGdtfAttributeImpl::GetMainAttribute" "CGdtfAttributeImpl" "IID_GdtfAttribute" "CGdtfAttributeImpl" "IGdtfAttribute" NewFirst (Checks 4) false (KOne (Some 461%N)); (* CGdtfAttribute.cpp:129 *)
  G "CGdtfAttributeImpl::GetSubPhysicalUnitAt" "CGdtfAttributeImpl" "IID_GdtfSubPhysicalUnit" "CGdtfSubPhysicalUnitImpl" "IGdtfSubPhysicalUnit" NewFirst (Checks 4) false (KAt SizeLtAt Brackets 460); (* CGdtfAttribute.cpp:290 *)
  G "CGdtfAttributeImpl::CreateSubPhysicalUnit" "CGdtfAttributeImpl" "IID_GdtfSubPhysicalUnit" "CGdtfSubPhysicalUnitImpl" "IGdtfSubPhysicalUnit" NewFirst (Checks 4) false KNew; (* CGdtfAttribute.cpp:336 *)
  G "CGdtfCRIGroupImpl::GetCRIAt" "CGdtfCRIGroupImpl" "IID_GdtfCRI" "CGdtfCRIImpl" "IGdtfCRI" NewFirst (Checks 4) false (KAt AtGeSize Brackets 460); (* CGdtfCRIGroup.cpp:47 *)
  G "CGdtfCRIGroupImpl::CreateCRI" "CGdtfCRIGroupImpl" "IID_GdtfCRI" "CGdtfCRIImpl" "IGdtfCRI" NewFirst (Checks 4) false KNew; (* CGdtfCRIGroup.cpp:104 *)
  G "CGdtfDMXPersonalityImpl::GetDmxMode" "CGdtfDMXPersonalityImpl" "IID_GdtfDmxMode" "CGdtfDmxModeImpl" "IGdtfDmxMode" NewFirst (Checks 4) false (KOne (Some 461%N)); (* CGdtfDMXPersonality.cpp:28 *)
  G "CGdtfDmxChannelImpl::GetGeometry" "CGdtfDmxChannelImpl" "IID_GdtfGeometry" "CGdtfGeometryImpl" "IGdtfGeometry" NewFirst (Checks 4) false (KOne (Some 461%N)); (* CGdtfDmxChannel.cpp:101 *)
  G "CGdtfDmxChannelImpl::GetLogicalChannelAt" "CGdtfDmxChannelImpl" "IID_GdtfDmxLogicalChannel" "CGdtfDmxLogicalChannelImpl" "IGdtfDmxLogicalChannel" NewFirst (Checks 4) false (KAt AtGeSize Brackets 460); (* CGdtfDmxChannel.cpp:246 *)
  G "CGdtfDmxChannelImpl::CreateLogicalChannel" "CGdtfDmxChannelImpl" "IID_GdtfDmxLogicalChannel" "CGdtfDmxLogicalChannelImpl" "IGdtfDmxLogicalChannel" NewFirst (Checks 4) false KNew; (* CGdtfDmxChannel.cpp:291 *)
  G "CGdtfDmxChannelImpl::GetInitialFunction" "CGdtfDmxChannelImpl" "IID_GdtfDmxChannelFunction" "CGdtfDmxChannelFunctionImpl" "IGdtfDmxChannelFunction" NewFirst (Checks 4) false (KOne None); (* CGdtfDmxChannel.cpp:369 *)
  G "CGdtfDmxChannelFunctionImpl::GetAttribute" "CGdtfDmxChannelFunctionImpl" "IID_GdtfAttribute" "CGdtfAttributeImpl" "IGdtfAttribute" NewFirst (Checks 4) false (KOne (Some 461%N)); (* CGdtfDmxChannelFunction.cpp:40 *)
  G "CGdtfDmxChannelFunctionImpl::GetOnWheel" "CGdtfDmxChannelFunctionImpl" "IID_GdtfWheel" "CGdtfWheelImpl" "IGdtfWheel" NewFirst (Checks 4) false (KOne (Some 461%N)); (* CGdtfDmxChannelFunction.cpp:161 *)
  G "CGdtfDmxChannelFunctionImpl::GetEmitter" "CGdtfDmxChannelFunctionImpl" "IID_GdtfPhysicalEmitter" "CGdtfPhysicalEmitterImpl" "IGdtfPhysicalEmitter" NewFirst (Checks 4) false (KOne (Some 461%N)); (* CGdtfDmxChannelFunction.cpp:204 *)
  G "CGdtfDmxChannelFunctionImpl::GetFilter" "CGdtfDmxChannelFunctionImpl" "IID_GdtfFilter" "CGdtfFilterImpl" "IGdtfFilter" NewFirst (Checks 4) false (KOne (Some 461%N)); (* CGdtfDmxChannelFunction.cpp:247 *)
  G "CGdtfDmxChannelFunctionImpl::GetColorSpace" "CGdtfDmxChannelFunctionImpl" "IID_GdtfColorSpace" "CGdtfColorSpaceImpl" "IGdtfColorSpace" NewFirst (Checks 4) false (KOne (Some 461%N)); (* CGdtfDmxChannelFunction.cpp:301 *)
  G "CGdtfDmxChannelFunctionImpl::GetGamut" "CGdtfDmxChannelFunctionImpl" "IID_GdtfGamut" "CGdtfGamutImpl" "IGdtfGamut" NewFirst (Checks 4) false (KOne (Some 461%N)); (* CGdtfDmxChannelFunction.cpp:345 *)
  G "CGdtfDmxChannelFunctionImpl::GetDMXProfile" "CGdtfDmxChannelFunctionImpl" "IID_GdtfDMXProfile" "CGdtfDMXProfileImpl" "IGdtfDMXProfile" NewFirst (Checks 4) false (KOne (Some 461%N)); (* CGdtfDmxChannelFunction.cpp:389 *)
  G "CGdtfDmxChannelFunctionImpl::GetDmxChannelSetAt" "CGdtfDmxChannelFunctionImpl" "IID_GdtfDmxChannelSet" "CGdtfDmxChannelSetImpl" "IGdtfDmxChannelSet" NewFirst (Checks 4) false (KAt AtGeSize Brackets 460); (* CGdtfDmxChannelFunction.cpp:695 *)
  G "CGdtfDmxChannelFunctionImpl::CreateDmxChannelSet" "CGdtfDmxChannelFunctionImpl" "IID_GdtfDmxChannelSet" "CGdtfDmxChannelSetImpl" "IGdtfDmxChannelSet" NewFirst (Checks 4) false KNew; (* CGdtfDmxChannelFunction.cpp:741 *)
  G "CGdtfDmxChannelFunctionImpl::GetDmxSubChannelSetAt" "CGdtfDmxChannelFunctionImpl" "IID_GdtfDmxSubChannelSet" "CGdtfDmxSubChannelSetImpl" "IGdtfDmxSubChannelSet" NewFirst (Checks 4) false (KAt AtGeSize Brackets 460); (* CGdtfDmxChannelFunction.cpp:798 *)
  G "CGdtfDmxChannelFunctionImpl::CreateDmxSubChannelSet" "CGdtfDmxChannelFunctionImpl" "IID_GdtfDmxSubChannelSet" "CGdtfDmxSubChannelSetImpl" "IGdtfDmxSubChannelSet" NewFirst (Checks 4) false KNew; (* CGdtfDmxChannelFunction.cpp:843 *)
  G "CGdtfDmxChannelFunctionImpl::GetModeMasterChannel" "CGdtfDmxChannelFunctionImpl" "IID_GdtfDmxChannel" "CGdtfDmxChannelImpl" "IGdtfDmxChannel" NewFirst (Checks 4) false (KOne (Some 461%N)); (* CGdtfDmxChannelFunction.cpp:922 *)
  G "CGdtfDmxChannelFunctionImpl::GetModeMasterFunction" "CGdtfDmxChannelFunctionImpl" "IID_GdtfDmxChannelFunction" "CGdtfDmxChannelFunctionImpl" "IGdtfDmxChannelFunction" NewFirst (Checks 4) false (KOne (Some 461%N)); (* CGdtfDmxChannelFunction.cpp:969 *)
  G "CGdtfDmxChannelFunctionImpl::GetParentLogicalChannel" "CGdtfDmxChannelFunctionImpl" "IID_GdtfDmxLogicalChannel" "CGdtfDmxLogicalChannelImpl" "IGdtfDmxLogicalChannel" NewFirst (Checks 4) false (KOne (Some 1%N)); (* CGdtfDmxChannelFunction.cpp:1056 *)
  G "CGdtfDmxLogicalChannelImpl::GetAttribute" "CGdtfDmxLogicalChannelImpl" "IID_GdtfAttribute" "CGdtfAttributeImpl" "IGdtfAttribute" NewFirst (Checks 4) false (KOne (Some 461%N)); (* CGdtfDmxLogicalChannel.cpp:31 *)
  G "CGdtfDmxLogicalChannelImpl::GetDmxFunctionAt" "CGdtfDmxLogicalChannelImpl" "IID_GdtfDmxChannelFunction" "CGdtfDmxChannelFunctionImpl" "IGdtfDmxChannelFunction" NewFirst (Checks 4) false (KAt AtGeSize Brackets 460); (* CGdtfDmxLogicalChannel.cpp:184 *)
  G "CGdtfDmxLogicalChannelImpl::CreateDmxFunction" "CGdtfDmxLogicalChannelImpl" "IID_GdtfDmxChannelFunction" "CGdtfDmxChannelFunctionImpl" "IGdtfDmxChannelFunction" NewFirst (Checks 4) false KNew; (* CGdtfDmxLogicalChannel.cpp:229 *)
  G "CGdtfDmxLogicalChannelImpl::GetParentDmxChannel" "CGdtfDmxLogicalChannelImpl" "IID_GdtfDmxChannel" "CGdtfDmxChannelImpl" "IGdtfDmxChannel" NewFirst (Checks 4) false (KOne (Some 1%N)); (* CGdtfDmxLogicalChannel.cpp:274 *)
  G "CGdtfDmxModeImpl::GetGeometry" "CGdtfDmxModeImpl" "IID_GdtfGeometry" "CGdtfGeometryImpl" "IGdtfGeometry" NewFirst (Checks 4) false (KOne (Some 1%N)); (* CGdtfDmxMode.cpp:52 *)
  G "CGdtfDmxModeImpl::GetDmxChannelAt" "CGdtfDmxModeImpl" "IID_GdtfDmxChannel" "CGdtfDmxChannelImpl" "IGdtfDmxChannel" NewFirst (Checks 4) false (KAt AtGeSize Brackets 460); (* CGdtfDmxMode.cpp:126 *)
  G "CGdtfDmxModeImpl::CreateDmxChannel" "CGdtfDmxModeImpl" "IID_GdtfDmxChannel" "CGdtfDmxChannelImpl" "IGdtfDmxChannel" NewFirst (Checks 4) false KNew; (* CGdtfDmxMode.cpp:172 *)
  G "CGdtfDmxModeImpl::GetDmxRelationAt" "CGdtfDmxModeImpl" "IID_GdtfDmxRelation" "CGdtfDmxRelationImpl" "IGdtfDmxRelation" NewFirst (Checks 4) false (KAt AtGeSize Brackets 460); (* CGdtfDmxMode.cpp:233 *)
  G "CGdtfDmxModeImpl::CreateDmxRelation" "CGdtfDmxModeImpl" "IID_GdtfDmxRelation" "CGdtfDmxRelationImpl" "IGdtfDmxRelation" NewFirst Unchecked false KNew; (* CGdtfDmxMode.cpp:282 *)
  G "CGdtfDmxModeImpl::GetDmxMacroAt" "CGdtfDmxModeImpl" "IID_GdtfMacro" "CGdtfMacroImpl" "IGdtfMacro" NewFirst (Checks 4) false (KAt AtGeSize Brackets 460); (* CGdtfDmxMode.cpp:361 *)
  G "CGdtfDmxModeImpl::CreateDmxMacro" "CGdtfDmxModeImpl" "IID_GdtfMacro" "CGdtfMacroImpl" "IGdtfMacro" NewFirst Unchecked false KNew; (* CGdtfDmxMode.cpp:410 *)
  G "CGdtfDMXProfileImpl::GetPointAt" "CGdtfDMXProfileImpl" "IID_GdtfPoint" "CGdtfPointImpl" "IGdtfPoint" NewFirst (Checks 4) false (KAt AtGeSize Brackets 460); (* CGdtfDmxProfile.cpp:46 *)
  G "CGdtfDMXProfileImpl::CreatePoint" "CGdtfDMXProfileImpl" "IID_GdtfPoint" "CGdtfPointImpl" "IGdtfPoint" NewFirst (Checks 4) false KNew; (* CGdtfDmxProfile.cpp:94 *)
  G "CGdtfDmxRelationImpl::GetMasterChannel" "CGdtfDmxRelationImpl" "IID_GdtfDmxChannel" "CGdtfDmxChannelImpl" "IGdtfDmxChannel" NewFirst (Checks 4) false (KOne (Some 461%N)); (* CGdtfDmxRelation.cpp:29 *)
  G "CGdtfDmxRelationImpl::GetSlaveChannel" "CGdtfDmxRelationImpl" "IID_GdtfDmxChannelFunction" "CGdtfDmxChannelFunctionImpl" "IGdtfDmxChannelFunction" NewFirst (Checks 4) false (KOne (Some 461%N)); (* CGdtfDmxRelation.cpp:73 *)
  G "CGdtfDmxSubChannelSetImpl::GetSubPhysicalUnit" "CGdtfDmxSubChannelSetImpl" "IID_GdtfSubPhysicalUnit" "CGdtfSubPhysicalUnitImpl" "IGdtfSubPhysicalUnit" NewFirst (Checks 4) false (KOne (Some 461%N)); (* CGdtfDmxSubChannelSet.cpp:49 *)
  G "CGdtfDmxSubChannelSetImpl::GetDMXProfile" "CGdtfDmxSubChannelSetImpl" "IID_GdtfDMXProfile" "CGdtfDMXProfileImpl" "IGdtfDMXProfile" NewFirst (Checks 4) false (KOne (Some 461%N)); (* CGdtfDmxSubChannelSet.cpp:93 *)
  G "CGdtf_FTRDMImpl::GetSoftwareVersionIDAt" "CGdtf_FTRDMImpl" "IID_GdtfSoftwareVersionID" "CGdtfSoftwareVersionIDImpl" "IGdtfSoftwareVersionID" NewFirst (Checks 4) false (KAt AtGeSize Brackets 460); (* CGdtfFTRDM.cpp:72 *)
  G "CGdtf_FTRDMImpl::CreateSoftwareVersionID" "CGdtf_FTRDMImpl" "IID_GdtfSoftwareVersionID" "CGdtfSoftwareVersionIDImpl" "IGdtfSoftwareVersionID" NewFirst (Checks 4) false KNew; (* CGdtfFTRDM.cpp:121 *)
  G "CGdtfFeatureImpl::GetAttributeAt" "CGdtfFeatureImpl" "IID_GdtfAttribute" "CGdtfAttributeImpl" "IGdtfAttribute" NewFirst (Checks 4) false (KAt AtGeSize Brackets 460); (* CGdtfFeature.cpp:80 *)
  G "CGdtfFeatureImpl::GetFeatureGroup" "CGdtfFeatureImpl" "IID_GdtfFeatureGroup" "CGdtfFeatureGroupImpl" "IGdtfFeatureGroup" NewFirst (Checks 4) false (KOne (Some 461%N)); (* CGdtfFeature.cpp:127 *)
  G "CGdtfFeatureGroupImpl::GetFeatureAt" "CGdtfFeatureGroupImpl" "IID_GdtfFeature" "CGdtfFeatureImpl" "IGdtfFeature" NewFirst (Checks 4) false (KAt AtGeSize Brackets 460); (* CGdtfFeatureGroup.cpp:57 *)
  G "CGdtfFeatureGroupImpl::CreateFeature" "CGdtfFeatureGroupImpl" "IID_GdtfFeature" "CGdtfFeatureImpl" "IGdtfFeature" NewFirst (Checks 4) false KNew; (* CGdtfFeatureGroup.cpp:105 *)
  G "CGdtfFilterImpl::GetMeasurementAt" "CGdtfFilterImpl" "IID_GdtfMeasurement" "CGdtfMeasurementImpl" "IGdtfMeasurement" NewFirst (Checks 4) false (KAt AtGeSize Brackets 460); (* CGdtfFilter.cpp:102 *)
  G "CGdtfFilterImpl::CreateMeasurement" "CGdtfFilterImpl" "IID_GdtfMeasurement" "CGdtfMeasurementImpl" "IGdtfMeasurement" NewFirst (Checks 4) false KNew; (* CGdtfFilter.cpp:151 *)
  G "CGdtfFixtureImpl::GetActivationGroupAt" "CGdtfFixtureImpl" "IID_GdtfActivationGroup" "CGdtfActivationGroupImpl" "IGdtfActivationGroup" NewFirst (Checks 4) false (KAt AtGeSize Brackets 460); (* CGdtfFixture.cpp:435 *)
  G "CGdtfFixtureImpl::CreateActivationGroup" "CGdtfFixtureImpl" "IID_GdtfActivationGroup" "CGdtfActivationGroupImpl" "IGdtfActivationGroup" NewFirst (Checks 4) false KNew; (* CGdtfFixture.cpp:482 *)
  G "CGdtfFixtureImpl::GetFeatureGroupAt" "CGdtfFixtureImpl" "IID_GdtfFeatureGroup" "CGdtfFeatureGroupImpl" "IGdtfFeatureGroup" NewFirst (Checks 4) false (KAt AtGeSize Brackets 460); (* CGdtfFixture.cpp:538 *)
  G "CGdtfFixtureImpl::CreateFeatureGroup" "CGdtfFixtureImpl" "IID_GdtfFeatureGroup" "CGdtfFeatureGroupImpl" "IGdtfFeatureGroup" NewFirst (Checks 4) false KNew; (* CGdtfFixture.cpp:586 *)
  G "CGdtfFixtureImpl::GetAttributeAt" "CGdtfFixtureImpl" "IID_GdtfAttribute" "CGdtfAttributeImpl" "IGdtfAttribute" NewFirst (Checks 4) false (KAt AtGeSize Brackets 460); (* CGdtfFixture.cpp:642 *)
  G "CGdtfFixtureImpl::CreateAttribute" "CGdtfFixtureImpl" "IID_GdtfAttribute" "CGdtfAttributeImpl" "IGdtfAttribute" NewFirst (Checks 4) false KNew; (* CGdtfFixture.cpp:690 *)
  G "CGdtfFixtureImpl::GetWheelAt" "CGdtfFixtureImpl" "IID_GdtfWheel" "CGdtfWheelImpl" "IGdtfWheel" NewFirst (Checks 4) false (KAt AtGeSize Brackets 460); (* CGdtfFixture.cpp:746 *)
  G "CGdtfFixtureImpl::CreateWheel" "CGdtfFixtureImpl" "IID_GdtfWheel" "CGdtfWheelImpl" "IGdtfWheel" NewFirst (Checks 4) false KNew; (* CGdtfFixture.cpp:794 *)
  G "CGdtfFixtureImpl::GetModelAt" "CGdtfFixtureImpl" "IID_GdtfModel" "CGdtfModelImpl" "IGdtfModel" NewFirst (Checks 4) false (KAt AtGeSize Brackets 460); (* CGdtfFixture.cpp:849 *)
  G "CGdtfFixtureImpl::CreateModel" "CGdtfFixtureImpl" "IID_GdtfModel" "CGdtfModelImpl" "IGdtfModel" NewFirst (Checks 4) false KNew; (* CGdtfFixture.cpp:897 *)
  G "CGdtfFixtureImpl::GetGeometryAt" "CGdtfFixtureImpl" "IID_GdtfGeometry" "CGdtfGeometryImpl" "IGdtfGeometry" NewFirst (Checks 4) false (KAt AtGeSize Brackets 460); (* CGdtfFixture.cpp:952 *)
  G "CGdtfFixtureImpl::CreateGeometry" "CGdtfFixtureImpl" "IID_GdtfGeometry" "CGdtfGeometryImpl" "IGdtfGeometry" NewFirst (Checks 4) false KNew; (* CGdtfFixture.cpp:1000 *)
  G "CGdtfFixtureImpl::GetDmxModeAt" "CGdtfFixtureImpl" "IID_GdtfDmxMode" "CGdtfDmxModeImpl" "IGdtfDmxMode" NewFirst (Checks 4) false (KAt AtGeSize Brackets 460); (* CGdtfFixture.cpp:1098 *)
  G "CGdtfFixtureImpl::CreateDmxMode" "CGdtfFixtureImpl" "IID_GdtfDmxMode" "CGdtfDmxModeImpl" "IGdtfDmxMode" NewFirst (Checks 4) false KNew; (* CGdtfFixture.cpp:1146 *)
  G "CGdtfFixtureImpl::GetRevisionAt" "CGdtfFixtureImpl" "IID_GdtfRevision" "CGdtfRevisionImpl" "IGdtfRevision" NewFirst (Checks 4) false (KAt AtGeSize Brackets 460); (* CGdtfFixture.cpp:1201 *)
  G "CGdtfFixtureImpl::CreateRevision" "CGdtfFixtureImpl" "IID_GdtfRevision" "CGdtfRevisionImpl" "IGdtfRevision" NewFirst (Checks 4) false KNew; (* CGdtfFixture.cpp:1249 *)
  G "CGdtfFixtureImpl::GetPresetAt" "CGdtfFixtureImpl" "IID_GdtfUserPreset" "CGdtfUserPresetImpl" "IGdtfUserPreset" NewFirst (Checks 4) false (KAt AtGeSize Brackets 460); (* CGdtfFixture.cpp:1304 *)
  G "CGdtfFixtureImpl::CreatePreset" "CGdtfFixtureImpl" "IID_GdtfUserPreset" "CGdtfUserPresetImpl" "IGdtfUserPreset" NewFirst (Checks 4) false KNew; (* CGdtfFixture.cpp:1352 *)
  G "CGdtfFixtureImpl::GetRDM" "CGdtfFixtureImpl" "IID_GdtfTRDM" "CGdtf_FTRDMImpl" "IGdtf_FTRDM" NewFirst (Checks 4) false (KOne None); (* CGdtfFixture.cpp:1396 *)
  G "CGdtfFixtureImpl::CreateRDM" "CGdtfFixtureImpl" "IID_GdtfTRDM" "CGdtf_FTRDMImpl" "IGdtf_FTRDM" NewFirst (Checks 4) false KNew; (* CGdtfFixture.cpp:1441 *)
  G "CGdtfFixtureImpl::GetArtNet" "CGdtfFixtureImpl" "IID_GdtfArtNet" "CGdtfArtNetImpl" "IGdtfArtNet" NewFirst (Checks 4) false (KOne None); (* CGdtfFixture.cpp:1485 *)
  G "CGdtfFixtureImpl::CreateArtNet" "CGdtfFixtureImpl" "IID_GdtfArtNet" "CGdtfArtNetImpl" "IGdtfArtNet" NewFirst (Checks 4) false KNew; (* CGdtfFixture.cpp:1530 *)
  G "CGdtfFixtureImpl::GetSACN" "CGdtfFixtureImpl" "IID_GdtfSACN" "CGdtfSACNImpl" "IGdtfSACN" NewFirst (Checks 4) false (KOne None); (* CGdtfFixture.cpp:1574 *)
  G "CGdtfFixtureImpl::CreateSACN" "CGdtfFixtureImpl" "IID_GdtfSACN" "CGdtfSACNImpl" "IGdtfSACN" NewFirst (Checks 4) false KNew; (* CGdtfFixture.cpp:1618 *)
  G "CGdtfFixtureImpl::GetColorSpace" "CGdtfFixtureImpl" "IID_GdtfColorSpace" "CGdtfColorSpaceImpl" "IGdtfColorSpace" NewFirst (Checks 4) false (KOne (Some 461%N)); (* CGdtfFixture.cpp:1662 *)
  G "CGdtfFixtureImpl::GetAdditionalColorSpaceAt" "CGdtfFixtureImpl" "IID_GdtfColorSpace" "CGdtfColorSpaceImpl" "IGdtfColorSpace" NewFirst (Checks 4) false (KAt AtGeSize Brackets 460); (* CGdtfFixture.cpp:1716 *)
  G "CGdtfFixtureImpl::CreateAdditionalColorSpace" "CGdtfFixtureImpl" "IID_GdtfColorSpace" "CGdtfColorSpaceImpl" "IGdtfColorSpace" NewFirst (Checks 4) false KNew; (* CGdtfFixture.cpp:1763 *)
  G "CGdtfFixtureImpl::GetGamutAt" "CGdtfFixtureImpl" "IID_GdtfGamut" "CGdtfGamutImpl" "IGdtfGamut" NewFirst (Checks 4) false (KAt AtGeSize Brackets 460); (* CGdtfFixture.cpp:1819 *)
  G "CGdtfFixtureImpl::CreateGamut" "CGdtfFixtureImpl" "IID_GdtfGamut" "CGdtfGamutImpl" "IGdtfGamut" NewFirst (Checks 4) false KNew; (* CGdtfFixture.cpp:1865 *)
  G "CGdtfFixtureImpl::GetEmitterAt" "CGdtfFixtureImpl" "IID_GdtfPhysicalEmitter" "CGdtfPhysicalEmitterImpl" "IGdtfPhysicalEmitter" NewFirst (Checks 4) false (KAt AtGeSize Brackets 460); (* CGdtfFixture.cpp:1923 *)
  G "CGdtfFixtureImpl::CreateEmitter" "CGdtfFixtureImpl" "IID_GdtfPhysicalEmitter" "CGdtfPhysicalEmitterImpl" "IGdtfPhysicalEmitter" NewFirst (Checks 4) false KNew; (* CGdtfFixture.cpp:1971 *)
  G "CGdtfFixtureImpl::GetFilterAt" "CGdtfFixtureImpl" "IID_GdtfFilter" "CGdtfFilterImpl" "IGdtfFilter" NewFirst (Checks 4) false (KAt AtGeSize Brackets 460); (* CGdtfFixture.cpp:2027 *)
  G "CGdtfFixtureImpl::CreateFilter" "CGdtfFixtureImpl" "IID_GdtfFilter" "CGdtfFilterImpl" "IGdtfFilter" NewFirst (Checks 4) false KNew; (* CGdtfFixture.cpp:2076 *)
  G "CGdtfFixtureImpl::GetDMXProfileAt" "CGdtfFixtureImpl" "IID_GdtfDMXProfile" "CGdtfDMXProfileImpl" "IGdtfDMXProfile" NewFirst (Checks 4) false (KAt AtGeSize Brackets 460); (* CGdtfFixture.cpp:2132 *)
  G "CGdtfFixtureImpl::CreateDMXProfile" "CGdtfFixtureImpl" "IID_GdtfDMXProfile" "CGdtfDMXProfileImpl" "IGdtfDMXProfile" NewFirst (Checks 4) false KNew; (* CGdtfFixture.cpp:2181 *)
  G "CGdtfFixtureImpl::GetCRIGroupAt" "CGdtfFixtureImpl" "IID_GdtfCRIGroup" "CGdtfCRIGroupImpl" "IGdtfCRIGroup" NewFirst (Checks 4) false (KAt AtGeSize Brackets 460); (* CGdtfFixture.cpp:2235 *)
  G "CGdtfFixtureImpl::CreateCRIGroup" "CGdtfFixtureImpl" "IID_GdtfCRIGroup" "CGdtfCRIGroupImpl" "IGdtfCRIGroup" NewFirst (Checks 4) false KNew; (* CGdtfFixture.cpp:2293 *)
  G "CGdtfFixtureImpl::GetParsingErrorAt" "CGdtfFixtureImpl" "IID_GdtfXmlParsingError" "CGdtfXmlParsingErrorImpl" "IGdtfXmlParsingError" NewFirst (Checks 4) false (KAt AtGeSize Brackets 460); (* CGdtfFixture.cpp:2356 *)
  G "CGdtfFixtureImpl::GetConnectorAt" "CGdtfFixtureImpl" "IID_GdtfConnector" "CGdtfConnectorImpl" "IGdtfConnector" NewFirst (Checks 4) false (KAt AtGeSize Brackets 460); (* CGdtfFixture.cpp:2540 *)
  G "CGdtfFixtureImpl::CreateConnector" "CGdtfFixtureImpl" "IID_GdtfConnector" "CGdtfConnectorImpl" "IGdtfConnector" NewFirst (Checks 4) false KNew; (* CGdtfFixture.cpp:2588 *)
  G "CGdtfGeometryImpl::GetModel" "CGdtfGeometryImpl" "IID_GdtfModel" "CGdtfModelImpl" "IGdtfModel" NewFirst (Checks 4) false (KOne (Some 461%N)); (* CGdtfGeometry.cpp:45 *)
  G "CGdtfGeometryImpl::GetParent" "CGdtfGeometryImpl" "IID_GdtfGeometry" "CGdtfGeometryImpl" "IGdtfGeometry" NewFirst (Checks 4) false (KOne (Some 461%N)); (* CGdtfGeometry.cpp:103 *)
  G "CGdtfGeometryImpl::GetInternalGeometryAt" "CGdtfGeometryImpl" "IID_GdtfGeometry" "CGdtfGeometryImpl" "IGdtfGeometry" NewFirst (Checks 4) false (KAt AtGeSize Brackets 460); (* CGdtfGeometry.cpp:157 *)
  G "CGdtfGeometryImpl::CreateGeometry" "CGdtfGeometryImpl" "IID_GdtfGeometry" "CGdtfGeometryImpl" "IGdtfGeometry" NewFirst (Checks 4) false KNew; (* CGdtfGeometry.cpp:205 *)
  G "CGdtfGeometryImpl::GetEmitterSpectrum" "CGdtfGeometryImpl" "IID_GdtfPhysicalEmitter" "CGdtfPhysicalEmitterImpl" "IGdtfPhysicalEmitter" NewFirst (Checks 4) false (KOne (Some 461%N)); (* CGdtfGeometry.cpp:459 *)
  G "CGdtfGeometryImpl::SetModel" "CGdtfGeometryImpl" "IID_GdtfModel" "CGdtfModelImpl" "IGdtfModel" NewFirst (Checks 4) false (KOne (Some 461%N)); (* CGdtfGeometry.cpp:521 *)
  G "CGdtfGeometryImpl::GetBreakAt" "CGdtfGeometryImpl" "IID_GdtfBreak" "CGdtfBreakImpl" "IGdtfBreak" NewFirst (Checks 4) false (KAt SizeLtAt Brackets 460); (* CGdtfGeometry.cpp:781 *)
  G "CGdtfGeometryImpl::CreateBreak" "CGdtfGeometryImpl" "IID_GdtfBreak" "CGdtfBreakImpl" "IGdtfBreak" NewFirst (Checks 4) false KNew; (* CGdtfGeometry.cpp:833 *)
  G "CGdtfGeometryImpl::GetGeometryReference" "CGdtfGeometryImpl" "IID_GdtfGeometry" "CGdtfGeometryImpl" "IGdtfGeometry" NewFirst (Checks 4) false (KOne (Some 461%N)); (* CGdtfGeometry.cpp:886 *)
  G "CGdtfGeometryImpl::GetLinkedDmxChannelAt" "CGdtfGeometryImpl" "IID_GdtfDmxChannel" "CGdtfDmxChannelImpl" "IGdtfDmxChannel" NewFirst Embedded false (KAt AtGeSize Brackets 460); (* CGdtfGeometry.cpp:1089 *)
  G "CGdtfGeometryImpl::GetEmitter" "CGdtfGeometryImpl" "IID_GdtfPhysicalEmitter" "CGdtfPhysicalEmitterImpl" "IGdtfPhysicalEmitter" NewFirst (Checks 4) false (KOne (Some 461%N)); (* CGdtfGeometry.cpp:1186 *)
  G "CGdtfGeometryImpl::GetLaserProtocolAt" "CGdtfGeometryImpl" "IID_GdtfLaserProtocol" "CGdtfLaserProtocolImpl" "IGdtfLaserProtocol" NewFirst (Checks 4) false (KAt SizeLtAt Brackets 460); (* CGdtfGeometry.cpp:1501 *)
  G "CGdtfGeometryImpl::CreateLaserProtocol" "CGdtfGeometryImpl" "IID_GdtfLaserProtocol" "CGdtfLaserProtocolImpl" "IGdtfLaserProtocol" NewFirst (Checks 4) false KNew; (* CGdtfGeometry.cpp:1553 *)
  G "CGdtfGeometryImpl::GetPinPatchAt" "CGdtfGeometryImpl" "IID_GdtfPinPatch" "CGdtfPinPatchImpl" "IGdtfPinPatch" NewFirst (Checks 4) false (KAt SizeLtAt Brackets 460); (* CGdtfGeometry.cpp:2124 *)
  G "CGdtfGeometryImpl::CreatePinPatch" "CGdtfGeometryImpl" "IID_GdtfPinPatch" "CGdtfPinPatchImpl" "IGdtfPinPatch" NewFirst (Checks 4) false KNew; (* CGdtfGeometry.cpp:2176 *)
  G "CGdtfGeometryImpl::GetStructureLinkedGeometry" "CGdtfGeometryImpl" "IID_GdtfGeometry" "CGdtfGeometryImpl" "IGdtfGeometry" NewFirst (Checks 4) false (KOne (Some 461%N)); (* CGdtfGeometry.cpp:2274 *)
  G "CGdtfMacroImpl::GetChannelFunction" "CGdtfMacroImpl" "IID_GdtfDmxChannelFunction" "CGdtfDmxChannelFunctionImpl" "IGdtfDmxChannelFunction" NewFirst (Checks 4) false (KOne (Some 461%N)); (* CGdtfMacro.cpp:43 *)
  G "CGdtfMacroImpl::CreateMacroDMX" "CGdtfMacroImpl" "IID_GdtfMacroDMX" "CGdtfMacroDMXImpl" "IGdtfMacroDMX" NewFirst (Checks 4) false KNew; (* CGdtfMacro.cpp:104 *)
  G "CGdtfMacroImpl::CreateMacroVisual" "CGdtfMacroImpl" "IID_GdtfMacroVisual" "CGdtfMacroVisualImpl" "IGdtfMacroVisual" NewFirst (Checks 4) false KNew; (* CGdtfMacro.cpp:147 *)
  G "CGdtfMacroImpl::GetMacroDMX" "CGdtfMacroImpl" "IID_GdtfMacroDMX" "CGdtfMacroDMXImpl" "IGdtfMacroDMX" NewFirst (Checks 4) false (KOne (Some 461%N)); (* CGdtfMacro.cpp:191 *)
  G "CGdtfMacroImpl::GetMacroVisual" "CGdtfMacroImpl" "IID_GdtfMacroVisual" "CGdtfMacroVisualImpl" "IGdtfMacroVisual" NewFirst (Checks 4) false (KOne (Some 461%N)); (* CGdtfMacro.cpp:236 *)
  G "CGdtfMacroDMXImpl::CreateStep" "CGdtfMacroDMXImpl" "IID_GdtfMacroDMXStep" "CGdtfMacroDMXStepImpl" "IGdtfMacroDMXStep" NewFirst (Checks 4) false KNew; (* CGdtfMacroDMX.cpp:26 *)
  G "CGdtfMacroDMXImpl::GetStepAt" "CGdtfMacroDMXImpl" "IID_GdtfMacroDMXStep" "CGdtfMacroDMXStepImpl" "IGdtfMacroDMXStep" NewFirst (Checks 4) false (KAt AtGeSize Brackets 460); (* CGdtfMacroDMX.cpp:97 *)
  G "CGdtfMacroDMXStepImpl::GetDMXValueAt" "CGdtfMacroDMXStepImpl" "IID_GdtfMacroDMXValue" "CGdtfMacroDMXValueImpl" "IGdtfMacroDMXValue" NewFirst (Checks 4) false (KAt AtGeSize Brackets 460); (* CGdtfMacroDMXStep.cpp:47 *)
  G "CGdtfMacroDMXStepImpl::CreateDMXValue" "CGdtfMacroDMXStepImpl" "IID_GdtfMacroDMXValue" "CGdtfMacroDMXValueImpl" "IGdtfMacroDMXValue" NewFirst (Checks 4) false KNew; (* CGdtfMacroDMXStep.cpp:92 *)
  G "CGdtfMacroDMXValueImpl::GetDmxChannel" "CGdtfMacroDMXValueImpl" "IID_GdtfDmxChannel" "CGdtfDmxChannelImpl" "IGdtfDmxChannel" NewFirst (Checks 4) false (KOne None); (* CGdtfMacroDMXValue.cpp:45 *)
  G "CGdtfMacroVisualImpl::GetVisualStepAt" "CGdtfMacroVisualImpl" "IID_GdtfMacroVisualStep" "CGdtfMacroVisualStepImpl" "IGdtfMacroVisualStep" NewFirst (Checks 4) false (KAt AtGeSize Brackets 460); (* CGdtfMacroVisual.cpp:27 *)
  G "CGdtfMacroVisualImpl::CreateVisualStep" "CGdtfMacroVisualImpl" "IID_GdtfMacroVisualStep" "CGdtfMacroVisualStepImpl" "IGdtfMacroVisualStep" NewFirst (Checks 4) false KNew; (* CGdtfMacroVisual.cpp:74 *)
  G "CGdtfMacroVisualStepImpl::GetVisualValueAt" "CGdtfMacroVisualStepImpl" "IID_GdtfMacroVisualValue" "CGdtfMacroVisualValueImpl" "IGdtfMacroVisualValue" NewFirst (Checks 4) false (KAt AtGeSize Brackets 460); (* CGdtfMacroVisualStep.cpp:87 *)
  G "CGdtfMacroVisualStepImpl::CreateVisualValue" "CGdtfMacroVisualStepImpl" "IID_GdtfMacroVisualValue" "CGdtfMacroVisualValueImpl" "IGdtfMacroVisualValue" NewFirst (Checks 4) false KNew; (* CGdtfMacroVisualStep.cpp:135 *)
  G "CGdtfMacroVisualValueImpl::GetDmxChannel" "CGdtfMacroVisualValueImpl" "IID_GdtfDmxChannelFunction" "CGdtfDmxChannelFunctionImpl" "IGdtfDmxChannelFunction" NewFirst (Checks 4) false (KOne None); (* CGdtfMacroVisualValue.cpp:27 *)
  G "CGdtfMeasurementImpl::GetMeasurementPointAt" "CGdtfMeasurementImpl" "IID_GdtfMeasurementPoint" "CGdtfMeasurementPointImpl" "IGdtfMeasurementPoint" NewFirst (Checks 4) false (KAt AtGeSize Brackets 460); (* CGdtfMeasurement.cpp:109 *)
  G "CGdtfMeasurementImpl::CreateMeasurementPoint" "CGdtfMeasurementImpl" "IID_GdtfMeasurementPoint" "CGdtfMeasurementPointImpl" "IGdtfMeasurementPoint" NewFirst (Checks 4) false KNew; (* CGdtfMeasurement.cpp:158 *)
  G "CGdtfPhysicalEmitterImpl::GetMeasurementAt" "CGdtfPhysicalEmitterImpl" "IID_GdtfMeasurement" "CGdtfMeasurementImpl" "IGdtfMeasurement" NewFirst (Checks 4) false (KAt AtGeSize Brackets 460); (* CGdtfPhysicalEmitter.cpp:53 *)
  G "CGdtfPhysicalEmitterImpl::CreateMeasurement" "CGdtfPhysicalEmitterImpl" "IID_GdtfMeasurement" "CGdtfMeasurementImpl" "IGdtfMeasurement" NewFirst (Checks 4) false KNew; (* CGdtfPhysicalEmitter.cpp:100 *)
  G "CGdtfPinPatchImpl::GetLinkedWiringObject" "CGdtfPinPatchImpl" "IID_GdtfGeometry" "CGdtfGeometryImpl" "IGdtfGeometry" NewFirst (Checks 4) false (KOne (Some 461%N)); (* CGdtfPinPatch.cpp:21 *)
  G "CGdtfSACNImpl::GetMapAt" "CGdtfSACNImpl" "IID_GdtfMap" "CGdtfMapImpl" "IGdtfMap" NewFirst (Checks 4) false (KAt AtGeSize Brackets 460); (* CGdtfSACN.cpp:30 *)
  G "CGdtfSACNImpl::CreateMap" "CGdtfSACNImpl" "IID_GdtfMap" "CGdtfMapImpl" "IGdtfMap" NewFirst (Checks 4) false KNew; (* CGdtfSACN.cpp:77 *)
  G "CGdtfSoftwareVersionIDImpl::GetDMXPersonalityAt" "CGdtfSoftwareVersionIDImpl" "IID_GdtfDMXPersonality" "CGdtfDMXPersonalityImpl" "IGdtfDMXPersonality" NewFirst (Checks 4) false (KAt AtGeSize Brackets 460); (* CGdtfSoftwareVersionID.cpp:51 *)
  G "CGdtfSoftwareVersionIDImpl::CreateDMXPersonality" "CGdtfSoftwareVersionIDImpl" "IID_GdtfDMXPersonality" "CGdtfDMXPersonalityImpl" "IGdtfDMXPersonality" NewFirst (Checks 4) false KNew; (* CGdtfSoftwareVersionID.cpp:100 *)
  G "CGdtfWheelImpl::GetWheelSlotAt" "CGdtfWheelImpl" "IID_GdtfWheelSlot" "CGdtfWheelSlotImpl" "IGdtfWheelSlot" NewFirst (Checks 4) false (KAt AtGeSize Brackets 460); (* CGdtfWheel.cpp:40 *)
  G "CGdtfWheelImpl::CreateWheelSlot" "CGdtfWheelImpl" "IID_GdtfWheelSlot" "CGdtfWheelSlotImpl" "IGdtfWheelSlot" NewFirst (Checks 4) false KNew; (* CGdtfWheel.cpp:88 *)
  G "CGdtfWheelSlotImpl::GetPrismFacetAt" "CGdtfWheelSlotImpl" "IID_GdtfWheelSlotPrismFacet" "CGdtfWheelSlotPrismFacetImpl" "IGdtfWheelSlotPrismFacet" NewFirst (Checks 4) false (KAt AtGeSize Brackets 460); (* CGdtfWheelSlot.cpp:99 *)
  G "CGdtfWheelSlotImpl::CreatePrismFacet" "CGdtfWheelSlotImpl" "IID_GdtfWheelSlotPrismFacet" "CGdtfWheelSlotPrismFacetImpl" "IGdtfWheelSlotPrismFacet" NewFirst (Checks 4) false KNew; (* CGdtfWheelSlot.cpp:146 *)
  G "CGdtfWheelSlotImpl::GetAnimationSystem" "CGdtfWheelSlotImpl" "IID_GdtfWheelSlotAnimationSystem" "CGdtfWheelSlotAnimationSystemImpl" "IGdtfWheelSlotAnimationSystem" NewFirst (Checks 4) false (KOne (Some 461%N)); (* CGdtfWheelSlot.cpp:196 *)
  G "CGdtfWheelSlotImpl::CreateAnimationSystem" "CGdtfWheelSlotImpl" "IID_GdtfWheelSlotAnimationSystem" "CGdtfWheelSlotAnimationSystemImpl" "IGdtfWheelSlotAnimationSystem" NewFirst (Checks 4) false KNew; (* CGdtfWheelSlot.cpp:241 *)
  G "CGdtfWheelSlotImpl::GetFilter" "CGdtfWheelSlotImpl" "IID_GdtfFilter" "CGdtfFilterImpl" "IGdtfFilter" NewFirst (Checks 4) false (KOne (Some 461%N)); (* CGdtfWheelSlot.cpp:316 *)
  G "CGeometryReferenceImpl::GetSymDef" "CGeometryReferenceImpl" "IID_ISymDef" "CSymDefImpl" "ISymDef" NewFirst (Checks 4) false (KOne (Some 4%N)); (* CGeometryReferenceImpl.cpp:49 *)
  G "CMappingDefinitionImpl::GetSource" "CMappingDefinitionImpl" "IID_SourceObj" "CSourceImpl" "ISource" NewFirst (Checks 4) false (KOne None); (* CMappingDefinitionImpl.cpp:67 *)
  G "CMediaRessourceVectorImpl::CreateDataProviderObject" "CMediaRessourceVectorImpl" "IID_SceneDataProvider" "CSceneDataProviderImpl" "ISceneDataProvider" NewFirst Embedded false KNew; (* CMediaRessourceVectorImpl.cpp:103 *)
  G "CMediaRessourceVectorImpl::CreatePositionObject" "CMediaRessourceVectorImpl" "IID_PositionObj" "CPositionImpl" "IPosition" NewFirst Embedded false KNew; (* CMediaRessourceVectorImpl.cpp:145 *)
  G "CMediaRessourceVectorImpl::CreateSymDefObject" "CMediaRessourceVectorImpl" "IID_ISymDef" "CSymDefImpl" "ISymDef" NewFirst Embedded false KNew; (* CMediaRessourceVectorImpl.cpp:190 *)
  G "CMediaRessourceVectorImpl::CreateClassObject" "CMediaRessourceVectorImpl" "IID_IClass" "CClassImpl" "IClass" NewFirst Embedded false KNew; (* CMediaRessourceVectorImpl.cpp:238 *)
  G "CMediaRessourceVectorImpl::CreateMappingDefinitionObject" "CMediaRessourceVectorImpl" "IID_MappingDefinitionObj" "CMappingDefinitionImpl" "IMappingDefinition" NewFirst Embedded false KNew; (* CMediaRessourceVectorImpl.cpp:283 *)
  G "CMediaRessourceVectorImpl::CreateLayerObject" "CMediaRessourceVectorImpl" "IID_SceneObject" "CSceneObjImpl" "ISceneObj" NewFirst Embedded false KNew; (* CMediaRessourceVectorImpl.cpp:328 *)
  G "CMediaRessourceVectorImpl::CreateGroupObject" "CMediaRessourceVectorImpl" "IID_SceneObject" "CSceneObjImpl" "ISceneObj" NewFirst Embedded false KNew; (* CMediaRessourceVectorImpl.cpp:372 *)
  G "CMediaRessourceVectorImpl::CreateFixture" "CMediaRessourceVectorImpl" "IID_SceneObject" "CSceneObjImpl" "ISceneObj" NewFirst Embedded false KNew; (* CMediaRessourceVectorImpl.cpp:504 *)
  G "CMediaRessourceVectorImpl::CreateSceneObject" "CMediaRessourceVectorImpl" "IID_SceneObject" "CSceneObjImpl" "ISceneObj" NewFirst Embedded false KNew; (* CMediaRessourceVectorImpl.cpp:573 *)
  G "CMediaRessourceVectorImpl::CreateFocusPoint" "CMediaRessourceVectorImpl" "IID_SceneObject" "CSceneObjImpl" "ISceneObj" NewFirst Embedded false KNew; (* CMediaRessourceVectorImpl.cpp:639 *)
  G "CMediaRessourceVectorImpl::CreateTruss" "CMediaRessourceVectorImpl" "IID_SceneObject" "CSceneObjImpl" "ISceneObj" NewFirst Embedded false KNew; (* CMediaRessourceVectorImpl.cpp:706 *)
  G "CMediaRessourceVectorImpl::CreateSupport" "CMediaRessourceVectorImpl" "IID_SceneObject" "CSceneObjImpl" "ISceneObj" NewFirst Embedded false KNew; (* CMediaRessourceVectorImpl.cpp:775 *)
  G "CMediaRessourceVectorImpl::CreateVideoScreen" "CMediaRessourceVectorImpl" "IID_SceneObject" "CSceneObjImpl" "ISceneObj" NewFirst Embedded false KNew; (* CMediaRessourceVectorImpl.cpp:844 *)
  G "CMediaRessourceVectorImpl::CreateProjector" "CMediaRessourceVectorImpl" "IID_SceneObject" "CSceneObjImpl" "ISceneObj" NewFirst Embedded false KNew; (* CMediaRessourceVectorImpl.cpp:912 *)
  G "CMediaRessourceVectorImpl::GetDataProviderObjectAt" "CMediaRessourceVectorImpl" "IID_SceneDataProvider" "CSceneDataProviderImpl" "ISceneDataProvider" NewFirst Embedded false (KAt AtGeSize Throws 15); (* CMediaRessourceVectorImpl.cpp:1031 *)
  G "CMediaRessourceVectorImpl::GetPositionObjectAt" "CMediaRessourceVectorImpl" "IID_PositionObj" "CPositionImpl" "IPosition" NewFirst Embedded false (KAt AtGeSize Throws 15); (* CMediaRessourceVectorImpl.cpp:1087 *)
  G "CMediaRessourceVectorImpl::GetSymDefAt" "CMediaRessourceVectorImpl" "IID_ISymDef" "CSymDefImpl" "ISymDef" NewFirst Embedded false (KAt AtGeSize Throws 15); (* CMediaRessourceVectorImpl.cpp:1142 *)
  G "CMediaRessourceVectorImpl::GetClassAt" "CMediaRessourceVectorImpl" "IID_IClass" "CClassImpl" "IClass" NewFirst Embedded false (KAt AtGeSize Throws 15); (* CMediaRessourceVectorImpl.cpp:1205 *)
  G "CMediaRessourceVectorImpl::GetMappingDefinitionAt" "CMediaRessourceVectorImpl" "IID_MappingDefinitionObj" "CMappingDefinitionImpl" "IMappingDefinition" NewFirst Embedded false (KAt AtGeSize Throws 15); (* CMediaRessourceVectorImpl.cpp:1260 *)
  G "CMediaRessourceVectorImpl::GetFirstLayer" "CMediaRessourceVectorImpl" "IID_SceneObject" "CSceneObjImpl" "ISceneObj" ReleaseFirst Embedded false (KOne (Some 458%N)); (* CMediaRessourceVectorImpl.cpp:1308 *)
  G "CMediaRessourceVectorImpl::GetFirstChild" "CSceneObjImpl" "IID_SceneObject" "CSceneObjImpl" "ISceneObj" NewFirst (Checks 457) false (KOne (Some 465%N)); (* CMediaRessourceVectorImpl.cpp:1352 *)
  G "CMediaRessourceVectorImpl::GetNextObject" "CSceneObjImpl" "IID_SceneObject" "CSceneObjImpl" "ISceneObj" ReadFirst Unchecked false (KOne (Some 461%N)); (* CMediaRessourceVectorImpl.cpp:1426 *)
  G "CSceneObjImpl::GetMultipatchParent" "CSceneObjImpl" "IID_SceneObject" "CSceneObjImpl" "ISceneObj" NewFirst (Checks 4) false (KOne (Some 461%N)); (* CSceneObjImpl.cpp:95 *)
  G "CSceneObjImpl::GetGeometryAt" "CSceneObjImpl" "IID_GeometryReference" "CGeometryReferenceImpl" "IGeometryReference" NewFirst (Checks 4) false (KAt AtGeSize Throws 15); (* CSceneObjImpl.cpp:180 *)
  G "CSceneObjImpl::GetClass" "CSceneObjImpl" "IID_IClass" "CClassImpl" "IClass" NewFirst (Checks 4) false (KOne (Some 461%N)); (* CSceneObjImpl.cpp:301 *)
  G "CSceneObjImpl::GetCustomCommandAt" "CSceneObjImpl" "IID_CustomCommand" "CCustomCommandImpl" "ICustomCommand" NewFirst (Checks 4) false (KAt AtGeSize Throws 15); (* CSceneObjImpl.cpp:557 *)
  G "CSceneObjImpl::CreateCustomCommand" "CSceneObjImpl" "IID_CustomCommand" "CCustomCommandImpl" "ICustomCommand" NewFirst (Checks 1) false KNew; (* CSceneObjImpl.cpp:610 *)
  G "CSceneObjImpl::GetAlignmentAt" "CSceneObjImpl" "IID_Alignment" "CAlignmentImpl" "IAlignment" NewFirst (Checks 4) false (KAt AtGeSize Throws 15); (* CSceneObjImpl.cpp:666 *)
  G "CSceneObjImpl::CreateAlignment" "CSceneObjImpl" "IID_Alignment" "CAlignmentImpl" "IAlignment" NewFirst (Checks 4) false KNew; (* CSceneObjImpl.cpp:719 *)
  G "CSceneObjImpl::GetOverwriteAt" "CSceneObjImpl" "IID_Overwrite" "COverwriteImpl" "IOverwrite" NewFirst (Checks 4) false (KAt AtGeSize Throws 15); (* CSceneObjImpl.cpp:779 *)
  G "CSceneObjImpl::CreateOverwrite" "CSceneObjImpl" "IID_Overwrite" "COverwriteImpl" "IOverwrite" NewFirst (Checks 4) false KNew; (* CSceneObjImpl.cpp:832 *)
  G "CSceneObjImpl::GetFocusPoint" "CSceneObjImpl" "IID_SceneObject" "CSceneObjImpl" "ISceneObj" NewFirst (Checks 4) false (KOne (Some 461%N)); (* CSceneObjImpl.cpp:882 *)
  G "CSceneObjImpl::GetPosition" "CSceneObjImpl" "IID_PositionObj" "CPositionImpl" "IPosition" NewFirst (Checks 4) false (KOne None); (* CSceneObjImpl.cpp:947 *)
  G "CSceneObjImpl::GetMappingAt" "CSceneObjImpl" "IID_MappingObj" "CMappingImpl" "IMapping" NewFirst (Checks 4) false (KAt AtGeSize Throws 15); (* CSceneObjImpl.cpp:1361 *)
  G "CSceneObjImpl::GetConnectionAt" "CSceneObjImpl" "IID_ConnectionObj" "CConnectionImpl" "IConnection" NewFirst (Checks 4) false (KAt AtGeSize Throws 15); (* CSceneObjImpl.cpp:1440 *)
  G "CSceneObjImpl::CreateConnection" "CSceneObjImpl" "IID_ConnectionObj" "CConnectionImpl" "IConnection" NewFirst Unchecked false KNew; (* CSceneObjImpl.cpp:1487 *)
  G "CSceneObjImpl::GetVideoScreenSource" "CSceneObjImpl" "IID_SourceObj" "CSourceImpl" "ISource" NewFirst (Checks 4) false (KOne None); (* CSceneObjImpl.cpp:1927 *)
  G "CSceneObjImpl::GetProjectorSource" "CSceneObjImpl" "IID_SourceObj" "CSourceImpl" "ISource" NewFirst (Checks 4) false (KOne None); (* CSceneObjImpl.cpp:2008 *)
  G "CSymDefImpl::GetGeometryAt" "CSymDefImpl" "IID_GeometryReference" "CGeometryReferenceImpl" "IGeometryReference" NewFirst (Checks 4) false (KAt AtGeSize Throws 15); (* CSymDefImpl.cpp:59 *)
  G "CFileIdentifier::GetFolder" "CFileIdentifier" "IID_FolderIdentifier" "CFolderIdentifier" "IFolderIdentifier" ReleaseFirst (Checks 4) false KNew; (* FileIdentifier.cpp:366 *)
  G "CFolderIdentifier::GetParentFolder" "CFolderIdentifier" "IID_FolderIdentifier" "CFolderIdentifier" "IFolderIdentifier" ReleaseFirst (Checks 1) false KNew; (* FolderIdentifier.cpp:364 *)
  G "CXMLFileImpl::GetRootNode" "CXMLFileImpl" "IID_XMLFileNode" "CXMLFileNodeImpl" "IXMLFileNode" NoRelease (Checks 4) false KNew; (* XMLFileImpl.cpp:515 *)
  G "CXMLFileNodeImpl::GetChildNode" "CXMLFileNodeImpl" "IID_XMLFileNode" "CXMLFileNodeImpl" "IXMLFileNode" NewFirst (Checks 4) true (KOne (Some 105%N)); (* XMLFileNodeImpl.cpp:464 *)
  G "CXMLFileNodeImpl::GetParentNode" "CXMLFileNodeImpl" "IID_XMLFileNode" "CXMLFileNodeImpl" "IXMLFileNode" NewFirst (Checks 4) true (KOne (Some 105%N)); (* XMLFileNodeImpl.cpp:616 *)
  G "CXMLFileNodeImpl::GetFirstChildNode" "CXMLFileNodeImpl" "IID_XMLFileNode" "CXMLFileNodeImpl" "IXMLFileNode" NewFirst (Checks 4) true (KOne (Some 105%N)); (* XMLFileNodeImpl.cpp:655 *)
  G "CXMLFileNodeImpl::GetLastChildNode" "CXMLFileNodeImpl" "IID_XMLFileNode" "CXMLFileNodeImpl" "IXMLFileNode" NewFirst (Checks 4) true (KOne (Some 105%N)); (* XMLFileNodeImpl.cpp:706 *)
  G "CXMLFileNodeImpl::GetNextSiblingNode" "CXMLFileNodeImpl" "IID_XMLFileNode" "CXMLFileNodeImpl" "IXMLFileNode" NewFirst (Checks 4) true (KOne (Some 105%N)); (* XMLFileNodeImpl.cpp:757 *)
  G "CXMLFileNodeImpl::GetPrevSiblingNode" "CXMLFileNodeImpl" "IID_XMLFileNode" "CXMLFileNodeImpl" "IXMLFileNode" NewFirst (Checks 4) true (KOne (Some 105%N)); (* XMLFileNodeImpl.cpp:808 *)
  G "CXMLFileNodeImpl::FindChildNode" "CXMLFileNodeImpl" "IID_XMLFileNode" "CXMLFileNodeImpl" "IXMLFileNode" NewFirst (Checks 4) true (KOne (Some 105%N)); (* XMLFileNodeImpl.cpp:856 *)
  G "CXMLFileNodeImpl::CreateChildNodeBeforeIndex" "CXMLFileNodeImpl" "IID_XMLFileNode" "CXMLFileNodeImpl" "IXMLFileNode" NewFirst (Checks 4) true KNew; (* XMLFileNodeImpl.cpp:943 *)
  G "CXMLFileNodeImpl::AddCopyOfExistingNodeBeforeIndex" "CXMLFileNodeImpl" "IID_XMLFileNode" "CXMLFileNodeImpl" "IXMLFileNode" NewFirst (Checks 4) true KNew (* XMLFileNodeImpl.cpp:1040 *)
].
