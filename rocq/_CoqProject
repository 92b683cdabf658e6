-Q theories Verif
theories/Bytes.v
theories/BytesProofs.v
theories/PacketModel.v
theories/PacketProofs.v
theories/PacketProps.v
theories/ZipModel.v
theories/ZipProofs.v
theories/ZipSpec.v
theories/ZipProofs2.v
theories/ZipProofs3.v
theories/ZipProps.v
theories/ZipBufModel.v
theories/ZipBufProofs.v
theories/ZipBufProps.v
theories/ShaModel.v
theories/ShaSpec.v
theories/ShaProofs.v
theories/ShaProps.v
theories/Txt.v
theories/UtfSpec.v
theories/UtfModel.v
theories/UtfProofs.v
theories/StringModel.v
theories/StringSpec.v
theories/StringProofs.v
theories/StringProofs2.v
theories/StringProps.v
theories/HashModel.v
theories/HashProps.v
theories/UuidModel.v
theories/UuidProps.v
theories/EnumModel.v
theories/EnumProps.v
theories/NumModel.v
theories/NumProofs.v
theories/ConvModel.v
theories/ConvProps.v
theories/ConvProps2.v
theories/ConvProps3.v
theories/DmxValProps.v
theories/JsonModel.v
theories/JsonProofs.v
theories/JsonParse.v
theories/JsonProps.v
theories/MessageModel.v
theories/MessageProofs.v
theories/MessageProps.v
theories/MessageProofs2.v
theories/MessageProps2.v
theories/ServiceModel.v
theories/ServiceProofs.v
theories/ServiceProps.v
theories/ServiceProps2.v
theories/SessionModel.v
theories/SessionProofs.v
theories/SessionProofs2.v
theories/SessionProps.v
theories/SessionProps2.v
theories/WaitModel.v
theories/WaitProps.v
theories/PathModel.v
theories/PathSpec.v
theories/PathProofs.v
theories/PathProofs2.v
theories/PathProps.v
theories/AttrModel.v
theories/AttrProps.v
theories/DmxModel.v
theories/DmxProps.v
theories/DmxWriteProps.v
theories/GeoModel.v
theories/GeoProps.v
theories/FootProps.v
theories/LookupModel.v
theories/LookupProps.v
theories/CheckModel.v
theories/CheckProps.v
theories/FloatModel.v
theories/FloatProps.v
theories/VecModel.v
theories/VecProps.v
theories/XmlModel.v
theories/XmlSpec.v
theories/XmlProofs.v
theories/XmlRef.v
theories/XmlProps.v
theories/XmlMore.v
theories/MdnsModel.v
theories/MdnsSpec.v
theories/MdnsProofs.v
theories/MdnsWrite.v
theories/MdnsMessages.v
theories/MdnsAnswer.v
theories/MdnsFound.v
theories/MdnsEnds.v
theories/MdnsMerge.v
theories/MdnsProps.v
theories/ObjModel.v
theories/ObjSpec.v
theories/ObjConv.v
theories/ObjAttrs.v
theories/ObjTree.v
theories/ObjCheck.v
theories/ObjProps.v
theories/ObjMore.v
theories/SceneModel.v
theories/SceneSpec.v
theories/SceneConv.v
theories/SceneTree.v
theories/SceneProofs.v
theories/SceneCheck.v
theories/SceneProps.v
theories/SceneMore.v
theories/SceneOther.v
theories/SceneFile.v
theories/LinkModel.v
theories/LinkSpec.v
theories/LinkWhere.v
theories/LinkProofs.v
theories/LinkEvents.v
theories/LinkProps.v
theories/LinkMain.v
theories/LinkCheck.v
theories/LinkCases.v
theories/EditModel.v
theories/EditProps.v
theories/UnpackProps.v
theories/KeepModel.v
theories/KeepProps.v
theories/BuildModel.v
theories/BuildProps.v
theories/MvrModel.v
theories/MvrProps.v
theories/RawModel.v
theories/RawProps.v
theories/VcomDefs.v
theories/VcomTable.v
theories/VcomModel.v
theories/VcomProofs.v
theories/VcomProps.v
theories/DomModel.v
theories/DomProps.v
theories/TransModel.v
theories/TransProps.v
theories/ColorModel.v
theories/ColorProps.v
theories/FindModel.v
theories/FindProps.v
theories/VersionModel.v
theories/VersionProps.v
theories/LineModel.v
theories/LineProps.v
theories/AngleModel.v
theories/AngleProps.v
theories/SpaceModel.v
theories/SpaceProps.v
theories/SubUnitModel.v
theories/SubUnitProps.v
theories/AbortModel.v
theories/AbortProps.v
theories/ProgressModel.v
theories/ProgressProps.v
