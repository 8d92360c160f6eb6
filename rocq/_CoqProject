-Q theories Verif

theories/Bytes.v
theories/BytesFacts.v
theories/Ssbh.v
theories/Described.v
theories/SsbhFacts.v
theories/Roundtrip.v
theories/RoundtripMain.v
theories/WriteFacts.v
theories/Formats.v
theories/File.v
theories/SsbhSpec.v
theories/DecFacts.v
theories/FileFacts.v
theories/ExtFacts.v
theories/RefFacts.v
theories/Strings.v
theories/MeshEx.v
theories/FileSpec.v
theories/Examples.v
theories/SsbhLemmas.v
theories/MeshExFacts.v
theories/PropsSsbh.v
theories/HeaderFacts.v
theories/PropsFiles.v
theories/Bits.v
theories/Float32.v
theories/AnimComp.v
theories/AnimBuf.v
theories/BitsFacts.v
theories/AnimSpec.v
theories/PlainFacts.v
theories/TrackFacts.v
theories/CodecFacts.v
theories/AnimFile.v
theories/AnimFacts.v
theories/AnimDataFacts.v
theories/AnimLemmas.v
theories/ResaveSpec.v
theories/AnimAgain.v
theories/PropsAnim.v
theories/SmallData.v
theories/DataSpec.v
theories/SmallDataFacts.v
theories/PropsData.v
theories/AdjData.v
theories/AdjSpec.v
theories/AdjDataFacts.v
theories/PropsAdj.v
theories/SkelData.v
theories/SkelSpec.v
theories/SkelFacts.v
theories/PropsSkel.v
theories/MatlData.v
theories/MatlSpec.v
theories/MatlFacts.v
theories/ReloadFacts.v
theories/PropsMatl.v
theories/PropsReload.v
theories/VecData.v
theories/MeshData.v
theories/MeshSpec.v
theories/FloatFacts.v
theories/VecFacts.v
theories/MeshFacts.v
theories/RigFacts.v
theories/MeshLemmas.v
theories/ResaveFacts.v
theories/PropsMesh.v
theories/FlocqFacts.v
theories/QuantSpec.v
theories/QuantFacts.v
theories/QuantTrack.v
theories/QuantResave.v
theories/PropsQuant.v
theories/RoundFacts.v
theories/PropsRound.v
theories/StoredSpec.v
theories/StoredFacts.v
theories/PropsStored.v
theories/RotFacts.v
theories/ShdrData.v
theories/ShdrSpec.v
theories/ShdrFacts.v
theories/ShdrFileFacts.v
theories/PropsShdr.v
theories/TrackSpec.v
theories/TrackRead.v
theories/PropsTrack.v
theories/AnimReadSpec.v
theories/DataFuzz.v
theories/AnimRead.v
theories/AnimReload.v
theories/PropsAnimRead.v
theories/MeshReadSpec.v
theories/MeshRead.v
theories/MeshReload.v
theories/MeshNames.v
theories/PropsMeshRead.v
theories/TransformData.v
theories/TransformSpec.v
theories/TransformFacts.v
theories/PropsTransform.v
theories/Json.v
theories/JsonSchema.v
theories/JsonFile.v
theories/JsonSpec.v
theories/JsonFacts.v
theories/JsonRound.v
theories/JsonDoc.v
theories/JsonOrder.v
theories/JsonTool.v
theories/JsonType.v
theories/PropsJson.v
theories/DataJson.v
theories/DataJsonSpec.v
theories/DataJsonLayout.v
theories/DataJsonRep.v
theories/DataJsonFacts.v
theories/DataJsonLoad.v
theories/DataJsonTool.v
theories/PropsDataJson.v
theories/Work.v
theories/WorkSpec.v
theories/WorkFacts.v
theories/WorkBomb.v
theories/PropsWork.v
theories/WorkData.v
theories/PropsWorkData.v
theories/Derive.v
theories/Elab.v
theories/Items.v
theories/DeriveFacts.v
theories/Source.v
theories/SourceFacts.v
theories/PropsDerive.v
theories/TestTools.v
theories/TestsLib.v
theories/TestsBuf.v
theories/TestsAnim.v
theories/TestsMesh.v
theories/TestsData.v
theories/SelfTest.v
theories/SelfTestFacts.v
theories/SizeSpec.v
theories/SizeFacts.v
theories/SizeFileFacts.v
theories/PropsSelf.v
theories/SizeLoad.v
theories/SizeLoadFacts.v
theories/SizeDataFacts.v
theories/PropsSizes.v
theories/DataFuzzFacts.v
theories/PropsFuzz.v
theories/Bounding.v
theories/BoundingSpec.v
theories/BoundingFacts.v
theories/PropsBounding.v
theories/AgreeSpec.v
theories/AgreeFacts.v
theories/AgreeFacts2.v
theories/AgreeFacts3.v
theories/AgreeFacts4.v
theories/PropsAgree.v
theories/CutSpec.v
theories/CutFacts.v
theories/PropsCut.v
theories/SaveSpec.v
theories/SaveFacts.v
theories/PropsSave.v
theories/AgainSpec.v
theories/AgainFacts.v
theories/PropsAgain.v
theories/ChoiceSpec.v
theories/ChoiceFacts.v
theories/PropsChoice.v
theories/ConvSpec.v
theories/ConvFacts.v
theories/PropsConv.v
theories/SerdeItems.v
theories/Serde.v
theories/SerdeSpec.v
theories/SerdeFacts.v
theories/PropsSerde.v
theories/BinRead.v
theories/BinReadFacts.v
theories/PropsBinRead.v
theories/JsonText.v
theories/JsonTextSpec.v
theories/JsonTextFacts.v
theories/JsonTextWrite.v
theories/JsonTextFloat.v
theories/JsonTextUtf8.v
theories/JsonTextFile.v
theories/JsonTextTool.v
theories/JsonTextDecimal.v
theories/JsonTextKept.v
theories/JsonTextFarey.v
theories/JsonTextAll.v
theories/JsonTextNumber.v
theories/JsonTextLong.v
theories/JsonTextNear.v
theories/JsonTextFinite.v
theories/JsonTextShort.v
theories/PropsJsonText.v
theories/Cli.v
theories/CliFacts.v
theories/PropsCli.v
