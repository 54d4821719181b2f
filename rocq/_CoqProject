-Q theories Verif
theories/GoStr.v
theories/GoStrFacts.v
theories/Sorting.v
theories/Types.v
theories/TvState.v
theories/TvReader.v
theories/TvUtil.v
theories/TvParser.v
theories/TvWriter.v
theories/SpecTv.v
theories/TvReaderFacts.v
theories/PropsTvReader.v
theories/SpecSpace.v
theories/SpaceFacts.v
theories/PropsSpace.v
theories/SpecId.v
theories/TvUtilFacts.v
theories/SpecDoc.v
theories/TvParserFacts.v
theories/PropsTvIds.v
theories/PropsTvParser.v
theories/SpecRead.v
theories/DenoteBase.v
theories/DenoteGlobal.v
theories/PropsTvMeaning.v
theories/SpecTags.v
theories/TvTagsFacts.v
theories/PropsTvTags.v
theories/Utils.v
theories/SpecUtils.v
theories/UtilsFacts.v
theories/PropsUtils.v
theories/SpdxLib.v
theories/LicenseTools.v
theories/Builder.v
theories/IdSearcher.v
theories/SpecTools.v
theories/ToolsFacts.v
theories/PropsTools.v
theories/BuilderFacts.v
theories/PropsBuilder.v
theories/SpecWrite.v
theories/TvWriterFacts.v
theories/TvRun.v
theories/TvRunFile.v
theories/TvRunList.v
theories/TvRunDoc.v
theories/TvCanon.v
theories/TvRoundTrip.v
theories/SpecInject.v
theories/TvInject.v
theories/PropsTvWrite.v
theories/Json.v
theories/JsonSpdx.v
theories/SpecJson.v
theories/JsonFacts.v
theories/JsonCodec.v
theories/JsonRound.v
theories/JsonRoundPkg.v
theories/JsonRoundDoc.v
theories/JsonHooks.v
theories/PropsJson.v
theories/RdfConst.v
theories/Rdf.v
theories/RdfReader.v
theories/SpecRdf.v
theories/RdfFacts.v
theories/RdfLicenseFacts.v
theories/RdfHelperFacts.v
theories/PropsRdf.v
theories/SpecRdfDoc.v
theories/RdfNodeFacts.v
theories/PropsRdfNodes.v
theories/RdfStepFacts.v
theories/SpecRdfLoad.v
theories/RdfWalkFacts.v
theories/RdfLoadFacts.v
theories/PropsRdfLoad.v
theories/SpecRdfContent.v
theories/SpecRdfWays.v
theories/RdfVisitFacts.v
theories/RdfContentFacts.v
theories/RdfWholeFacts.v
theories/PropsRdfContent.v
theories/RdfWaysFacts.v
theories/RdfTimesFacts.v
theories/PropsRdfWays.v
theories/SpecRdfAccept.v
theories/RdfAcceptFacts.v
theories/RdfReadableFacts.v
theories/RdfAcceptedFacts.v
theories/PropsRdfAccept.v
theories/RdfLadder.v
theories/PropsRdfGrowth.v
theories/SpecJsonRead.v
theories/JsonReadFacts.v
theories/JsonReadStruct.v
theories/JsonReadDoc.v
theories/PropsJsonRead.v
theories/SpecJsonWrite.v
theories/JsonWriteFacts.v
theories/JsonWriteDoc.v
theories/JsonWriteOk.v
theories/PropsJsonWrite.v
theories/DenoteElems.v
theories/DenoteSteps.v
theories/DenoteCases.v
theories/DenoteSections.v
theories/DenoteFile.v
theories/DenoteRead.v
theories/DenoteDeref.v
theories/DenoteUnique.v
theories/PropsTvContent.v
theories/SpecAccept.v
theories/AcceptBase.v
theories/AcceptSteps.v
theories/AcceptSections.v
theories/AcceptFacts.v
theories/PropsTvAccept.v
theories/Convert.v
theories/ConvertGo.v
theories/SpecConvert.v
theories/SpecUpgrade.v
theories/ConvertFacts.v
theories/ConvertBack.v
theories/ConvertGoFacts.v
theories/ConvertDoc.v
theories/ConvertRecord.v
theories/PropsConvert.v
theories/RdfRead.v
theories/RdfReadFacts.v
theories/PropsRdfRead.v
theories/JsonText.v
theories/SpecJsonText.v
theories/JsonTextFacts.v
theories/JsonTextParse.v
theories/JsonTextWrite.v
theories/JsonTextCodec.v
theories/JsonTextMeans.v
theories/JsonTextRead.v
theories/JsonTextLaws.v
theories/PropsJsonText.v
theories/WriteOptions.v
theories/PropsOptions.v
theories/SpecFilled.v
theories/FilledFacts.v
theories/PropsFilled.v
theories/SpecAnswers.v
theories/AnswersFacts.v
theories/PropsAnswers.v
theories/SpecFormats.v
theories/Formats.v
theories/JsonPart.v
theories/TagPart.v
theories/FormatsFacts.v
theories/PropsFormats.v
theories/JsonWriteCalm.v
theories/SpecRdfSave.v
theories/RdfSaveFacts.v
theories/PropsRdfSave.v
theories/SpecSave.v
theories/SaveFacts.v
theories/SaveJson.v
theories/PropsSave.v
theories/SpecReload.v
theories/ReloadFacts.v
theories/PropsReload.v
theories/Stream.v
theories/SpecStream.v
theories/StreamFacts.v
theories/TruncFacts.v
theories/PropsStream.v
theories/SpecTrunc.v
theories/TruncTag.v
theories/PropsTrunc.v
theories/SpecRestate.v
theories/RestateFacts.v
theories/RepeatFacts.v
theories/PropsRestate.v
theories/Yaml.v
theories/SpecYaml.v
theories/YamlFacts.v
theories/PropsYaml.v
theories/SpecReloadJson.v
theories/ReloadJsonFacts.v
theories/PropsReloadJson.v
theories/TabWriter.v
theories/Report.v
theories/SpecReport.v
theories/ReportFacts.v
theories/PropsReport.v
theories/Programs.v
theories/SpecPrograms.v
theories/ProgramsFacts.v
theories/PropsPrograms.v
theories/Transfer.v
theories/SpecTransfer.v
theories/TransferFacts.v
theories/PropsTransfer.v
theories/Building.v
theories/SpecBuilding.v
theories/BuildingFacts.v
theories/PropsBuilding.v
theories/Loaders.v
theories/SpecLoaders.v
theories/LoadersFacts.v
theories/PropsLoaders.v
theories/ProgramFiles.v
theories/PropsProgramFiles.v
theories/Concurrent.v
theories/SpecConcurrent.v
theories/ConcurrentFacts.v
theories/ConcurrentSeq.v
theories/PropsConcurrent.v
theories/Args.v
theories/SpecArgs.v
theories/PropsArgs.v
theories/Samples.v
theories/SampleDocs.v
theories/JsonTests.v
theories/WriterTests.v
theories/ReaderTests.v
theories/RdfTests.v
theories/ToolTests.v
theories/Validation.v
