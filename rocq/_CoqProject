-Q theories Verif
theories/UniTables.v
theories/Py.v
theories/Rx.v
theories/PyRe.v
theories/Data.v
theories/Oracles.v
theories/Basics.v
theories/DocUtils.v
theories/Validation.v
theories/ValidationSpec.v
theories/DocUtilsSpec.v
theories/BasicsSpec.v
theories/Samples.v
theories/PyFacts.v
theories/PyReFacts.v
theories/RxFacts.v
theories/LocatorFacts.v
theories/ValidationFacts.v
theories/DocUtilsFacts.v
theories/ValidationMore.v
theories/PropsValidation.v
theories/PropsDocUtils.v
theories/BasicsFacts.v
theories/ActorFacts.v
theories/DateFacts.v
theories/StampFacts.v
theories/CasingFacts.v
theories/PropsBasics.v
theories/Json.v
theories/Construct.v
theories/JsonConv.v
theories/JsonParse.v
theories/JsonSpec.v
theories/JsonFacts.v
theories/JsonRound.v
theories/JsonDoc.v
theories/JsonShape.v
theories/PropsJson.v
theories/JsonErrors.v
theories/JsonMore.v
theories/Loading.v
theories/LoadingSpec.v
theories/LoadingFacts.v
theories/PropsParsing.v
theories/TvWriter.v
theories/TvLexer.v
theories/TvParser.v
theories/TvSpec.v
theories/TvTokSpec.v
theories/TvLexFacts.v
theories/TvLexValues.v
theories/TvParseFacts.v
theories/TvFieldFacts.v
theories/TvElemFacts.v
theories/TvSpecialFacts.v
theories/TvElements.v
theories/TvElements2.v
theories/TvCreation.v
theories/TvPlan.v
theories/TvPlan2.v
theories/TvSections.v
theories/TvDocFacts.v
theories/TvErrors.v
theories/TvRepeat.v
theories/PyReSound.v
theories/TvRaises.v
theories/TvSamples.v
theories/TvMore.v
theories/PropsTv.v
theories/Graph.v
theories/GraphSpec.v
theories/GraphFacts.v
theories/PropsGraph.v
theories/Files.v
theories/FilesSpec.v
theories/XmlSpec.v
theories/XmlFacts.v
theories/FilesFacts.v
theories/PropsFiles.v
theories/StampMore.v
theories/JsonReadSpec.v
theories/JsonRead.v
theories/JsonRead2.v
theories/JsonRead3.v
theories/ReadFacts.v
theories/PropsRead.v
theories/Typing.v
theories/TypingSpec.v
theories/TypingFacts.v
theories/TypingJson.v
theories/PropsTyping.v
theories/Payload.v
theories/Bump.v
theories/BumpSpec.v
theories/BumpFacts.v
theories/BumpMerge.v
theories/BumpGroups.v
theories/BumpRels.v
theories/BumpDoc.v
theories/BumpPhases.v
theories/BumpFinal.v
theories/BumpMore.v
theories/PropsBump.v
theories/Rdf.v
theories/RdfWriter.v
theories/RdfParser.v
theories/RdfSamples.v
theories/RdfSpec.v
theories/RdfGraphFacts.v
theories/RdfWriteFacts.v
theories/RdfElemFacts.v
theories/RdfReadFacts.v
theories/RdfDocFacts.v
theories/RdfRoundFacts.v
theories/RdfRename.v
theories/RdfFinal.v
theories/RdfTotal.v
theories/RdfMore.v
theories/RdfSampleFacts.v
theories/PropsRdf.v
theories/RdfReadSpec.v
theories/RdfIff.v
theories/RdfIff2.v
theories/RdfIff3.v
theories/RdfIff4.v
theories/RdfIff5.v
theories/RdfDepict.v
theories/PropsRdfRead.v
theories/JsonRead4.v
theories/TvKey.v
theories/Jsonld.v
theories/JsonldSpec.v
theories/JsonldFacts.v
theories/JsonldBump.v
theories/Console.v
theories/Cli3.v
theories/PropsSpdx3.v
theories/ConsoleSpec.v
theories/ConsoleFacts.v
theories/ConsoleDoc.v
theories/Cli3Spec.v
theories/Cli3Facts.v
theories/ResaveSpec.v
theories/Resave.v
theories/PropsResave.v
theories/TvReadSpec.v
theories/TvRead.v
theories/TvRead2.v
theories/TvRead3.v
theories/TvRead4.v
theories/TvRead5.v
theories/TvRead6.v
theories/TvRead7.v
theories/TvRead8.v
theories/PropsTvRead.v
theories/TvStreamSpec.v
theories/TvRead9.v
theories/TvRead10.v
theories/TvRead11.v
theories/TvTokens.v
theories/TvResaveSpec.v
theories/TvResave.v
theories/TvResave2.v
theories/TvResave3.v
theories/PropsTvResave.v
theories/TvLineEnds.v
theories/Typing3.v
theories/Typing3Spec.v
theories/Typing3Facts.v
theories/Typing3More.v
theories/PropsTyping3.v
theories/RdfResaveSpec.v
theories/RdfResave.v
theories/RdfResave2.v
theories/RdfResave3.v
theories/RdfResave4.v
theories/PropsRdfResave.v
theories/Jsonld3.v
theories/Jsonld3Spec.v
theories/Jsonld3Facts.v
theories/Jsonld3Bump.v
theories/PropsJsonld3.v
theories/Console3Spec.v
theories/Console3Facts.v
theories/Console3Blocks.v
theories/Console3Stops.v
theories/PropsConsole3.v
theories/Owl.v
theories/OwlData.v
theories/OwlSpec.v
theories/OwlFacts.v
theories/PropsOwl.v
theories/MeaningSpec.v
theories/MeaningFacts.v
theories/PropsMeaning.v
theories/MessageSpec.v
theories/MessageFacts.v
theories/PropsMessages.v
theories/BumpLog.v
theories/BumpLogSpec.v
theories/BumpLogFacts.v
theories/PropsReport.v
theories/TvLines.v
theories/TvReport.v
theories/TvReportSpec.v
theories/TvReport2.v
theories/PropsTvReport.v
theories/TvReport3.v
theories/TvReport4.v
theories/JsonReportSpec.v
theories/JsonReport.v
theories/JsonReport2.v
theories/JsonReport3.v
theories/JsonReport4.v
theories/JsonReport5.v
theories/PropsJsonReport.v
theories/RdfReportSpec.v
theories/RdfReport.v
theories/RdfReport2.v
theories/RdfReport3.v
theories/RdfReport4.v
theories/RdfReport5.v
theories/RdfReport6.v
theories/PropsRdfReport.v
theories/RdfReport7.v
theories/RdfReportSpec2.v
theories/RdfReport8.v
theories/PropsRdfReport2.v
theories/BumpActorsSpec.v
theories/BumpActors.v
theories/PropsBumpActors.v
theories/BumpOneDoc.v
theories/RdfReport9.v
