-Q theories Verif
theories/Base.v
theories/Nom.v
theories/Unicode.v
theories/Wire.v
theories/Structures.v
theories/Prims.v
theories/Messages.v
theories/Crypto.v
theories/Client.v
theories/Writer.v
theories/Debug.v
theories/Win.v
theories/WinMem.v
theories/Errors.v
theories/Log.v
theories/Print.v
theories/Pretty.v
theories/Word.v
theories/Spec.v
theories/SpecBuild.v
theories/SpecCrypto.v
theories/SpecClient.v
theories/SpecServer.v
theories/SpecWriter.v
theories/SpecTrace.v
theories/SpecDebug.v
theories/SpecWin.v
theories/SpecWinMem.v
theories/SpecErrors.v
theories/SpecStream.v
theories/SpecLog.v
theories/SpecPrint.v
theories/SpecPretty.v
theories/SpecIgnore.v
theories/SpecNames.v
theories/SpecWord.v
theories/Lib.v
theories/Upper.v
theories/RealPrims.v
theories/DesPerm.v
theories/Encode.v
theories/Decode.v
theories/RoundTrip.v
theories/Parse.v
theories/ErrorsLib.v
theories/Report.v
theories/Inject.v
theories/Samples.v
theories/FactsEncode.v
theories/FactsDecode.v
theories/FactsIgnore.v
theories/FactsErrors.v
theories/FactsStream.v
theories/FactsCut.v
theories/FactsLog.v
theories/FactsBuild.v
theories/FactsBuilt.v
theories/DesKey.v
theories/FactsCrypto.v
theories/SamplesClient.v
theories/SamplesNames.v
theories/History.v
theories/Reply.v
theories/FactsClient.v
theories/FactsConsole.v
theories/FactsReply.v
theories/FactsMic.v
theories/FactsWord.v
theories/Trace.v
theories/FactsTrace.v
theories/SpecHandshake.v
theories/FactsHandshake.v
theories/SpecParts.v
theories/FactsParts.v
theories/SpecVersioned.v
theories/FactsVersioned.v
theories/SamplesTamper.v
theories/FactsTamper.v
theories/SpecConform.v
theories/SamplesConform.v
theories/FactsConform.v
theories/Levels.v
theories/SpecLevels.v
theories/SamplesLevels.v
theories/FactsLevels.v
theories/Cost.v
theories/SamplesCost.v
theories/FactsCost.v
theories/FactsGuard.v
theories/FactsInject.v
theories/Os.v
theories/SpecOs.v
theories/SamplesOs.v
theories/FactsOs.v
theories/Unwind.v
theories/SpecUnwind.v
theories/SamplesUnwind.v
theories/FactsUnwind.v
theories/Views.v
theories/SpecViews.v
theories/FactsViews.v
theories/SamplesSent.v
theories/FactsSent.v
theories/SpecEndian.v
theories/SamplesEndian.v
theories/FactsEndian.v
theories/SpecSwap.v
theories/FactsSwap.v
theories/FactsNames.v
theories/FactsServer.v
theories/FactsAccount.v
theories/WriterLib.v
theories/FactsWriter.v
theories/Effort.v
theories/SpecEffort.v
theories/FactsEffort.v
theories/SpecRemote.v
theories/SamplesRemote.v
theories/FactsRemote.v
theories/SpecPublic.v
theories/FactsPublic.v
theories/SpecLmv2.v
theories/SamplesLmv2.v
theories/FactsLmv2.v
theories/FactsFurther.v
theories/Creation.v
theories/SpecCreation.v
theories/FactsCreation.v
theories/Unused.v
theories/SpecUnused.v
theories/FactsUnused.v
theories/SamplesTiming.v
theories/FactsTiming.v
theories/Sinks.v
theories/SpecSinks.v
theories/FactsSinks.v
theories/SpecPlaces.v
theories/SamplesPlaces.v
theories/FactsPlaces.v
theories/Strict.v
theories/SpecStrict.v
theories/FactsStrict.v
theories/SpecQueries.v
theories/SamplesQueries.v
theories/FactsQueries.v
theories/SpecForgery.v
theories/SamplesForgery.v
theories/FactsForgery.v
theories/SpecSecrecy.v
theories/SamplesSecrecy.v
theories/FactsSecrecy.v
theories/SpecKeystream.v
theories/SamplesKeystream.v
theories/FactsKeystream.v
theories/Equal.v
theories/FactsEqual.v
theories/SpecBlocks.v
theories/SamplesBlocks.v
theories/FactsBlocks.v
theories/SpecScheme.v
theories/SamplesScheme.v
theories/FactsScheme.v
theories/SpecUses.v
theories/SamplesUses.v
theories/FactsUses.v
theories/SpecPry.v
theories/SamplesPry.v
theories/FactsPry.v
theories/SpecAlter.v
theories/SamplesAlter.v
theories/FactsAlter.v
theories/SamplesStrip.v
theories/FactsStrip.v
theories/SamplesRelay.v
theories/FactsRelay.v
theories/SpecGuess.v
theories/FactsGuess.v
theories/SpecTable.v
theories/SamplesTable.v
theories/FactsTable.v
theories/SamplesSessions.v
theories/FactsSessions.v
theories/SamplesLabour.v
theories/Labour.v
theories/FactsLabour.v
theories/FactsDebug.v
theories/FactsPrint.v
theories/SpecForms.v
theories/FactsForms.v
theories/FactsPretty.v
theories/SamplesWin.v
theories/FactsWin.v
theories/SpecInputs.v
theories/FactsInputs.v
theories/SpecHalves.v
theories/SamplesHalves.v
theories/FactsHalves.v
theories/SpecGraft.v
theories/SamplesGraft.v
theories/FactsGraft.v
theories/FactsStation.v
theories/FactsWinMem.v
theories/Tests.v
theories/PropertiesAccount.v
theories/PropertiesAlter.v
theories/PropertiesBlocks.v
theories/PropertiesBuild.v
theories/PropertiesBuilt.v
theories/PropertiesClient.v
theories/PropertiesConform.v
theories/PropertiesConsole.v
theories/PropertiesCost.v
theories/PropertiesCreation.v
theories/PropertiesCrypto.v
theories/PropertiesCut.v
theories/PropertiesDebug.v
theories/PropertiesDecode.v
theories/PropertiesEffort.v
theories/PropertiesEncode.v
theories/PropertiesEndian.v
theories/PropertiesEqual.v
theories/PropertiesErrors.v
theories/PropertiesForgery.v
theories/PropertiesForms.v
theories/PropertiesFurther.v
theories/PropertiesGraft.v
theories/PropertiesGuard.v
theories/PropertiesGuess.v
theories/PropertiesHalves.v
theories/PropertiesHandshake.v
theories/PropertiesIgnore.v
theories/PropertiesInject.v
theories/PropertiesInputs.v
theories/PropertiesKeystream.v
theories/PropertiesLabour.v
theories/PropertiesLevels.v
theories/PropertiesLmv2.v
theories/PropertiesLog.v
theories/PropertiesMic.v
theories/PropertiesNames.v
theories/PropertiesOs.v
theories/PropertiesParts.v
theories/PropertiesPlaces.v
theories/PropertiesPretty.v
theories/PropertiesPrint.v
theories/PropertiesPry.v
theories/PropertiesPublic.v
theories/PropertiesQueries.v
theories/PropertiesRelay.v
theories/PropertiesRemote.v
theories/PropertiesReply.v
theories/PropertiesScheme.v
theories/PropertiesSecrecy.v
theories/PropertiesSent.v
theories/PropertiesServer.v
theories/PropertiesSessions.v
theories/PropertiesSinks.v
theories/PropertiesStation.v
theories/PropertiesStream.v
theories/PropertiesStrict.v
theories/PropertiesStrip.v
theories/PropertiesSwap.v
theories/PropertiesTable.v
theories/PropertiesTamper.v
theories/PropertiesTiming.v
theories/PropertiesTrace.v
theories/PropertiesUnused.v
theories/PropertiesUnwind.v
theories/PropertiesUses.v
theories/PropertiesVersioned.v
theories/PropertiesViews.v
theories/PropertiesWin.v
theories/PropertiesWinMem.v
theories/PropertiesWord.v
theories/PropertiesWriter.v
