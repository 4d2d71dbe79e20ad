-Q theories Verif
theories/Base.v
theories/Str.v
theories/Types.v
theories/Versions.v
theories/VersionTables.v
theories/Text.v
theories/Props.v
theories/File.v
theories/Guid.v
theories/BaseFacts.v
theories/ReaderFacts.v
theories/Sane.v
theories/Rel.v
theories/Spec.v
theories/Prim.v
theories/ReadThm.v
theories/Samples.v
theories/StrFacts.v
theories/Decode.v
theories/KindFacts.v
theories/DecodeProp.v
theories/DecodeMain.v
theories/DecodeAll.v
theories/DecodeFile.v
theories/Induct.v
theories/Accept.v
theories/AcceptProp.v
theories/AcceptAll.v
theories/AcceptFile.v
theories/EqFacts.v
theories/EqSym.v
theories/Hash.v
theories/HashFacts.v
theories/RoundTrip.v
theories/Device.v
theories/Whole.v
theories/WholeSave.v
theories/PropRoundTrip.v
theories/HintRel.v
theories/HintThm.v
theories/HintPath.v
theories/Panics.v
theories/PropRead.v
theories/StrThm.v
theories/MapFacts.v
theories/CtorThm.v
theories/OrderThm.v
theories/VersionThm.v
theories/HeaderThm.v
theories/PropFormat.v
theories/NamedThm.v
theories/PropContainers.v
theories/ShortWrite.v
theories/ShortThm.v
theories/PropSave.v
theories/UniqThm.v
theories/EqSpec.v
theories/EqLevel.v
theories/EqMove.v
theories/MapEq.v
theories/RealThm.v
theories/PropEq.v
theories/GuidThm.v
theories/PropGuid.v
theories/FrameThm.v
theories/PropSizes.v
theories/UnknownThm.v
theories/PropUnknown.v
theories/GateThm.v
theories/PropGate.v
theories/CountThm.v
theories/PropCounts.v
theories/SizeThm.v
theories/BoundThm.v
theories/PropBounds.v
theories/Grammar.v
theories/GrammarBase.v
theories/GrammarText.v
theories/GrammarCtor.v
theories/GrammarProp.v
theories/GrammarComplete.v
theories/GrammarFile.v
theories/PropGrammar.v
theories/Json.v
theories/JsonSpec.v
theories/JsonFloat.v
theories/JsonText.v
theories/JsonProp.v
theories/JsonFile.v
theories/JsonTyped.v
theories/JsonWell.v
theories/JsonBack.v
theories/JsonPanic.v
theories/JsonThm.v
theories/JsonSamples.v
theories/PropJson.v
theories/Shift.v
theories/ShiftThm.v
theories/Patch.v
theories/Depth.v
theories/PropLocal.v
theories/Nearest.v
theories/PropNumbers.v
theories/Grow.v
theories/PropGrow.v
theories/Source.v
theories/SourceThm.v
theories/PropSource.v
theories/JsonForm.v
theories/JsonFormThm.v
theories/PropForm.v
theories/Session.v
theories/PropSession.v
theories/Numeral.v
theories/Access.v
theories/AccessThm.v
theories/PropAccess.v
theories/Reorder.v
theories/ReorderEx.v
theories/PropReorder.v
theories/Alloc.v
theories/AllocThm.v
theories/AllocLow.v
theories/AllocEx.v
theories/PropAlloc.v
theories/Tidy.v
theories/TidyText.v
theories/TidyProp.v
theories/TidyBack.v
theories/TidyFile.v
theories/PropExact.v
theories/LostThm.v
theories/PropLost.v
theories/Message.v
theories/MessageThm.v
theories/PropMessage.v
theories/JsonSyntax.v
theories/DecimalThm.v
theories/JsonGrammar.v
theories/JsonRead.v
theories/JsonComplete.v
theories/JsonPrint.v
theories/JsonDepth.v
theories/JsonWhole.v
theories/PropSyntax.v
theories/JsonDirect.v
theories/JsonFrom.v
theories/Singles.v
theories/DirectTree.v
theories/DirectBack.v
theories/SinglesThm.v
theories/DirectThm.v
theories/PropDirect.v
theories/JsonDoc.v
theories/JsonExact.v
theories/JsonExactProp.v
theories/JsonExactFile.v
theories/JsonDocThm.v
theories/JsonLoose.v
theories/JsonFromThm.v
theories/JsonFromFile.v
theories/RepoFiles.v
theories/RepoTests.v
theories/RepoRun.v
theories/PropDoc.v
theories/PropFrom.v
theories/Display.v
theories/DisplayThm.v
theories/PropDisplay.v
theories/HashSpec.v
theories/HashFloat.v
theories/HashTell.v
theories/HashTellAll.v
theories/HashBlur.v
theories/HashCollide.v
theories/PropHash.v
theories/Inflate.v
theories/InflateSpec.v
theories/InflateCode.v
theories/InflateThm.v
theories/PropInflate.v
theories/MoveThm.v
theories/PropMove.v
theories/Debug.v
theories/DebugSpec.v
theories/DebugShow.v
theories/DebugTree.v
theories/DebugEq.v
theories/DebugThm.v
theories/PropDebug.v
theories/NamesSpec.v
theories/NamesThm.v
theories/PropNames.v
theories/BlameSpec.v
theories/BlameThm.v
theories/PropBlame.v
theories/OpenThm.v
theories/OpenBox.v
theories/PropOpen.v
theories/ErrorText.v
theories/ErrorSpec.v
theories/ErrorUtf8.v
theories/ErrorClean.v
theories/ErrorThm.v
theories/PropError.v
theories/FedSpec.v
theories/FedThm.v
theories/FedOne.v
theories/PropFed.v
theories/LayoutSpec.v
theories/LayoutThm.v
theories/LayoutDebug.v
theories/LayoutFiles.v
theories/PropLayout.v
theories/HashFree.v
theories/AskSpec.v
theories/AskThm.v
theories/AskBack.v
theories/AskBox.v
theories/HashSame.v
theories/PropAsk.v
theories/JsonHash.v
theories/PropSame.v
theories/DebugSave.v
theories/DebugSaveThm.v
theories/DebugLoad.v
theories/PropBuild.v
