-Q theories Verif
theories/Bytes.v
theories/Crypto.v
theories/CryptoFacts.v
theories/SpecNames.v
theories/NameFacts.v
theories/PropCrypto.v
theories/HashTable.v
theories/BlockTable.v
theories/HashTableFacts.v
theories/HetBetFacts.v
theories/SpecTables.v
theories/TableMap.v
theories/SlotFacts.v
theories/PropTables.v
theories/Header.v
theories/HeaderFacts.v
theories/SpecHeader.v
theories/HeaderSearch.v
theories/PropHeader.v
theories/Sparse.v
theories/SparseFacts.v
theories/Adpcm.v
theories/AdpcmBits.v
theories/AdpcmFacts.v
theories/Huffman.v
theories/HuffmanFacts.v
theories/Compress.v
theories/SpecCompress.v
theories/CompressFacts.v
theories/ToyCodec.v
theories/DemoCompress.v
theories/PropCompress.v
theories/Adler.v
theories/Listfile.v
theories/Attributes.v
theories/HetBet.v
theories/SpecBits.v
theories/BitFacts.v
theories/Builder.v
theories/Archive.v
theories/BuilderFacts.v
theories/ReadFacts.v
theories/OpenFacts.v
theories/SpecArchive.v
theories/ArchiveFacts.v
theories/LayoutFacts.v
theories/ChecksumFacts.v
theories/DemoArchive.v
theories/PropArchive.v
theories/SpecListfile.v
theories/ListfileFacts.v
theories/SpecAttributes.v
theories/AttributesFacts.v
theories/ListingFacts.v
theories/AcceptFacts.v
theories/PropSpecial.v
theories/Signature.v
theories/SpecSignature.v
theories/SignatureFacts.v
theories/PropSignature.v
theories/Ffi.v
theories/SpecFfi.v
theories/SpecAnswers.v
theories/FfiWf.v
theories/FfiInv.v
theories/FfiFacts.v
theories/FfiLive.v
theories/FfiReads.v
theories/FfiAnswers.v
theories/FfiMain.v
theories/FfiLock.v
theories/FfiDemo.v
theories/DemoAnswers.v
theories/PropFfi.v
theories/SpecMasks.v
theories/MaskFacts.v
theories/PropAnswers.v
theories/Open34Facts.v
theories/SpecArchive34.v
theories/Archive34Facts.v
theories/SpecNameTable.v
theories/NameTableFacts.v
theories/NameArchiveFacts.v
theories/Info.v
theories/SpecDigest.v
theories/InfoFacts.v
theories/Layout34Facts.v
theories/Large34Facts.v
theories/Demo34.v
theories/PackedFacts.v
theories/LookupFacts.v
theories/PropArchive34.v
theories/PropPacked.v
theories/FileSystem.v
theories/BuildIo.v
theories/SpecBuild.v
theories/BuildIoFacts.v
theories/PropBuild.v
theories/SpecBuilding.v
theories/BuildCalm.v
theories/BuildOk.v
theories/BuildWide.v
theories/BuildSize.v
theories/Create.v
theories/EndToEnd.v
theories/DemoSuccess.v
theories/PropSuccess.v
theories/PropBuilding.v
theories/Cli.v
theories/SpecCli.v
theories/CliFacts.v
theories/CliBuilt.v
theories/InfoLoad.v
theories/InfoBuilt.v
theories/DemoCli.v
theories/PropCli.v
theories/PropInfo.v
theories/CliBuilt34.v
theories/DemoCli34.v
theories/PropCli34.v
theories/SpecHostile.v
theories/SpecHostile34.v
theories/HostileFacts.v
theories/Hostile34Facts.v
theories/DemoHostile.v
theories/DemoHostile34.v
theories/PropHostile.v
theories/CliList.v
theories/SpecCliList.v
theories/CliListFacts.v
theories/DemoCliList.v
theories/PropCliList.v
theories/List34Facts.v
theories/PropList34.v
theories/SpecAnon.v
theories/ListAllFacts.v
theories/PropListing.v
theories/TextFacts.v
theories/SpecWrites.v
theories/FfiWrites.v
theories/DemoWrites.v
theories/PropWrites.v
theories/CliConfig.v
theories/SpecConfig.v
theories/ConfigFacts.v
theories/DemoConfig.v
theories/PropConfig.v
theories/CliHash.v
theories/SpecHash.v
theories/HashFacts.v
theories/PropHash.v
theories/CliCreate.v
theories/SpecCreate.v
theories/CreateFacts.v
theories/DemoCreate.v
theories/PropCreate.v
theories/DemoNames34.v
theories/PropLookup34.v
theories/Stream.v
theories/SpecStream.v
theories/StreamFacts.v
theories/PropStream.v
theories/CliAnalyze.v
theories/SpecAnalyze.v
theories/AnalyzeFacts.v
theories/PropAnalyze.v
theories/SpecNested.v
theories/NestedFacts.v
theories/PropNested.v
theories/SpecFields.v
theories/HeaderFields.v
theories/PropFields.v
theories/SpecStored.v
theories/StoredFacts.v
theories/DemoStored.v
theories/PropStored.v
theories/SpecConform.v
theories/ConformFacts.v
theories/DemoConform.v
theories/PropConform.v
theories/SpecCipher.v
theories/CipherFacts.v
theories/PropCipher.v
theories/SpecExtended.v
theories/ExtendedFacts.v
theories/DemoExtended.v
theories/PropExtended.v
theories/SpecLists.v
theories/ListsFacts.v
theories/DemoLists.v
theories/PropLists.v
theories/SpecAudio.v
theories/AudioFacts.v
theories/PropAudio.v
theories/SpecOther.v
theories/OtherFacts.v
theories/DemoOther.v
theories/PropOther.v
theories/InfoReport.v
theories/SpecReport.v
theories/ReportFacts.v
theories/DemoReport.v
theories/PropReport.v
theories/Percent.v
theories/SpecPercent.v
theories/PercentFacts.v
theories/CliVerbose.v
theories/VerboseFacts.v
theories/DemoPercent.v
theories/PropPercent.v
theories/Memory.v
theories/SpecMemory.v
theories/MemoryFacts.v
theories/MemoryExact.v
theories/Memory34Facts.v
theories/DemoMemory.v
theories/DemoMemory34.v
theories/PropMemory.v
theories/Error.v
theories/SpecErrors.v
theories/ErrorFacts.v
theories/DemoErrors.v
theories/PropErrors.v
theories/SpecFailures.v
theories/FailureFacts.v
theories/DemoFailures.v
theories/PropFailures.v
theories/Loops.v
theories/SpecLoops.v
theories/LoopFacts.v
theories/DemoLoops.v
theories/PropLoops.v
theories/Json.v
theories/SpecJson.v
theories/JsonFacts.v
theories/DemoJson.v
theories/CliInfo.v
theories/SpecInfoText.v
theories/InfoTextFacts.v
theories/InfoJsonFacts.v
theories/PrintedFacts.v
theories/DemoInfoText.v
theories/PropInfoText.v
theories/CliVerify.v
theories/SpecVerifyText.v
theories/VerifyTextFacts.v
theories/VerifyPrintFacts.v
theories/DemoVerify.v
theories/PropVerifyText.v
theories/FindFacts.v
theories/PropFind.v
theories/CliTold.v
theories/SpecTold.v
theories/ToldFacts.v
theories/AddedFacts.v
theories/DemoTold.v
theories/PropTold.v
theories/CliAnalyzed.v
theories/SpecAnalyzed.v
theories/AnalyzedFacts.v
theories/DemoAnalyzed.v
theories/PropAnalyzed.v
theories/CliMain.v
theories/SpecMain.v
theories/MainFacts.v
theories/PropMain.v
theories/BuilderApi.v
theories/SpecApi.v
theories/ApiFacts.v
theories/PropApi.v
theories/BuiltAttributes.v
theories/PropAttributes.v
theories/TestArchives.v
theories/SpecTest.v
theories/TestFacts.v
theories/TestPresets.v
theories/DemoTest.v
theories/PropTest.v
theories/SpecChecksum.v
theories/AdlerFacts.v
theories/UnwrapFacts.v
theories/PropChecksum.v
theories/TestData.v
theories/SpecData.v
theories/DataFacts.v
theories/DataRuns.v
theories/AgainFacts.v
theories/PropData.v
theories/SpecialInfo.v
theories/SpecMarks.v
theories/MarksFacts.v
theories/MarksDemo.v
theories/PropMarks.v
theories/TableApi.v
theories/SpecArray.v
theories/ArrayFacts.v
theories/PropArray.v
