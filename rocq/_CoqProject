-Q theories Verif
theories/Base.v
theories/StateModel.v
theories/CodecModel.v
theories/Sha512Model.v
theories/ForestModel.v
theories/PollardModel.v
theories/Tests.v
theories/PosSpec.v
theories/PosFacts.v
theories/MerkleSpec.v
theories/CodecSpec.v
theories/CodecFacts.v
theories/TargetFacts.v
theories/PathFacts.v
theories/ForestFacts.v
theories/RowFacts.v
theories/TransformFacts.v
theories/SpecFacts.v
theories/RemoveFacts.v
theories/ShapeFacts.v
theories/ForestInv.v
theories/AddFacts.v
theories/UndoFacts.v
theories/CommitFacts.v
theories/ForestSpec.v
theories/HistFacts.v
theories/ForestExamples.v
theories/Sha512Spec.v
theories/SpecTests.v
theories/Sha512Facts.v
theories/Properties_Sha.v
theories/ReuseSpec.v
theories/ReuseModel.v
theories/ReuseFacts.v
theories/Properties_Reuse.v
theories/Properties_Forest.v
theories/ProofSpec.v
theories/ProveFacts.v
theories/Properties_Prove.v
theories/DiskFacts.v
theories/Properties_Disk.v
theories/Properties_Codec.v
theories/Properties_Pos.v
theories/PollardRep.v
theories/PollardOps.v
theories/PollardAdd.v
theories/PollardFinal.v
theories/PosmapFacts.v
theories/EntrySpec.v
theories/PollardRemove.v
theories/PollardRows.v
theories/PollardInit.v
theories/TakeFacts.v
theories/PollardCreate.v
theories/PollardVerify.v
theories/PollardSpec.v
theories/PollardVerifyMain.v
theories/PollardPrune.v
theories/PollardHist.v
theories/PollardProps.v
theories/PollardCount.v
theories/PollardRecall.v
theories/EntryFacts.v
theories/PollardRefute.v
theories/PollardExamples.v
theories/EntryExamples.v
theories/Properties_Entry.v
theories/Properties_Pollard.v
theories/Properties_PollardRefute.v
theories/Properties_Recall.v
theories/PollardMore.v
theories/WireFacts.v
theories/ForestMore.v
theories/MoreExamples.v
theories/Properties_More.v
theories/CheckedModel.v
theories/CheckedFacts.v
theories/PollardKeys.v
theories/CheckedPollard.v
theories/MemoryFacts.v
theories/CheckedVerify.v
theories/Properties_Checked.v
theories/BindFacts.v
theories/UniqueFacts.v
theories/VerifySpec.v
theories/AcceptFacts.v
theories/AcceptExamples.v
theories/Properties_Accept.v
theories/Properties_Binding.v
theories/Properties_Memory.v
theories/FuzzModel.v
theories/TotalFacts.v
theories/FuzzFacts.v
theories/FuzzBig.v
theories/FuzzExamples.v
theories/Properties_Fuzz.v
theories/ByteModel.v
theories/ByteFacts.v
theories/Properties_Bytes.v
theories/FileSpec.v
theories/FileFacts.v
theories/Properties_File.v
theories/CrashFacts.v
theories/Properties_Crash.v
theories/CodecMore.v
theories/DiskMore.v
theories/UndoExact.v
theories/Properties_Sharp.v
theories/SwapSpec.v
theories/SwapFacts.v
theories/Properties_Swap.v
theories/FullSpec.v
theories/FullFacts.v
theories/Properties_Full.v
theories/CompareFacts.v
theories/Properties_Compare.v
theories/PrintModel.v
theories/PrintSpec.v
theories/PlaceSpec.v
theories/PrintFacts.v
theories/PlaceFacts.v
theories/PlacePollard.v
theories/PlaceProps.v
theories/PlaceExact.v
theories/Properties_Print.v
theories/Properties_Place.v
theories/OwnFacts.v
theories/OwnExamples.v
theories/Properties_Own.v
theories/MarkSpec.v
theories/MarkFacts.v
theories/CheckedExact.v
theories/MarkExamples.v
theories/Properties_Mark.v
theories/UnverifiedExamples.v
theories/Properties_Unverified.v
theories/SpentSpec.v
theories/SpentFacts.v
theories/Properties_Spent.v
theories/LightSpec.v
theories/LightFacts.v
theories/Properties_Light.v
theories/UnitModel.v
theories/UnitFacts.v
theories/UnitExamples.v
theories/Properties_Unit.v
theories/UnitTests.v
theories/BenchModel.v
theories/BenchFacts.v
theories/BenchExamples.v
theories/Properties_Bench.v
theories/ArgsModel.v
theories/ArgsSpec.v
theories/ArgsFacts.v
theories/ArgsExamples.v
theories/Properties_Args.v
theories/TwinFacts.v
theories/TwinExamples.v
theories/Properties_Twin.v
theories/RegisterModel.v
theories/RegisterSpec.v
theories/RegisterFacts.v
theories/Properties_Register.v
theories/RunModel.v
theories/RunSpec.v
theories/RunFacts.v
theories/RunExamples.v
theories/Properties_Run.v
theories/HelpModel.v
theories/HelpSpec.v
theories/HelpFacts.v
theories/Properties_Help.v
