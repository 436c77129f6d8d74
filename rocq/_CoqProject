-Q theories Verif
theories/Base/Bytes.v
theories/Base/Res.v
theories/Model/Alloc.v
theories/Model/Auto.v
theories/Model/Bc7Bits.v
theories/Model/BeCApi.v
theories/Model/BeFiles.v
theories/Model/BeInterrupted.v
theories/Model/BeNormTransform.v
theories/Model/BeTransform.v
theories/Model/Bench.v
theories/Model/BigEndian.v
theories/Model/Builders.v
theories/Model/Bundle.v
theories/Model/CApi.v
theories/Model/CacheThreads.v
theories/Model/Caches.v
theories/Model/Calls.v
theories/Model/Cli.v
theories/Model/Color565.v
theories/Model/ColorBatch.v
theories/Model/ColorSlices.v
theories/Model/Commands.v
theories/Model/Dds.v
theories/Model/Decode.v
theories/Model/Embed.v
theories/Model/EndianTest.v
theories/Model/EndianTool.v
theories/Model/FileHistory.v
theories/Model/FormatAnalysis.v
theories/Model/Fuzz.v
theories/Model/GenBc1Rec.v
theories/Model/GenBc1Sc.v
theories/Model/GenBc1Scr.v
theories/Model/GenBc1Std.v
theories/Model/GenBc2Rec.v
theories/Model/GenBc2Sc.v
theories/Model/GenBc2Scr.v
theories/Model/GenBc2Std.v
theories/Model/GenBc3Rec.v
theories/Model/GenBc3Sa.v
theories/Model/GenBc3Sac.v
theories/Model/GenBc3Sacr.v
theories/Model/GenBc3Sar.v
theories/Model/GenBc3Sc.v
theories/Model/GenBc3Scr.v
theories/Model/GenBc3Std.v
theories/Model/GenBeBc1Rec.v
theories/Model/GenBeBc1Sc.v
theories/Model/GenBeBc1Scr.v
theories/Model/GenBeBc1Std.v
theories/Model/GenBeBc2Rec.v
theories/Model/GenBeBc2Sc.v
theories/Model/GenBeBc2Scr.v
theories/Model/GenBeBc2Std.v
theories/Model/GenBeBc3Rec.v
theories/Model/GenBeBc3Sa.v
theories/Model/GenBeBc3Sac.v
theories/Model/GenBeBc3Sacr.v
theories/Model/GenBeBc3Sar.v
theories/Model/GenBeBc3Sc.v
theories/Model/GenBeBc3Scr.v
theories/Model/GenBeBc3Std.v
theories/Model/GenBeSplit565.v
theories/Model/GenBenchBc1.v
theories/Model/GenBenchBc2.v
theories/Model/GenBenchBc3.v
theories/Model/GenBenchSplit565.v
theories/Model/GenSplit565.v
theories/Model/Handlers.v
theories/Model/Inspect.v
theories/Model/Interrupted.v
theories/Model/Kernel.v
theories/Model/KernelBench.v
theories/Model/Lanes.v
theories/Model/LanesGen.v
theories/Model/LinkedCli.v
theories/Model/Links.v
theories/Model/LowMemory.v
theories/Model/Ltu.v
theories/Model/LtuHandles.v
theories/Model/NormTransform.v
theories/Model/Normalize.v
theories/Model/Stats.v
theories/Model/Transform.v
theories/Model/TwoCommands.v
theories/Model/Ycc.v
theories/Model/Zstd.v
theories/Proofs/AllocFacts.v
theories/Proofs/AnyFile.v
theories/Proofs/AutoAnswers.v
theories/Proofs/AutoFacts.v
theories/Proofs/AutoProps.v
theories/Proofs/AutoTheorems.v
theories/Proofs/Bc7BitsFacts.v
theories/Proofs/BeAnyFile.v
theories/Proofs/BeAutoProps.v
theories/Proofs/BeAutoTheorems.v
theories/Proofs/BeBuilders.v
theories/Proofs/BeBundleFacts.v
theories/Proofs/BeCApi.v
theories/Proofs/BeCApiHistory.v
theories/Proofs/BeCliDds.v
theories/Proofs/BeCommands.v
theories/Proofs/BeDamage.v
theories/Proofs/BeDdsHandler.v
theories/Proofs/BeDdsRestore.v
theories/Proofs/BeEstimators.v
theories/Proofs/BeFamilies.v
theories/Proofs/BeFilesFacts.v
theories/Proofs/BeInterruptedFacts.v
theories/Proofs/BeLargerOutput.v
theories/Proofs/BeLocal.v
theories/Proofs/BeMachines.v
theories/Proofs/BeMachinesRuns.v
theories/Proofs/BeNoEstimation.v
theories/Proofs/BeNormAuto.v
theories/Proofs/BeNormAutoTheorems.v
theories/Proofs/BeNormProps.v
theories/Proofs/BeNormTransformFacts.v
theories/Proofs/BeOldContents.v
theories/Proofs/BeOldContentsC.v
theories/Proofs/BeReleaseFacts.v
theories/Proofs/BeShapes.v
theories/Proofs/BeSliceFacts.v
theories/Proofs/BeTransformFacts.v
theories/Proofs/BeUnits.v
theories/Proofs/BeUnitsNorm.v
theories/Proofs/BenchFacts.v
theories/Proofs/BenchMore.v
theories/Proofs/BenchRun.v
theories/Proofs/BigEndianFacts.v
theories/Proofs/BigEndianProps.v
theories/Proofs/BincodeFacts.v
theories/Proofs/BundleFacts.v
theories/Proofs/CApiFacts.v
theories/Proofs/CApiHistory.v
theories/Proofs/CChoice.v
theories/Proofs/CacheThreadsFacts.v
theories/Proofs/CachedSearch.v
theories/Proofs/CachesFacts.v
theories/Proofs/Calls.v
theories/Proofs/CliDds.v
theories/Proofs/CliExamples.v
theories/Proofs/CliFacts.v
theories/Proofs/CliRuns.v
theories/Proofs/Color565Facts.v
theories/Proofs/ColorSlicesFacts.v
theories/Proofs/CommandsDisk.v
theories/Proofs/CommandsRuns.v
theories/Proofs/CompressedFacts.v
theories/Proofs/DamageDds.v
theories/Proofs/DamageFacts.v
theories/Proofs/DdsChoice.v
theories/Proofs/DdsExact.v
theories/Proofs/DdsFacts.v
theories/Proofs/DdsHandler.v
theories/Proofs/DdsMore.v
theories/Proofs/DdsRestore.v
theories/Proofs/DebugOptionsFacts.v
theories/Proofs/DecodeFacts.v
theories/Proofs/EmbedBytes.v
theories/Proofs/EmbedFacts.v
theories/Proofs/EmptyExact.v
theories/Proofs/EndianTestFacts.v
theories/Proofs/EndianToolFacts.v
theories/Proofs/EndianToolMore.v
theories/Proofs/Families.v
theories/Proofs/FileHistory.v
theories/Proofs/FilesMore.v
theories/Proofs/FormatAnalysisFacts.v
theories/Proofs/FuzzFacts.v
theories/Proofs/HandlersFacts.v
theories/Proofs/InspectFacts.v
theories/Proofs/InspectFiles.v
theories/Proofs/InterruptedFacts.v
theories/Proofs/KBc1Rec.v
theories/Proofs/KBc1Sc.v
theories/Proofs/KBc1Scr.v
theories/Proofs/KBc1ScrU.v
theories/Proofs/KBc1Std.v
theories/Proofs/KBc2Rec.v
theories/Proofs/KBc2Sc.v
theories/Proofs/KBc2Scr.v
theories/Proofs/KBc2Std.v
theories/Proofs/KBc3Rec.v
theories/Proofs/KBc3Sa.v
theories/Proofs/KBc3Sac.v
theories/Proofs/KBc3Sacr.v
theories/Proofs/KBc3Sar.v
theories/Proofs/KBc3Sc.v
theories/Proofs/KBc3Scr.v
theories/Proofs/KBc3Std.v
theories/Proofs/KBeBc1Rec.v
theories/Proofs/KBeBc1Sc.v
theories/Proofs/KBeBc1Scr.v
theories/Proofs/KBeBc1ScrU.v
theories/Proofs/KBeBc1Std.v
theories/Proofs/KBeBc2Rec.v
theories/Proofs/KBeBc2Sc.v
theories/Proofs/KBeBc2Scr.v
theories/Proofs/KBeBc2Std.v
theories/Proofs/KBeBc3Rec.v
theories/Proofs/KBeBc3Sa.v
theories/Proofs/KBeBc3Sac.v
theories/Proofs/KBeBc3Sacr.v
theories/Proofs/KBeBc3Sar.v
theories/Proofs/KBeBc3Sc.v
theories/Proofs/KBeBc3Scr.v
theories/Proofs/KBeBc3Std.v
theories/Proofs/KBenchBc1.v
theories/Proofs/KBenchBc2.v
theories/Proofs/KBenchBc3.v
theories/Proofs/KBenchShift.v
theories/Proofs/KBenchSplit565.v
theories/Proofs/KSplit565.v
theories/Proofs/KernelBenchFun.v
theories/Proofs/KernelCheck.v
theories/Proofs/KernelFun.v
theories/Proofs/KernelLoop.v
theories/Proofs/KilledFacts.v
theories/Proofs/LanesFacts.v
theories/Proofs/LargerOutput.v
theories/Proofs/LayoutFacts.v
theories/Proofs/LinkedCliExamples.v
theories/Proofs/LinkedCliFacts.v
theories/Proofs/Links.v
theories/Proofs/LowMemoryFacts.v
theories/Proofs/LtuFacts.v
theories/Proofs/LtuHandlesFacts.v
theories/Proofs/Machines.v
theories/Proofs/NoEstimation.v
theories/Proofs/NormAuto.v
theories/Proofs/NormAutoTheorems.v
theories/Proofs/NormDebug.v
theories/Proofs/NormDerived.v
theories/Proofs/NormFirst.v
theories/Proofs/NormLoop.v
theories/Proofs/NormMachines.v
theories/Proofs/NormPixels.v
theories/Proofs/NormShort.v
theories/Proofs/NormSplit.v
theories/Proofs/NormTransformFacts.v
theories/Proofs/NormalizeFacts.v
theories/Proofs/NormalizeFacts2.v
theories/Proofs/OldContents.v
theories/Proofs/OldContentsC.v
theories/Proofs/OldContentsNorm.v
theories/Proofs/Overlap.v
theories/Proofs/PackFacts.v
theories/Proofs/Passes.v
theories/Proofs/ReleaseCalls.v
theories/Proofs/ReleaseFacts.v
theories/Proofs/ReleaseRuns.v
theories/Proofs/Rgb565Facts.v
theories/Proofs/SearchKeeps.v
theories/Proofs/ShapeLayout.v
theories/Proofs/Shapes.v
theories/Proofs/SliceFacts.v
theories/Proofs/Split565Facts.v
theories/Proofs/SplitExact.v
theories/Proofs/StatsFacts.v
theories/Proofs/TransformFacts.v
theories/Proofs/TransformProps.v
theories/Proofs/TwoCommands.v
theories/Proofs/Units.v
theories/Proofs/UnitsFiles.v
theories/Proofs/UnitsNorm.v
theories/Proofs/ZstdFacts.v
theories/Proofs/ZstdSmallest.v
theories/Props/Cases.v
theories/Props/CasesAuto.v
theories/Props/CasesZstd.v
theories/Props/PAlloc.v
theories/Props/PAnswers.v
theories/Props/PAnyFile.v
theories/Props/PAuto.v
theories/Props/PBc1.v
theories/Props/PBc2.v
theories/Props/PBc3.v
theories/Props/PBc7Bits.v
theories/Props/PBeAnyFile.v
theories/Props/PBeAuto.v
theories/Props/PBeBuilders.v
theories/Props/PBeCApi.v
theories/Props/PBeCli.v
theories/Props/PBeCommands.v
theories/Props/PBeDamage.v
theories/Props/PBeEstimators.v
theories/Props/PBeFiles.v
theories/Props/PBeInterrupted.v
theories/Props/PBeLocal.v
theories/Props/PBeMachines.v
theories/Props/PBeNoEstimation.v
theories/Props/PBeNorm.v
theories/Props/PBeOldContents.v
theories/Props/PBeOldContentsC.v
theories/Props/PBeTwoCommands.v
theories/Props/PBeUnits.v
theories/Props/PBench.v
theories/Props/PBigEndian.v
theories/Props/PBundle.v
theories/Props/PCApi.v
theories/Props/PCacheThreads.v
theories/Props/PCaches.v
theories/Props/PCalls.v
theories/Props/PCli.v
theories/Props/PColor.v
theories/Props/PColorBatch.v
theories/Props/PCommands.v
theories/Props/PDamage.v
theories/Props/PDds.v
theories/Props/PDdsChoice.v
theories/Props/PDebugOptions.v
theories/Props/PDecode.v
theories/Props/PEmbed.v
theories/Props/PEndianTest.v
theories/Props/PEndianTool.v
theories/Props/PFileHistory.v
theories/Props/PFiles.v
theories/Props/PFormatAnalysis.v
theories/Props/PFuzz.v
theories/Props/PHandlers.v
theories/Props/PInspect.v
theories/Props/PInterrupted.v
theories/Props/PKilled.v
theories/Props/PLinkedCli.v
theories/Props/PLinks.v
theories/Props/PLonger.v
theories/Props/PLowMemory.v
theories/Props/PLtu.v
theories/Props/PLtuHandles.v
theories/Props/PMachines.v
theories/Props/PNoEstimation.v
theories/Props/PNormFirst.v
theories/Props/PNormMachines.v
theories/Props/PNormTransform.v
theories/Props/PNormalize.v
theories/Props/POldContents.v
theories/Props/POldContentsC.v
theories/Props/POldContentsNorm.v
theories/Props/POverlap.v
theories/Props/PPasses.v
theories/Props/PRelease.v
theories/Props/PReleaseRuns.v
theories/Props/PSplit.v
theories/Props/PStats.v
theories/Props/PTwoCommands.v
theories/Props/PUnits.v
theories/Props/PUnitsFiles.v
theories/Props/PUnitsNorm.v
theories/Props/PZstd.v
theories/Spec/Alloc.v
theories/Spec/Answers.v
theories/Spec/AnyFile.v
theories/Spec/BeCApi.v
theories/Spec/BeFiles.v
theories/Spec/BeInterrupted.v
theories/Spec/BigEndian.v
theories/Spec/Bincode.v
theories/Spec/CApi.v
theories/Spec/CChoice.v
theories/Spec/CacheThreads.v
theories/Spec/Caches.v
theories/Spec/Calls.v
theories/Spec/Cli.v
theories/Spec/ColorSlices.v
theories/Spec/Commands.v
theories/Spec/Compressed.v
theories/Spec/Damage.v
theories/Spec/Dds.v
theories/Spec/DebugOptions.v
theories/Spec/EndianTest.v
theories/Spec/EndianTool.v
theories/Spec/Estimator.v
theories/Spec/FileHistory.v
theories/Spec/Files.v
theories/Spec/FormatAnalysis.v
theories/Spec/Handlers.v
theories/Spec/Header.v
theories/Spec/HeaderWord.v
theories/Spec/Inspect.v
theories/Spec/Interrupted.v
theories/Spec/Layout.v
theories/Spec/LinkedCli.v
theories/Spec/Links.v
theories/Spec/LowMemory.v
theories/Spec/Ltu.v
theories/Spec/LtuHandles.v
theories/Spec/Machines.v
theories/Spec/NormFirst.v
theories/Spec/NormTransform.v
theories/Spec/Normalize.v
theories/Spec/OldContents.v
theories/Spec/Overlap.v
theories/Spec/Pack.v
theories/Spec/Passes.v
theories/Spec/Pixels.v
theories/Spec/Release.v
theories/Spec/ReleaseRuns.v
theories/Spec/Stats.v
theories/Spec/TwoCommands.v
theories/Spec/Units.v
theories/Spec/UnitsFiles.v
theories/Spec/YCoCg.v
theories/Spec/Zstd.v
theories/Spec/ZstdSizes.v
