-Q theories Verif
theories/Base.v
theories/BaseFacts.v
theories/Codec.v
theories/CodecSpec.v
theories/CodecFacts.v
theories/CodecNeg.v
theories/PropsCodec.v
theories/Structs.v
theories/StructsSpec.v
theories/StructsFacts.v
theories/Views.v
theories/ViewsSpec.v
theories/ViewsFacts.v
theories/PropsStructs.v
theories/ViewsExact.v
theories/ViewsLimit.v
theories/PropsViews.v
theories/Storage.v
theories/PathFacts.v
theories/StorageSpec.v
theories/StorageFacts.v
theories/StorageMore.v
theories/StorageUse.v
theories/Utf8Spec.v
theories/Utf8Facts.v
theories/PropsStorage.v
theories/Writers.v
theories/HandleFacts.v
theories/WritersSpec.v
theories/EncodeFacts.v
theories/ElsewhereFacts.v
theories/ExtVecFacts.v
theories/ExtVecUse.v
theories/PropsExtVec.v
theories/MultiViews.v
theories/MultiSpec.v
theories/MultiViewFacts.v
theories/MultiViewUse.v
theories/MultiViewExact.v
theories/PropsMultiViews.v
theories/MultiVecFacts.v
theories/MultiVecUse.v
theories/PropsMultiVec.v
theories/Archives.v
theories/ArchiveSpec.v
theories/ArchiveFacts.v
theories/PropsArchive.v
theories/BuilderSpec.v
theories/BuilderFacts.v
theories/BuilderUse.v
theories/BuilderCrash.v
theories/PropsBuilder.v
theories/Conformance.v
theories/UnitTests.v
theories/Karenina.v
theories/Coappearances.v
theories/DirFacts.v
theories/BuilderProgress.v
theories/PropsProgress.v
theories/ProfileSpec.v
theories/ProfileFacts.v
theories/PropsProfile.v
theories/ReproSpec.v
theories/ReproFacts.v
theories/PropsRepro.v
theories/RetrySpec.v
theories/RetryFacts.v
theories/PropsRetry.v
theories/Text.v
theories/TextSpec.v
theories/TextFacts.v
theories/TextUse.v
theories/PropsText.v
theories/LookSpec.v
theories/LookFacts.v
theories/PropsLook.v
theories/MomentSpec.v
theories/MomentFacts.v
theories/MomentLogs.v
theories/MomentUse.v
theories/PropsMoments.v
theories/CountFacts.v
theories/PropsCounts.v
theories/DuringSpec.v
theories/BuilderLogs.v
theories/DuringUse.v
theories/PropsDuring.v
theories/PowerSpec.v
theories/PowerFacts.v
theories/PropsPower.v
theories/RaceSpec.v
theories/RaceFacts.v
theories/PropsRace.v
theories/Diff.v
theories/DiffSpec.v
theories/DiffFacts.v
theories/ErrorSpec.v
theories/ErrorFacts.v
theories/PropsErrors.v
theories/Conc.v
theories/ConcSpec.v
theories/ConcFacts.v
theories/ConcVec.v
theories/ConcUse.v
theories/PropsConc.v
theories/ConcFail.v
theories/ConcFailSpec.v
theories/ConcFailFacts.v
theories/ConcFailUse.v
theories/ConcFailBytes.v
theories/PropsConcFail.v
theories/ConcVecUse.v
theories/PropsConcVec.v
theories/CodecBounds.v
theories/PropsBounds.v
theories/BufferSpec.v
theories/BufferFacts.v
theories/PropsBuffer.v
theories/SpellFacts.v
theories/Paths.v
theories/PathSpec.v
theories/PropsSpell.v
theories/Width.v
theories/WidthFacts.v
theories/PropsWidth.v
theories/Enums.v
theories/EnumFacts.v
theories/PropsEnums.v
theories/CopySpec.v
theories/CopyFacts.v
theories/PropsCopy.v
theories/PropsLimit.v
theories/HandleSpec.v
theories/HandleUse.v
theories/PropsHandle.v
theories/RewriteFacts.v
theories/PropsRewrite.v
theories/WidthWriters.v
theories/WidthWriteFacts.v
theories/PropsNarrow.v
theories/WidthVectors.v
theories/WidthVecSpec.v
theories/WidthVecFacts.v
theories/PropsNarrowVec.v
theories/WidthMemory.v
theories/WidthMemFacts.v
theories/WidthSafe.v
theories/PropsNarrowMem.v
theories/WidthAgree.v
theories/WidthFit.v
theories/PropsNarrowFail.v
theories/WidthArchives.v
theories/WidthArchSpec.v
theories/WidthArchFacts.v
theories/PropsNarrowArch.v
theories/WidthBuilders.v
theories/WidthBuildSpec.v
theories/WidthBuildFacts.v
theories/WidthBuildUse.v
theories/PropsNarrowBuild.v
theories/WidthRuns.v
theories/WidthRunFacts.v
theories/WidthRunUse.v
theories/WidthRunBuild.v
theories/PropsNarrowClose.v
theories/StartSpec.v
theories/StartFacts.v
theories/PropsStart.v
theories/OpenSpec.v
theories/OpenFacts.v
theories/PropsOpen.v
theories/ErrorText.v
theories/ErrorTextSpec.v
theories/ErrorTextFacts.v
theories/PropsErrorText.v
theories/PathsFacts.v
theories/PropsPaths.v
theories/RecoverSpec.v
theories/RecoverFacts.v
theories/PropsRecover.v
theories/RedoSpec.v
theories/RedoFacts.v
theories/PropsRedo.v
theories/AgainSpec.v
theories/AgainFacts.v
theories/PropsAgain.v
theories/StorageText.v
theories/StorageTextSpec.v
theories/StorageTextFacts.v
theories/PropsStorageText.v
theories/RerunSpec.v
theories/RerunFacts.v
theories/RerunOk.v
theories/PropsRerun.v
theories/RebuildSpec.v
theories/RebuildFacts.v
theories/PropsRebuild.v
theories/PropsOverwrite.v
