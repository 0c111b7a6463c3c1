-Q theories Verif
theories/AgainProof.v
theories/AgainSpec.v
theories/AliasModel.v
theories/ArrayModel.v
theories/AttrModel.v
theories/Base.v
theories/CallModel.v
theories/ChainModel.v
theories/CheckModel.v
theories/CleanProof.v
theories/CleanSpec.v
theories/CompactModel.v
theories/ConfigModel.v
theories/ContainerModel.v
theories/ContextProof.v
theories/DataModel.v
theories/DataSpec.v
theories/DeriveModel.v
theories/DictProof.v
theories/DictSpec.v
theories/DirProof.v
theories/DirSpec.v
theories/DropProof.v
theories/DropSettled.v
theories/DumpModel.v
theories/EqModel.v
theories/FieldModel.v
theories/FormatModel.v
theories/FrameModel.v
theories/FsModel.v
theories/FsProof.v
theories/GitModel.v
theories/HandlerModel.v
theories/HistoryProof.v
theories/InterruptModel.v
theories/KeepProof.v
theories/KeepSave.v
theories/KeepSpec.v
theories/LevelModel.v
theories/LogModel.v
theories/LoopModel.v
theories/MixinModel.v
theories/MountProof.v
theories/MountSpec.v
theories/OpenModel.v
theories/PathFacts.v
theories/PathModel.v
theories/PathSpec.v
theories/PlotModel.v
theories/PosixModel.v
theories/PosixProof.v
theories/ProgressModel.v
theories/PropsAgain.v
theories/PropsAlias.v
theories/PropsArray.v
theories/PropsAttr.v
theories/PropsCall.v
theories/PropsChain.v
theories/PropsCheck.v
theories/PropsClean.v
theories/PropsClose.v
theories/PropsCompact.v
theories/PropsConfig.v
theories/PropsContainer.v
theories/PropsCrash.v
theories/PropsData.v
theories/PropsDelete.v
theories/PropsDerive.v
theories/PropsDetached.v
theories/PropsDict.v
theories/PropsDropped.v
theories/PropsDump.v
theories/PropsEq.v
theories/PropsExact.v
theories/PropsFailure.v
theories/PropsField.v
theories/PropsFormat.v
theories/PropsFrame.v
theories/PropsGit.v
theories/PropsHandler.v
theories/PropsInterrupt.v
theories/PropsKeep.v
theories/PropsKeys.v
theories/PropsLevel.v
theories/PropsLog.v
theories/PropsLook.v
theories/PropsLoop.v
theories/PropsMarker.v
theories/PropsMixin.v
theories/PropsNames.v
theories/PropsOpen.v
theories/PropsOrphan.v
theories/PropsPath.v
theories/PropsPile.v
theories/PropsPlot.v
theories/PropsProgress.v
theories/PropsPrune.v
theories/PropsRace.v
theories/PropsRecord.v
theories/PropsRegistry.v
theories/PropsReload.v
theories/PropsRelocate.v
theories/PropsReplace.v
theories/PropsRepo.v
theories/PropsRound.v
theories/PropsSame.v
theories/PropsSerial.v
theories/PropsSession.v
theories/PropsShow.v
theories/PropsStale.v
theories/PropsStem.v
theories/PropsStore.v
theories/PropsStoreKey.v
theories/PropsStream.v
theories/PropsSubdir.v
theories/PropsSvg.v
theories/PropsTex.v
theories/PropsTick.v
theories/PropsTraceLog.v
theories/PropsTrack.v
theories/PropsTyped.v
theories/PropsWalk.v
theories/PropsWrap.v
theories/PruneModel.v
theories/RaceModel.v
theories/RegistryModel.v
theories/ReloadProof.v
theories/ReplayProof.v
theories/RoundProof.v
theories/RoundSpec.v
theories/SameProof.v
theories/SameSpec.v
theories/SerialFaults.v
theories/SerialModel.v
theories/SerialMore.v
theories/SerialProof.v
theories/SerialSpec.v
theories/SessionModel.v
theories/ShowModel.v
theories/StemModel.v
theories/StoreEvents.v
theories/StoreExample.v
theories/StoreFrame.v
theories/StoreLocal.v
theories/StoreModel.v
theories/StoreMount.v
theories/StorePlace.v
theories/StoreRecord.v
theories/StoreSave.v
theories/StoreSpec.v
theories/StreamModel.v
theories/SvgModel.v
theories/TargetProof.v
theories/TexModel.v
theories/TickModel.v
theories/TraceLogModel.v
theories/TrackModel.v
theories/TypedModel.v
theories/WalkModel.v
theories/WrapModel.v
