-Q theories Verif
theories/CInt.v
theories/CIntFacts.v
theories/Kernels.v
theories/BufferModel.v
theories/BufferSpec.v
theories/BufferProofs.v
theories/BufferProofs2.v
theories/PropertiesBuffer.v
theories/TimeModel.v
theories/PropertiesTime.v
theories/ToneModel.v
theories/PropertiesTone.v
theories/InterpModel.v
theories/InterpProofs.v
theories/IntervalProofs.v
theories/PropertiesInterp.v
theories/ClockModel.v
theories/DList.v
theories/ListSpec.v
theories/Family.v
theories/ListProofs.v
theories/ClockSpec.v
theories/ClockProofs.v
theories/ClockProofs2.v
theories/PropertiesClock.v
theories/SequenceModel.v
theories/SequenceSpec.v
theories/SequenceProofs.v
theories/EnvelopeProofs.v
theories/EnvelopeProofs2.v
theories/InstrumentProofs.v
theories/PropertiesSequence.v
theories/DataModel.v
theories/DataProofs.v
theories/DataUsers.v
theories/DataConv.v
theories/PropertiesData.v
theories/UnitModel.v
theories/UnitSpec.v
theories/UnitProofs.v
theories/UnitProofs2.v
theories/UnitProofs3.v
theories/UnitInv.v
theories/UnitInv2.v
theories/UnitInv3.v
theories/UnitNoise.v
theories/UnitProofs4.v
theories/UnitProofs5.v
theories/PropertiesUnit.v
theories/TrackModel.v
theories/TrackTime.v
theories/UnitShift.v
theories/ContextModel.v
theories/ContextSame.v
theories/ContextShift.v
theories/ContextRun.v
theories/ContextChunk.v
theories/ContextGen.v
theories/ContextGen2.v
theories/ContextSpec.v
theories/ContextHist.v
theories/ContextTime.v
theories/PropertiesContext.v
theories/WaveModel.v
theories/WaveSpec.v
theories/WaveProofs.v
theories/WaveReaderProofs.v
theories/PropertiesWave.v
theories/ObjectModel.v
theories/PropertiesObject.v
theories/DataObjectModel.v
theories/PropertiesDataObject.v
theories/InstrBounds.v
theories/UnitCount.v
theories/SlideIn.v
theories/TrackSpec.v
theories/TrackInv.v
theories/TrackProofs.v
theories/TrackProofs2.v
theories/TrackProofs3.v
theories/TrackProofs4.v
theories/TrackProofs5.v
theories/TrackProofs6.v
theories/TrackVolume.v
theories/TrackPlay.v
theories/TrackTicks.v
theories/TrackNote.v
theories/TrackAttrs.v
theories/TrackLaws.v
theories/PropertiesTrack.v
theories/MixSpec.v
theories/MixProofs.v
theories/PropertiesMix.v
theories/SecondsModel.v
theories/PropertiesSeconds.v
theories/SafeSpec.v
theories/TrackQuiet.v
theories/UnitQuiet.v
theories/SafeBuffer.v
theories/SafeRun.v
theories/SafeLoop.v
theories/SafeProofs.v
theories/PropertiesSafe.v
theories/FadeProofs.v
theories/PropertiesFade.v
theories/SoloSpec.v
theories/SoloProofs.v
theories/PropertiesSolo.v
theories/InstrUsersModel.v
theories/InstrUsersSpec.v
theories/InstrUsersProofs.v
theories/PropertiesInstrUsers.v
theories/RequestSpec.v
theories/RequestProofs.v
theories/PropertiesRequest.v
theories/AllocModel.v
theories/PropertiesAlloc.v
theories/PropertiesTune.v
theories/DiskModel.v
theories/PropertiesDisk.v
theories/PropertiesPeriod.v
theories/PlainModel.v
theories/PlainProofs.v
theories/PropertiesPlain.v
theories/HeldProofs.v
theories/PropertiesHeld.v
theories/PropertiesChord.v
theories/SampleProofs.v
theories/PropertiesSample.v
theories/TrackInstr.v
theories/TrackInstr2.v
theories/TrackInstr3.v
theories/TrackInstr4.v
theories/TrackInstr5.v
theories/PropertiesInstr.v
theories/TrackMelody.v
theories/TrackMelody2.v
theories/TrackMelody3.v
theories/TrackMelody4.v
theories/PropertiesMelody.v
theories/TrackAdsr.v
theories/TrackAdsr2.v
theories/TrackAdsr3.v
theories/PropertiesAdsr.v
theories/ContextReset.v
theories/PropertiesReset.v
theories/ResetSame.v
theories/TrackSame.v
theories/ReplaySame.v
theories/ReplayProofs.v
theories/PropertiesReplay.v
theories/ResetReads.v
theories/PropertiesRestart.v
theories/PropertiesMirror.v
