-Q theories Verif

theories/Base.v
theories/BaseFacts.v
theories/Floats.v
theories/GoVal.v
theories/MetricType.v
theories/ByteWriter.v
theories/Hash.v
theories/Units.v
theories/Indom.v
theories/Metrics.v
theories/Registry.v
theories/Prog.v
theories/Client.v
theories/Mmvdump.v
theories/Ileave.v
theories/ProgProofs.v
theories/Exec.v
theories/BufFacts.v
theories/Events.v
theories/StartEvents.v
theories/Tiling.v
theories/StartGood.v
theories/StartLayout.v
theories/StartFinal.v
theories/StartDone.v
theories/View.v
theories/Sections.v
theories/StartView.v
theories/RegInv.v
theories/Update.v
theories/WriterFacts.v
theories/World.v
theories/OpRuns.v
theories/RegFacts.v
theories/WorldInv.v
theories/Sync.v
theories/FloatFacts.v
theories/FlocqFacts.v
theories/FloatMono.v
theories/ValueFacts.v
theories/MetricFacts.v
theories/SyncLive.v
theories/SyncView.v
theories/OpFacts.v
theories/GaugeFacts.v
theories/VectorFacts.v
theories/VectorOps.v
theories/HistFacts.v
theories/StartLive.v
theories/Crash.v
theories/Life.v
theories/Layout.v
theories/Example.v
theories/Witness.v
theories/MmvPcp.v
theories/UnitFacts.v
theories/RegSteps.v
theories/RegWitness.v
theories/DumpSched.v
theories/DumpFacts.v
theories/DumpSeq.v
theories/DumpTrunc.v
theories/DumpBad.v
theories/DumpRun.v
theories/DumpText.v
theories/Golden.v
theories/TextFacts.v
theories/TextView.v
theories/TextShow.v
theories/TextWitness.v
theories/Utf8.v
theories/Regexp.v
theories/Parse.v
theories/Path.v
theories/Config.v
theories/Utf8Facts.v
theories/Utf8Enc.v
theories/RegexpFacts.v
theories/ParseFacts.v
theories/RegString.v
theories/PathFacts.v
theories/PathWalk.v
theories/ConfigFacts.v
theories/ConfigWitness.v
theories/Locks.v
theories/LocksFacts.v
theories/LocksLive.v
theories/LocksExec.v
theories/Conc.v
theories/ConcRuns.v
theories/SyncApart.v
theories/ConcFacts.v
theories/ConcLive.v
theories/RegConc.v
theories/RegConcFacts.v
theories/RegConcLive.v
theories/RegConcAny.v
theories/ConcWitness.v
theories/StartRace.v
theories/StartRaceFacts.v
theories/StartRaceExec.v
theories/PropsWriter.v
theories/PropsValues.v
theories/PropsMetrics.v
theories/PropsVectors.v
theories/PropsStart.v
theories/PropsHistory.v
theories/PropsUnits.v
theories/PropsRegistry.v
theories/PropsReader.v
theories/PropsText.v
theories/PropsDump.v
theories/NewFacts.v
theories/PropsNew.v
theories/AddFacts.v
theories/PropsAdd.v
theories/Files.v
theories/FilesFacts.v
theories/Names.v
theories/NamesFacts.v
theories/PropsConc.v
theories/PropsFiles.v
theories/FloatErr.v
theories/TimerTotal.v
theories/PropsTimer.v
theories/StartGrow.v
theories/StartGrowFacts.v
theories/StartGrowWit.v
theories/PropsRace.v
theories/Samples.v
theories/SamplesFacts.v
theories/SamplesRun.v
theories/SamplesRt.v
theories/SamplesView.v
theories/PropsSamples.v
theories/DumpCmd.v
theories/DumpCmdFacts.v
theories/PropsCmd.v
theories/RegMaps.v
theories/RegMapsFacts.v
theories/PropsMaps.v
theories/MidSlot.v
theories/MidUpdate.v
theories/MidStep.v
theories/MidRun.v
theories/MidView.v
theories/PropsMid.v
theories/MidPiece.v
theories/PropsPiece.v
theories/LocksCut.v
theories/SamplesHttp.v
theories/SamplesHttpMid.v
theories/PropsHttp.v
theories/SamplesDl.v
theories/SamplesDlErr.v
theories/PropsDl.v
theories/SamplesHist.v
theories/PropsHist.v
theories/PropsHistMid.v
theories/SamplesAcme.v
theories/SamplesAcmeRun.v
theories/PropsAcme.v
