-Q theories Verif
theories/Num.v
theories/Outcome.v
theories/RNum.v
theories/Vec.v
theories/SpecVec.v
theories/VecFacts.v
theories/RotationFacts.v
theories/VecExtra.v
theories/PropsVec.v
theories/OutcomeFacts.v
theories/Numerics.v
theories/SpecTable.v
theories/NumericsFacts.v
theories/SimpsonFacts.v
theories/NumericsExtra.v
theories/PropsNumerics.v
theories/MCTools.v
theories/Units.v
theories/Particle.v
theories/ParticleList.v
theories/MCFacts.v
theories/PropsMC.v
theories/ParticleFacts.v
theories/PropsParticle.v
theories/Source.v
theories/SourceRace.v
theories/SourceFacts.v
theories/SourceRaceFacts.v
theories/PropsSource.v
theories/Fields.v
theories/FieldFacts.v
theories/PropsFields.v
theories/Pusher.v
theories/SpecDyn.v
theories/PusherFacts.v
theories/PropsPusher.v
theories/Process.v
theories/ProcessFacts.v
theories/ProcessRFacts.v
theories/ProcessSafe.v
theories/F64Facts.v
theories/PropsProcess.v
theories/Sim.v
theories/SimFacts.v
theories/SimTime.v
theories/SimClock.v
theories/PropsSim.v
theories/Histogram.v
theories/HistRace.v
theories/HistFacts.v
theories/PropsHist.v
theories/Hdf5.v
theories/Output.v
theories/OutFacts.v
theories/OutFile.v
theories/PropsOut.v
theories/Mpi.v
theories/MpiFacts.v
theories/MpiGather.v
theories/MpiHist.v
theories/PropsMpi.v
theories/Text.v
theories/Ini.v
theories/IniReader.v
theories/FileParser.v
theories/IniFacts.v
theories/SpecIni.v
theories/PropsIni.v
theories/SpecNumeral.v
theories/NumeralFacts.v
theories/PropsValues.v
theories/PropsFile.v
theories/RunManager.v
theories/RunFacts.v
theories/PropsRun.v
theories/PropsTables.v
theories/Program.v
theories/ProgramFacts.v
theories/PropsProgram.v
theories/Geant.v
theories/GeantFacts.v
theories/PropsGeant.v
theories/Tables.v
theories/SpecLoad.v
theories/TablesFacts.v
theories/SampleFacts.v
theories/PropsLoad.v
theories/PropsSample.v
theories/TrackFacts.v
theories/TrackFile.v
theories/PropsTrack.v
theories/PropsOde.v
theories/PropsClock.v
theories/PropsBalance.v
theories/Skewed.v
theories/PropsSkew.v
theories/PropsPython.v
theories/PropsBeam.v
theories/PropsSingle.v
theories/NetProcess.v
theories/PropsNet.v
theories/OutBuffers.v
theories/PropsClose.v
theories/IniMem.v
theories/IniMemFacts.v
theories/PropsIniMem.v
theories/F64Real.v
theories/F64Draw.v
theories/F64Kin.v
theories/F64Zero.v
theories/F64Hist.v
theories/F64Interp.v
theories/PropsF64.v
theories/PropsConst.v
theories/CheckFile.v
theories/PropsCheck.v
theories/ShippedData.v
theories/Shipped.v
theories/ShippedFacts.v
theories/ShippedTables.v
theories/PropsShipped.v
theories/ShippedReal.v
theories/PropsUse.v
theories/PropsPairs.v
theories/ExampleData.v
theories/CompleteFacts.v
theories/PropsExample.v
theories/PyExample.v
theories/PropsPyExample.v
theories/NanFacts.v
theories/NanRun.v
theories/PropsNan.v
theories/ShippedSlope.v
theories/BoundedRun.v
theories/PropsQuantum.v
theories/PropsQuantumRun.v
theories/Tests.v
theories/PropsTest.v
theories/ProgramSafe.v
theories/PropsSafe.v
theories/Converge.v
theories/PropsConverge.v
theories/MpiProgram.v
theories/PropsMpiRun.v
theories/Threads.v
theories/ThreadFacts.v
theories/ThreadSerial.v
theories/ThreadReplay.v
theories/ThreadProgram.v
theories/ThreadOrder.v
theories/PropsThreads.v
theories/ThreadSafe.v
theories/ThreadFail.v
theories/PropsThreadSafe.v
theories/PyThreads.v
theories/PyThreadFacts.v
theories/PySerial.v
theories/PySession.v
theories/PySched.v
theories/PropsPyThreads.v
theories/ThreadTracks.v
theories/ThreadTrackFail.v
theories/PropsTrackThreads.v
theories/LedgerFacts.v
theories/PropsLedger.v
theories/Fourth.v
theories/PropsFourth.v
theories/F64Orbit.v
theories/PropsRound.v
theories/PropsFlight.v
theories/PropsMpiCount.v
theories/PropsLine.v
theories/PropsQuiet.v
theories/PropsCruise.v
