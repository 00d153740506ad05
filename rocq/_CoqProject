-Q theories Verif

theories/Base.v
theories/Flags.v
theories/Ops.v
theories/Parse.v
theories/Cpu.v
theories/Flavours.v
theories/Prog.v
theories/Internal.v
theories/Instr.v
theories/Exec.v
theories/SpecAlu.v
theories/AluProofs.v
theories/Alu16Proofs.v
theories/PropAlu.v
theories/Trace.v
theories/Decode.v
theories/Range.v
theories/Sym.v
theories/Safe.v
theories/SafeEntry.v
theories/Dbg.v
theories/Clock.v
theories/ClockProofs.v
theories/Ewl.v
theories/Unreach.v
theories/SafeRun.v
theories/PropSafety.v
theories/PropClock.v
theories/Accessors.v
theories/SpecState.v
theories/PropState.v
theories/SpecIsa.v
theories/IsaLink.v
theories/IsaArith.v
theories/IsaTac.v
theories/IsaNone.v
theories/IsaPfx.v
theories/IsaExec.v
theories/SpecCycles.v
theories/IsaCycles.v
theories/IsaRun.v
theories/PropIsa.v
theories/SpecLog.v
theories/Stamp.v
theories/StampRun.v
theories/PropLog.v
theories/SpecStep.v
theories/IsaFacts.v
theories/IsaControl.v
theories/Steps.v
theories/Lock.v
theories/Control.v
theories/SpecReach.v
theories/Reach.v
theories/Demo.v
theories/PropControl.v
theories/SpecFlavour.v
theories/FlavDiff.v
theories/PropFlavour.v
theories/SpecEffects.v
theories/Effects.v
theories/EffectsRun.v
theories/PropEffects.v
theories/SpecLoop.v
theories/Drive.v
theories/Loop.v
theories/PropLoop.v
theories/SpecInt.v
theories/Int.v
theories/PropInt.v
theories/SpecBlock.v
theories/Block.v
theories/PropBlock.v
theories/SpecDebug.v
theories/DbgRep.v
theories/DbgRun.v
theories/PropDebug.v
theories/Format.v
theories/SpecFormat.v
theories/FormatProofs.v
theories/PropFormat.v
theories/Disasm.v
theories/SpecDisasm.v
theories/DisasmProofs.v
theories/PropDisasm.v
theories/Any.v
theories/SpecAny.v
theories/AnyProofs.v
theories/PropAny.v
theories/Opconsts.v
theories/OpconstsProofs.v
theories/PropOpconsts.v
theories/Serde.v
theories/SpecSerde.v
theories/SerdeProofs.v
theories/PropSerde.v
theories/RegPair.v
theories/SpecRegPair.v
theories/RegPairProofs.v
theories/PropRegPair.v
theories/DebugText.v
theories/SpecDebugText.v
theories/DebugTextProofs.v
theories/PropDebugText.v
theories/Forward.v
theories/SpecForward.v
theories/ForwardProofs.v
theories/PropForward.v
theories/SpecSlice.v
theories/Quiet.v
theories/QuietRun.v
theories/Slices.v
theories/PropSlice.v
theories/Tables.v
theories/SpecTables.v
theories/TablesCycles.v
theories/TablesRun.v
theories/TablesReport.v
theories/PropTables.v
theories/Shuffle.v
theories/SpecProgram.v
theories/Hoare.v
theories/Asm.v
theories/Kernel.v
theories/Select.v
theories/Insert.v
theories/ProgRun.v
theories/ProgSort.v
theories/PropProgram.v
theories/RalMemory.v
theories/RalBus.v
theories/SpecRal.v
theories/RalMemProofs.v
theories/RalBusProofs.v
theories/PropRal.v
theories/SpecPace.v
theories/Pace.v
theories/PropPace.v
theories/Asks.v
theories/PropAsk.v
theories/RalRunner.v
theories/SpecRunner.v
theories/RalRunnerProofs.v
theories/PropRunner.v
theories/RalPio.v
theories/SpecPio.v
theories/RalPioProofs.v
theories/RalPioNext.v
theories/PropPio.v
theories/RalCtc.v
theories/SpecCtc.v
theories/RalCtcProofs.v
theories/RalCtcChip.v
theories/RalCtcRun.v
theories/RalCtcSoon.v
theories/PropCtc.v
theories/SpecChain.v
theories/RalChain.v
theories/PropChain.v
theories/NoAck.v
theories/NoAckRun.v
theories/SpecDrive.v
theories/RalDrive.v
theories/RalDriveChain.v
theories/PropDrive.v
theories/RomImage.v
theories/SpecRom.v
theories/RomHoare.v
theories/RomAsm.v
theories/RomIo.v
theories/RomRun.v
theories/SpecLine.v
theories/RalLine.v
theories/PropLine.v
theories/UnitScript.v
theories/UnitOps.v
theories/UnitProofs.v
theories/UnitTrait.v
theories/UnitCpu.v
theories/PropUnit.v
theories/SpecLib.v
theories/RomLib.v
theories/RomLib2.v
theories/RomLib3.v
theories/RomLib4.v
theories/RomAlone.v
theories/RomPrune.v
theories/RomMoved.v
theories/RomLibRun.v
theories/SpecReset.v
theories/RomReset.v
theories/RomResetRun.v
theories/PropRom.v
theories/PropLib.v
theories/PropReset.v
theories/RalDebug.v
theories/SpecRalDebug.v
theories/RalDebugStep.v
theories/RalDebugRet.v
theories/RalDebugProofs.v
theories/RalDebugTotal.v
theories/RalPreview.v
theories/PropRalDebug.v
theories/RalThread.v
theories/SpecRalThread.v
theories/RalThreadProofs.v
theories/PropRalThread.v
theories/RalLoop.v
theories/SpecRalLoop.v
theories/RalLoopProofs.v
theories/RalLoopRuns.v
theories/PropRalLoop.v
theories/SpecDoc.v
theories/DocProofs.v
theories/PropDoc.v
