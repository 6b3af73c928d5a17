-Q theories Verif
theories/Word.v
theories/Isa.v
theories/Bits.v
theories/Codec.v
theories/CodecSpec.v
theories/CodecBits.v
theories/CodecFacts.v
theories/DecodeSpec.v
theories/DecodeFacts.v
theories/DecodeAccept.v
theories/EvalPlain.v
theories/EvalSpec.v
theories/EvalFacts.v
theories/PropCodec.v
theories/PropEval.v
theories/ListFacts.v
theories/TestVM.v
theories/TestSpec.v
theories/TestDecode.v
theories/TestRunSpec.v
theories/TestRunFacts.v
theories/TestStep.v
theories/IsaSplit.v
theories/DebugVM.v
theories/DebugSpec.v
theories/DebugFacts.v
theories/DebugStep.v
theories/RunSpec.v
theories/RunFacts.v
theories/DebugLoad.v
theories/PropTest.v
theories/PropDebug.v
theories/Bdd.v
theories/CircLui.v
theories/CircJalr.v
theories/CircAuipc.v
theories/CircRamOffset.v
theories/CircPcUpdate.v
theories/BddCheck.v
theories/BddFacts.v
theories/CircFacts.v
theories/CircSpec.v
theories/CircStruct.v
theories/PropCirc.v
theories/Glwe.v
theories/GlweFacts.v
theories/Par.v
theories/ParFacts.v
theories/EncMem.v
theories/MemSpec.v
theories/MemFacts.v
theories/MemOps.v
theories/MemClient.v
theories/Prepare.v
theories/PrepFacts.v
theories/MemSeq.v
theories/PropMem.v
theories/EncEval.v
theories/EncVM.v
theories/EncSpec.v
theories/EncFacts.v
theories/EncCycle.v
theories/EncTrack.v
theories/EncLoad.v
theories/EncRun.v
theories/PropEnc.v
theories/Loader.v
theories/LoadSpec.v
theories/LoadFacts.v
theories/LoadRun.v
theories/EndToEnd.v
theories/PropLoad.v
theories/Alloc.v
theories/PropAlloc.v
theories/Expr.v
theories/Oblivious.v
theories/ObliviousFacts.v
theories/PropOblivious.v
theories/PropHalt.v
theories/Startup.v
theories/PropStart.v
theories/Link.v
theories/LinkFacts.v
theories/PropLink.v
theories/PropProgram.v
theories/Guests.v
theories/GuestSpec.v
theories/GuestFacts.v
theories/PropGuests.v
theories/ExactSpec.v
theories/ExactFacts.v
theories/PropExact.v
theories/RefSpec.v
theories/RefFacts.v
theories/PropRef.v
theories/ShadowSpec.v
theories/ShadowFacts.v
theories/PropShadow.v
theories/PropRegs.v
theories/FloatSpec.v
theories/FloatFacts.v
theories/Otc.v
theories/OtcSpec.v
theories/OtcFacts.v
theories/PropOtc.v
theories/Scratch.v
theories/PropScratch.v
theories/Keys.v
theories/PropKeys.v
theories/Noise.v
theories/NoiseFacts.v
theories/NoiseMem.v
theories/NoiseEval.v
theories/NoiseVM.v
theories/NoiseWorst.v
theories/PropNoise.v
theories/Measure.v
theories/PropMeasure.v
theories/Flow.v
theories/Depend.v
theories/PropDepend.v
theories/Asm.v
theories/AsmSpec.v
theories/AsmFacts.v
theories/PropAsm.v
theories/RepoTests.v
theories/PropTests.v
theories/RepoRuns.v
theories/PropRuns.v
theories/CycleTime.v
theories/TimeSpec.v
theories/PropTime.v
theories/Seeds.v
theories/SeedSpec.v
theories/PropSeeds.v
theories/Host.v
theories/HostSpec.v
theories/PropHost.v
theories/CycleScratch.v
theories/CycleScratchSpec.v
theories/PropCycleScratch.v
theories/Params.v
theories/ParamsSpec.v
theories/PropParams.v
theories/Rust.v
theories/TextInstr.v
theories/TextDebug.v
theories/TextFacts.v
theories/PropText.v
theories/TextTest.v
theories/TextTestFacts.v
theories/TextTestRun.v
theories/TextTestExec.v
theories/PropTextTest.v
theories/RustIter.v
theories/RustLib.v
theories/TextMem.v
theories/TextLib.v
theories/TextLoop.v
theories/TextMemFacts.v
theories/TextMemClient.v
theories/PropTextMem.v
theories/RustEng.v
theories/TextEnc.v
theories/TextEng.v
theories/TextEngFacts.v
theories/TextPrep.v
theories/TextPlanes.v
theories/TextShadow.v
theories/TextCycle.v
theories/TextClient.v
theories/TextIdeal.v
theories/PropTextEnc.v
theories/RustStr.v
theories/RustHost.v
theories/TextHost.v
theories/TextHostFacts.v
theories/TextHostRun.v
theories/PropTextHost.v
theories/RustGuest.v
theories/TextAlloc.v
theories/TextGuestSwap.v
theories/TextGuestMatch.v
theories/TextGuestPoly.v
theories/TextGuestOtc.v
theories/TextGuestTest1.v
theories/TextGenTests.v
theories/TextMainPoly.v
theories/TextMainMatch.v
theories/TextMainSwap.v
theories/TextMainOtc.v
theories/TextGuestFacts.v
theories/PropTextGuest.v
theories/PropTextMain.v
theories/TextInstrTests.v
theories/PropTextTests.v
theories/RustParams.v
theories/TextParams.v
theories/TextMeasure.v
theories/PropTextParams.v
theories/RustKeys.v
theories/TextKeys.v
theories/PropTextKeys.v
theories/RustNoise.v
theories/TextNoise.v
theories/PropTextNoise.v
theories/Display.v
theories/DisplaySpec.v
theories/PropDisplay.v
theories/GenCode.v
theories/GenCodeSpec.v
theories/PropGenCode.v
theories/Build.v
theories/BuildSpec.v
theories/PropBuild.v
theories/RustTests.v
theories/TextFheTests.v
theories/TextFheFacts.v
theories/TextFheRuns.v
theories/TextFheFetch.v
theories/TextFheOps.v
theories/PropTextFheTests.v
