-Q theories Verif
theories/Base.v
theories/HexM.v
theories/TimeM.v
theories/HashM.v
theories/HeaderM.v
theories/ParamsM.v
theories/GeoM.v
theories/MsgM.v
theories/PacketM.v
theories/FrameM.v
theories/SpecCodec.v
theories/DecP.v
theories/HexP.v
theories/TimeP.v
theories/HeaderP.v
theories/FrameP.v
theories/MsgP.v
theories/CodecP.v
theories/CodecP2.v
theories/ParamsP.v
theories/CodecP3.v
theories/SpecTrunc.v
theories/TruncP.v
theories/ExampleData.v
theories/Properties_Codec.v
theories/Properties_Msg.v
theories/ProgM.v
theories/RingM.v
theories/SpecRing.v
theories/ProgP.v
theories/RingP.v
theories/LatestP.v
theories/FloatM.v
theories/FloatP.v
theories/Properties_Ring.v
theories/Properties_Float.v
theories/StateM.v
theories/ProcM.v
theories/ServerM.v
theories/SpecState.v
theories/SpecReg.v
theories/StateP.v
theories/ProcP.v
theories/ServerP.v
theories/EffectP.v
theories/ReplyP.v
theories/HandshakeP.v
theories/CmdP.v
theories/SessP.v
theories/ConcM.v
theories/RaceP.v
theories/InterP.v
theories/OriginP.v
theories/SpecConc.v
theories/ConcP.v
theories/IsoP.v
theories/SoloP.v
theories/Solo2P.v
theories/LockM.v
theories/LockP.v
theories/ClientM.v
theories/DatagenM.v
theories/SpecSim.v
theories/SimFloatP.v
theories/DatagenP.v
theories/LinkP.v
theories/RegP.v
theories/LifeP.v
theories/SpecAnswer.v
theories/AnswerP.v
theories/MoreP.v
theories/MainM.v
theories/MainP.v
theories/NetM.v
theories/SpecNet.v
theories/FleetP.v
theories/FleetP2.v
theories/FleetP3.v
theories/FleetP4.v
theories/FleetP5.v
theories/ExampleState.v
theories/Properties_State.v
theories/Properties_Reg.v
theories/Properties_Server.v
theories/Properties_Conc.v
theories/Properties_Lock.v
theories/Properties_Sim.v
theories/Properties_More.v
theories/Properties_Net.v
theories/SpecSplit.v
theories/SplitP.v
theories/EnterP.v
theories/Properties_Split.v
theories/ParamHeapM.v
theories/SpecParamHeap.v
theories/ParamHeapP.v
theories/Properties_Heap.v
theories/SpecWrite.v
theories/WriteP.v
theories/Properties_Write.v
theories/SpecRelease.v
theories/ReleaseP.v
theories/Properties_Release.v
theories/SpecSize.v
theories/SizeP.v
theories/Properties_Size.v
theories/StreamM.v
theories/SpecStream.v
theories/StreamP.v
theories/SpecTimely.v
theories/TimelyP.v
theories/Properties_Stream.v
theories/SpecOpen.v
theories/OpenP.v
theories/AgainP.v
theories/Properties_Open.v
theories/SimM.v
theories/SpecProcess.v
theories/SimP.v
theories/Properties_Process.v
theories/SpecEnd.v
theories/TermP.v
theories/Properties_End.v
theories/SpecAbsent.v
theories/AbsentP.v
theories/PlateP.v
theories/Properties_Held.v
theories/StartM.v
theories/SpecStart.v
theories/StartP.v
theories/AssetM.v
theories/SpecAsset.v
theories/AssetP.v
theories/Properties_Start.v
theories/HttpM.v
theories/SpecHttp.v
theories/HttpP.v
theories/Properties_Http.v
theories/SpecTimed.v
theories/TimedP.v
theories/Properties_Timed.v
theories/StopM.v
theories/SpecStop.v
theories/StopP.v
theories/Properties_Stop.v
theories/SpecCanon.v
theories/CanonP.v
theories/Properties_Canon.v
theories/SpecGen.v
theories/GenP.v
theories/Properties_Gen.v
theories/PaceM.v
theories/SpecPace.v
theories/PaceP.v
theories/Properties_Pace.v
theories/SpecOnTime.v
theories/FleetP6.v
theories/FleetP7.v
theories/FleetP8.v
theories/Properties_OnTime.v
theories/RepoTests.v
theories/WireM.v
theories/SpecWire.v
theories/WireP.v
theories/Properties_Wire.v
theories/RestartM.v
theories/SpecRestart.v
theories/RestartP.v
theories/RestartP2.v
theories/RestartP3.v
theories/RestartP4.v
theories/Properties_Restart.v
theories/SpecCmd.v
theories/CmdOrderP.v
theories/Properties_Cmd.v
theories/SpecNumeral.v
theories/NumeralP.v
theories/Properties_Numeral.v
theories/SpecParLoop.v
theories/ParLoopP.v
theories/Properties_ParLoop.v
theories/SpecHonest.v
theories/HonestP.v
theories/Properties_Honest.v
theories/JsonM.v
theories/SpecJson.v
theories/JsonP.v
theories/Properties_Json.v
theories/RenderM.v
theories/SpecRender.v
theories/RenderP.v
theories/Properties_Render.v
theories/SimConcM.v
theories/SpecOwn.v
theories/OwnP.v
theories/SimRaceP.v
theories/Properties_Own.v
theories/SimGeoM.v
theories/SimGeoP.v
theories/Properties_SimGeo.v
theories/Properties_Outgoing.v
theories/SpecRetry.v
theories/RetryP.v
theories/Properties_Retry.v
theories/Properties_Reads.v
theories/LogFileM.v
theories/SpecLogFile.v
theories/LogFileP.v
theories/Properties_LogFile.v
theories/RestoreM.v
theories/SpecRestore.v
theories/RestoreP.v
theories/RestoreAnyP.v
theories/Properties_Restore.v
theories/SpecDates.v
theories/DatesP.v
theories/DatesOwnP.v
theories/SinceP.v
theories/Properties_Dates.v
theories/SpecLook.v
theories/LookP.v
theories/LookAnswerP.v
theories/Properties_Look.v
theories/ListM.v
theories/SpecList.v
theories/ListP.v
theories/Properties_List.v
theories/SerialP.v
theories/Properties_Serials.v
theories/SpecJobs.v
theories/JobsP.v
theories/Properties_Jobs.v
theories/ArgsM.v
theories/ArgsP.v
theories/Properties_Args.v
theories/ClientPaceM.v
theories/SpecClientPace.v
theories/ClientPaceP.v
theories/Properties_ClientPace.v
theories/RestoreFailM.v
theories/SpecRestoreFail.v
theories/RestoreFailP.v
theories/RestoreFailAnyP.v
theories/Properties_RestoreFail.v
theories/Properties_SimBegin.v
