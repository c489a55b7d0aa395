-Q theories Verif

theories/Base.v
theories/Buf.v
theories/Crc16.v
theories/Number.v
theories/OctetString.v
theories/Boolean.v
theories/Value.v
theories/Time.v
theories/SList.v
theories/Tree.v
theories/Bodies.v
theories/Message.v
theories/File.v
theories/Transport.v
theories/Server.v
theories/ServerMain.v
theories/Tests.v
theories/Lib.v
theories/Wf.v
theories/Safe.v
theories/Safe2.v
theories/Safe3.v
theories/Ctx.v
theories/Ctx2.v
theories/Ctx3.v
theories/Scan.v
theories/Spec.v
theories/TL.v
theories/Inv.v
theories/MinSize.v
theories/CrcProof.v
theories/Reads.v
theories/FileFacts.v
theories/PropsParse.v
theories/PropsCrc.v
theories/PropsCrc2.v
theories/Write.v
theories/TLWrite.v
theories/TLRound.v
theories/NumFacts.v
theories/PropsNumber.v
theories/Double.v
theories/PropsDouble.v
theories/PropsString.v
theories/Item.v
theories/Enc.v
theories/Dzg.v
theories/Round.v
theories/Round2.v
theories/Round3.v
theories/PropsRound.v
theories/TransportFacts.v
theories/PropsTransport.v
theories/TransportWrite.v
theories/PropsSend.v
theories/PropsDzg.v
theories/PropsServer.v
theories/PropsDepth.v
theories/Exact.v
theories/Exact2.v
theories/Exact3.v
theories/PropsLost.v
theories/HeapBase.v
theories/HeapModel.v
theories/HeapLogic.v
theories/HeapRep.v
theories/HeapFree.v
theories/HeapSim.v
theories/HeapParse.v
theories/HeapParse2.v
theories/HeapParse3.v
theories/HeapParse4.v
theories/HeapParse5.v
theories/HeapWriteModel.v
theories/HeapWrite.v
theories/PropsHeap.v
theories/PropsHeapWrite.v
theories/HeapBuildModel.v
theories/HeapBuild.v
theories/PropsHeapBuild.v
theories/PropsMain.v
theories/Hosts.v
theories/HostsSim.v
theories/HostsWrite.v
theories/PropsHosts.v
theories/HexDump.v
theories/PropsDump.v
theories/Args.v
theories/PropsArgs.v
theories/HeapCost.v
theories/PropsMemory.v
theories/NoMemory.v
theories/PropsNoMemory.v
theories/Grammar.v
theories/Accept.v
theories/Accept2.v
theories/Accept3.v
theories/Accept4.v
theories/Accept5.v
theories/Accept6.v
theories/Accept7.v
theories/Accept8.v
theories/Accept9.v
theories/PropsGrammar.v
theories/Speak.v
theories/PropsWritten.v
theories/Decimal.v
theories/Units.v
theories/Printf.v
theories/PrintFacts.v
theories/PropsPrint.v
theories/PropsTells.v
theories/PropsNoise.v
theories/Shifts.v
theories/PropsShift.v
theories/HeapServerModel.v
theories/HeapServer.v
theories/HeapServerCost.v
theories/PropsHeapServer.v
theories/PropsScreen.v
theories/NoMemoryServer.v
theories/PropsServerMemory.v
theories/ReportModel.v
theories/PropsReport.v
theories/TransportReport.v
theories/PropsEnding.v
theories/ServerReport.v
theories/PropsStderr.v
theories/ReportFacts.v
theories/PropsLocal.v
theories/WriteReport.v
theories/PropsWriteReport.v
theories/PropsRestart.v
theories/Uuid.v
theories/PropsUuid.v
theories/MainReport.v
theories/PropsWhole.v
theories/ShortWrite.v
theories/ShortRead.v
theories/ShortHeap.v
theories/PropsShort.v
theories/Cells.v
theories/EncCells.v
theories/OverFrame.v
theories/PropsResend.v
theories/PropsResendHeap.v
theories/StepModel.v
theories/StepFacts.v
theories/StepPay.v
theories/StepFile.v
theories/StepBusy.v
theories/PropsSteps.v
theories/PropsOwn.v
theories/PropsFuzz.v
