-Q theories Verif
theories/Bytes.v
theories/GotoLang.v
theories/GoMap.v
theories/GoTime.v
theories/Common.v
theories/M5424Def.v
theories/Gen5424.v
theories/A5424.v
theories/M5424.v
theories/Spec5424.v
theories/CommonFacts.v
theories/Ref5424a.v
theories/Ref5424b.v
theories/Ref5424c.v
theories/Grammar5424.v
theories/Utf8.v
theories/Ts5424.v
theories/Gram5424.v
theories/Loc5424.v
theories/Props5424.v
theories/Thm5424.v
theories/Best5424.v
theories/Fail5424.v
theories/FailUtf8.v
theories/ThmFail5424.v
theories/Viable5424.v
theories/Cal.v
theories/M3164Def.v
theories/Gen3164.v
theories/A3164.v
theories/M3164.v
theories/Spec3164.v
theories/Ref3164.v
theories/Grammar3164.v
theories/Gram3164.v
theories/Thm3164.v
theories/Fail3164.v
theories/ThmFail3164.v
theories/Viable3164.v
theories/BuilderBaseDef.v
theories/GenBuilder.v
theories/ABuilder.v
theories/MBuilder.v
theories/RefBuilder.v
theories/BFmt.v
theories/BWf.v
theories/ThmBuilder.v
theories/BConc.v
theories/Bufio.v
theories/MOctet.v
theories/SpecOctet.v
theories/ROctet.v
theories/ThmOctet.v
theories/NonTransparentBaseDef.v
theories/GenNT.v
theories/ANT.v
theories/MNT.v
theories/SpecNT.v
theories/ThmNT.v
theories/Conc.v
theories/ThmConc5424.v
theories/ThmConc3164.v
theories/Texts.v
theories/ThmTexts.v
theories/Fmt.v
theories/ErrText.v
theories/ThmErrText.v
theories/Err5424.v
theories/Err3164.v
theories/MApi.v
theories/SpecApi.v
theories/ThmApi.v
theories/Heap.v
theories/HBuilder.v
theories/SpecHeap.v
theories/HOwn.v
theories/HRefB.v
theories/HRefB2.v
theories/HExec.v
theories/HParse5424.v
theories/HRef5424.v
theories/HRef5424b.v
theories/HRef5424c.v
theories/SpecWorld.v
theories/MWorld.v
theories/ThmHeap.v
theories/SpecCopy.v
theories/MCopy.v
theories/ThmCopy.v
theories/HParse3164.v
theories/ThmHeap3164.v
theories/SpecTransport.v
theories/ThmTransport.v
theories/MOctetLog.v
theories/ThmPrompt.v
theories/ThmLag.v
theories/ThmHuge.v
theories/MOctetBuf.v
theories/ThmResume.v
theories/Steps.v
theories/ThmSteps.v
theories/HBufio.v
theories/SpecDeliver.v
theories/MOctetMem.v
theories/ThmOctetMem.v
theories/SpecDeliverNT.v
theories/MNtMem.v
theories/ThmNtMem.v
theories/ThmConfuse.v
theories/Zone.v
theories/ThmZone.v
theories/MTesting.v
theories/ThmTesting.v
theories/MOctetCrash.v
theories/ThmCrash.v
theories/MNtCrash.v
theories/ThmNtCrash.v
theories/MOctet32.v
theories/ROctet32.v
theories/ThmOctet32.v
theories/BStmt.v
theories/ThmBStmt.v
theories/MLater.v
theories/ThmLater.v
theories/ThmNtLater.v
theories/MReenter.v
theories/ThmReenter.v
theories/MNtReenter.v
theories/ThmNtReenter.v
theories/ThmListen.v
theories/ThmNtListen.v
theories/Best3164.v
theories/MOctetCost.v
theories/ThmOctetCost.v
theories/MNtCost.v
theories/ThmNtCost.v
theories/MTextCost.v
theories/ThmTextCost.v
theories/MTextCost3164.v
theories/ThmTextCost3164.v
theories/MStringCost.v
theories/ThmStringCost.v
theories/MSetCost.v
theories/ThmSetCost.v
theories/ThmStreamCopy.v
theories/ThmNtCopy.v
