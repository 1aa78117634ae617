-Q theories Verif
theories/PyBase.v
theories/BytesM.v
theories/EsvM.v
theories/MsgM.v
theories/SpecWire.v
theories/SpecHex.v
theories/BytesP.v
theories/WireP.v
theories/CodecP.v
theories/PropsCodec.v
theories/PropM.v
theories/ObjM.v
theories/DbData.v
theories/DbM.v
theories/DictP.v
theories/SpecObj.v
theories/SpecMap.v
theories/SpecReq.v
theories/ObjP.v
theories/MapP.v
theories/ReqP.v
theories/PropsObj.v
theories/PropsReq.v
theories/SpecDb.v
theories/DbP.v
theories/PropsDb.v
theories/NodeM.v
theories/LocalM.v
theories/CtrlM.v
theories/SpecNode.v
theories/NodeP.v
theories/SpecProf.v
theories/ProfP.v
theories/PropsNode.v
theories/SpecLocal.v
theories/LocalP.v
theories/AnswerP.v
theories/PropsLocal.v
theories/SpecSrv.v
theories/SrvP.v
theories/PropsSrv.v
theories/SpecCtrl.v
theories/CtrlP.v
theories/PropsCtrl.v
theories/TidM.v
theories/SpecTid.v
theories/TidP.v
theories/PostM.v
theories/SpecPost.v
theories/PostP.v
theories/RaceP.v
theories/PropsConc.v
theories/SpecEnd.v
theories/EndP.v
theories/PropsEnd.v
theories/SpecSess.v
theories/SessP.v
theories/PropsSess.v
theories/SpecNet.v
theories/NetP.v
theories/PropsNet.v
theories/SpecLife.v
theories/LifeP.v
theories/PropsLife.v
theories/TextM.v
theories/SpecText.v
theories/TextP.v
theories/PropsText.v
theories/MonoM.v
theories/SpecMono.v
theories/MonoP.v
theories/PropsMono.v
theories/ToolM.v
theories/SpecTool.v
theories/ToolP.v
theories/PropsTool.v
theories/RepoTests.v
theories/SpecSelf.v
theories/SelfP.v
theories/PropsSelf.v
theories/FoundM.v
theories/SpecFound.v
theories/FoundP.v
theories/ListenM.v
theories/SpecListen.v
theories/ListenP.v
theories/ServeM.v
theories/SpecServe.v
theories/ServeP.v
theories/PropsShare.v
theories/SpecDisc.v
theories/DiscP.v
theories/PropsDisc.v
theories/HeapM.v
theories/SpecHeap.v
theories/HeapP.v
theories/PropsHeap.v
theories/BenchM.v
theories/SpecBench.v
theories/BenchP.v
theories/PropsBench.v
theories/SpecMany.v
theories/ManyP.v
theories/PropsMany.v
theories/RestM.v
theories/RestP.v
theories/PropsRest.v
theories/StopM.v
theories/SpecStop.v
theories/StopP.v
theories/PropsStop.v
theories/SpecLight.v
theories/LightP.v
theories/PropsLight.v
theories/RunM.v
theories/SpecRun.v
theories/RunP.v
theories/PropsRun.v
theories/SpecStore.v
theories/StoreP.v
theories/PropsStore.v
theories/SpecBuild.v
theories/BuildP.v
theories/PropsBuild.v
theories/RefM.v
theories/SpecRef.v
theories/RefP.v
theories/PropsRef.v
theories/SpecAgain.v
theories/AgainP.v
theories/PropsAgain.v
theories/SpecExact.v
theories/ExactP.v
theories/PropsExact.v
theories/NestM.v
theories/SpecNest.v
theories/NestP.v
theories/PropsNest.v
theories/SpecMulti.v
theories/MultiP.v
theories/PropsMulti.v
theories/CbM.v
theories/SpecCb.v
theories/CbP.v
theories/PropsCb.v
theories/StartM.v
theories/SpecStart.v
theories/StartP.v
theories/PropsStart.v
theories/SpecOwn.v
theories/OwnP.v
theories/PropsOwn.v
theories/BufM.v
theories/SpecBuf.v
theories/BufP.v
theories/PropsBuf.v
theories/GapP.v
theories/PropsGap.v
theories/DocM.v
theories/SpecDoc.v
theories/DocP.v
theories/PropsDoc.v
theories/EditM.v
theories/SpecEdit.v
theories/EditP.v
theories/PropsEdit.v
theories/WrapP.v
theories/PropsWrap.v
theories/MultiWP.v
theories/AskM.v
theories/SpecAsk.v
theories/AskP.v
theories/PropsAsk.v
theories/SpecMem.v
theories/MemP.v
theories/PropsMem.v
theories/GcM.v
theories/SpecGc.v
theories/GcP.v
theories/PropsGc.v
theories/KeyM.v
theories/SpecKey.v
theories/KeyP.v
theories/PropsKey.v
theories/CopyM.v
theories/SpecCopy.v
theories/CopyP.v
theories/PropsCopy.v
theories/SpecTell.v
theories/TellP.v
theories/PropsTell.v
theories/SpecParse.v
theories/ParseP.v
theories/PropsParse.v
theories/LogM.v
theories/SpecLog.v
theories/LogP.v
theories/PropsLog.v
theories/OutM.v
theories/SpecOut.v
theories/OutP.v
theories/PropsOut.v
theories/SpecGroup.v
theories/GroupP.v
theories/PropsGroup.v
theories/SpecSeek.v
theories/SeekP.v
theories/SpecField.v
theories/FieldP.v
theories/PropsSeek.v
theories/SpecMeet.v
theories/MeetP.v
theories/PropsMeet.v
theories/AddrM.v
theories/SpecAddr.v
theories/AddrP.v
theories/PropsAddr.v
theories/SpecUser.v
theories/UserP.v
theories/PropsUser.v
theories/SpecOutc.v
theories/OutcP.v
theories/PropsOutc.v
theories/NameData.v
theories/NameM.v
theories/SpecName.v
theories/NameP.v
theories/SpecLbl.v
theories/LblP.v
theories/PropsName.v
theories/LampM.v
theories/SpecLamp.v
theories/LampP.v
theories/PropsLamp.v
theories/SpecBits.v
theories/BitsP.v
theories/PropsBits.v
theories/DestM.v
theories/SpecDest.v
theories/DestP.v
theories/PropsDest.v
theories/LinkM.v
theories/SpecLink.v
theories/LinkP.v
theories/PropsLink.v
theories/GuideM.v
theories/SpecGuide.v
theories/GuideP.v
theories/PropsGuide.v
theories/PairM.v
theories/SpecPair.v
theories/PairP.v
theories/PropsPair.v
theories/LateP.v
theories/SpecNews.v
theories/NewsP.v
theories/PropsNews.v
theories/SpecCrowd.v
theories/CrowdP.v
theories/PropsCrowd.v
theories/SpecSolo.v
theories/SoloP.v
theories/PropsSolo.v
theories/SpecParley.v
theories/ParleyP.v
theories/PropsParley.v
