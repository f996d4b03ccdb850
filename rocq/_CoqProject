-Q theories Verif
theories/Bytes.v
theories/Strl.v
theories/Array.v
theories/Match.v
theories/MatchSpec.v
theories/MatchProofs.v
theories/MatchList.v
theories/Hash.v
theories/Lists.v
theories/ListsProofs.v
theories/ParseReq.v
theories/ParseProofs.v
theories/Wbuf.v
theories/PropsWbuf.v
theories/PropsPure.v
theories/State.v
theories/Messages.v
theories/Monad.v
theories/Core.v
theories/Write.v
theories/Info.v
theories/Chan.v
theories/Mode.v
theories/Msg.v
theories/Login.v
theories/Oper.v
theories/Server.v
theories/Dispatch.v
theories/Conn.v
theories/Clean0.v
theories/CleanRec.v
theories/Clean.v
theories/CleanTac.v
theories/CleanLists.v
theories/CleanParseReq.v
theories/CleanCore.v
theories/CleanWrite.v
theories/CleanInfo.v
theories/CleanChan.v
theories/CleanMode.v
theories/CleanMsg.v
theories/CleanLogin.v
theories/CleanOper.v
theories/CleanServer.v
theories/CleanDispatch.v
theories/Rel.v
theories/RelWrite.v
theories/RelInfo.v
theories/RelBase.v
theories/RelChan.v
theories/RelSrv.v
theories/RelInit.v
theories/RelKey.v
theories/RelCmd.v
theories/RelComp.v
theories/WF.v
theories/RelGone.v
theories/Frame.v
theories/Tree.v
theories/RelReg.v
theories/Inv1.v
theories/Inv2.v
theories/Inv3.v
theories/Inv4.v
theories/Inv5.v
theories/Live.v
theories/Spec.v
theories/Observ.v
theories/Safe0.v
theories/Safe1.v
theories/Safe2.v
theories/Safe3.v
theories/Safe.v
theories/Unch.v
theories/HandOper.v
theories/HandPrefix.v
theories/HandRemote.v
theories/HandLine.v
theories/Frames.v
theories/Attrib.v
theories/HandGain.v
theories/HandUser.v
theories/HandChan.v
theories/HandJoin.v
theories/HandKick.v
theories/HandMode.v
theories/HandLogin.v
theories/Output.v
theories/HandDo.v
theories/HandCap.v
theories/HandSend.v
theories/SpecMore.v
theories/HandInvite.v
theories/HandServer.v
theories/SpecLink.v
theories/HandCast.v
theories/SpecNick.v
theories/HandNick.v
theories/SpecInfo.v
theories/Hide0.v
theories/Hide1.v
theories/HandHide.v
theories/SpecWas.v
theories/HandWas.v
theories/HandConn.v
theories/HandRead.v
theories/CleanConn.v
theories/CleanTop.v
theories/HandTime.v
theories/SpecSync.v
theories/HandSync.v
theories/SpecJoin.v
theories/HandJoined.v
theories/SpecMode.v
theories/SpecInvite.v
theories/SpecUmode.v
theories/SpecKill.v
theories/HandInvited.v
theories/HandTell.v
theories/HandUmode.v
theories/HandKill.v
theories/HandKilled.v
theories/HandList.v
theories/Split.v
theories/SpecSplit.v
theories/HandSquit.v
theories/HandIntro.v
theories/HandNewServer.v
theories/HandNames.v
theories/Sessions.v
theories/PropsState.v
theories/PropsCmd.v
theories/PropsUser.v
theories/PropsLogin.v
theories/PropsSend.v
theories/PropsConn.v
theories/PropsClean.v
theories/PropsRead.v
theories/PropsMore.v
theories/PropsLink.v
theories/PropsNick.v
theories/PropsJoin.v
theories/PropsMode.v
theories/PropsInvite.v
theories/PropsUmode.v
theories/PropsKill.v
theories/PropsIntro.v
theories/PropsName.v
theories/PropsSplit.v
theories/PropsInfo.v
theories/PropsWas.v
theories/PropsSync.v
