-Q theories Verif
theories/Base.v
theories/MBuffer.v
theories/SBuffer.v
theories/PBase.v
theories/PBuffer.v
theories/PReader.v
theories/PBufferT.v
theories/TBuffer.v
theories/MEip.v
theories/MYaskawa.v
theories/SEip.v
theories/PPath.v
theories/PPathT.v
theories/TPath.v
theories/PEip.v
theories/PRouter.v
theories/TEip.v
theories/MSocket.v
theories/SSocket.v
theories/PSocket.v
theories/SText.v
theories/PText.v
theories/MStatus.v
theories/PStatus.v
theories/TText.v
theories/SSession.v
theories/PSession.v
theories/TSocket.v
theories/MConnReq.v
theories/SConnReq.v
theories/PConnReq.v
theories/TConnReq.v
theories/MConn.v
theories/SConn.v
theories/PConnOpen.v
theories/PConnMap.v
theories/PIo.v
theories/PConnCall.v
theories/PConnCall2.v
theories/PConnHist.v
theories/PIo2.v
theories/PConnTop.v
theories/PIoTop.v
theories/PRefute.v
theories/SLife.v
theories/PLife.v
theories/TConn.v
theories/TIo.v
theories/MFile.v
theories/SObj.v
theories/PObj.v
theories/SFile.v
theories/PFile.v
theories/PFile2.v
theories/TFile.v
theories/MIdent.v
theories/MParam.v
theories/SParam.v
theories/PTrunc.v
theories/PParam.v
theories/PParam2.v
theories/PParam3.v
theories/PScale.v
theories/SFloat.v
theories/PFloat.v
theories/PScale2.v
theories/PScale3.v
theories/MReal.v
theories/SReal.v
theories/PReal.v
theories/TParam.v
theories/PRound.v
theories/PScale4.v
theories/PScale5.v
theories/PScale6.v
theories/TReal2.v
theories/MFault.v
theories/SFault.v
theories/SFaultText.v
theories/PFault.v
theories/TFault.v
theories/MDisc.v
theories/SDisc.v
theories/PDisc.v
theories/TDisc.v
theories/MLog.v
theories/SLog.v
theories/PLog.v
theories/PThread.v
theories/TLog.v
theories/SHost.v
theories/PHost.v
theories/THost.v
theories/MReent.v
theories/SReent.v
theories/PReent.v
theories/PDup.v
theories/TDup.v
theories/PThrow.v
theories/TReent.v
theories/TThrow.v
theories/STarget.v
theories/PTarget.v
theories/TTarget.v
theories/MFd.v
theories/SFd.v
theories/PFd.v
theories/TFd.v
theories/MExample.v
theories/SExample.v
theories/PExample.v
theories/PExample2.v
theories/PExample3.v
theories/TExample.v
theories/SWatch.v
theories/PWatch.v
theories/TWatch.v
theories/SWire.v
theories/PWire.v
theories/TWire.v
theories/MRes.v
theories/SRes.v
theories/PRes.v
theories/TRes.v
theories/MReuse.v
theories/SReuse.v
theories/PReuse.v
theories/TReuse.v
theories/MSync.v
theories/SSync.v
theories/PSync.v
theories/TSync.v
theories/SDet.v
theories/PDet.v
theories/TDet.v
theories/MNest.v
theories/SNest.v
theories/PNest.v
theories/TNest.v
theories/SLoop.v
theories/PLoop.v
theories/TLoop.v
theories/MDeep.v
theories/SDeep.v
theories/PDeep.v
theories/TDeep.v
theories/MMsg.v
theories/SMsg.v
theories/PMsg.v
theories/TMsg.v
theories/MErrno.v
theories/SErrno.v
theories/PErrno.v
theories/TErrno.v
theories/MFileLog.v
theories/SFileLog.v
theories/PFileLog.v
theories/PFileLog2.v
theories/TFileLog.v
theories/MObjLog.v
theories/SObjLog.v
theories/PObjLog.v
theories/PObjLog2.v
theories/TObjLog.v
theories/MSessLog.v
theories/SSessLog.v
theories/PSessLog.v
theories/TSessLog.v
theories/SExn.v
theories/PExn.v
theories/TExn.v
theories/MMain.v
theories/SMain.v
theories/PMain.v
theories/PMain2.v
theories/TMain.v
theories/PSel.v
theories/TSel.v
theories/MWhat.v
theories/SWhat.v
theories/PWhat.v
theories/TWhat.v
theories/MSlot.v
theories/SSlot.v
theories/PSlot.v
theories/TSlot.v
theories/TTests.v
theories/MShared.v
theories/SShared.v
theories/PShared.v
theories/PShared2.v
theories/TShared.v
theories/SBound.v
theories/PBound.v
theories/PBound2.v
theories/TBound.v
theories/PEng.v
theories/TEng.v
theories/MTime.v
theories/STime.v
theories/PTime.v
theories/PTime2.v
theories/TTime.v
theories/MPoll.v
theories/SPoll.v
theories/PPoll.v
theories/PPoll2.v
theories/TPoll.v
theories/MCopy.v
theories/SCopy.v
theories/PCopy.v
theories/PCopy2.v
theories/PCopy3.v
theories/TCopy.v
theories/MMany.v
theories/SMany.v
theories/PMany.v
theories/PMany2.v
theories/PMany3.v
theories/PMany4.v
theories/TMany.v
theories/MWin.v
theories/SWin.v
theories/PWin.v
theories/PWin2.v
theories/TWin.v
theories/MInner.v
theories/SInner.v
theories/PInner.v
theories/PInner2.v
theories/PInner3.v
theories/PInner4.v
theories/TInner.v
theories/MKeep.v
theories/SKeep.v
theories/PKeep.v
theories/PKeep2.v
theories/PKeep3.v
theories/TKeep.v
theories/MStr.v
theories/TStr.v
theories/MMem.v
theories/SMem.v
theories/PMem.v
theories/TMem.v
theories/MAton.v
theories/SAton.v
theories/PAton.v
theories/TAton.v
theories/MPort.v
theories/SPort.v
theories/PPort.v
theories/TPort.v
theories/MEndian.v
theories/SEndian.v
theories/PEndian.v
theories/TEndian.v
theories/MLow.v
theories/SLow.v
theories/PLow.v
theories/TLow.v
theories/MFileLow.v
theories/SFileLow.v
theories/PFileLow.v
theories/TFileLow.v
theories/MDiscLow.v
theories/PDiscLow.v
theories/TDiscLow.v
theories/MFaultLow.v
theories/SFaultLow.v
theories/PFaultLow.v
theories/TFaultLow.v
theories/MFaultCall.v
theories/SFaultCall.v
theories/PFaultCall.v
theories/TFaultCall.v
theories/SSessLow.v
theories/PSessLow.v
theories/TSessLow.v
theories/MObjLow.v
theories/SObjLow.v
theories/PObjLow.v
theories/TObjLow.v
theories/MConsole.v
theories/SConsole.v
theories/PConsole.v
theories/TConsole.v
theories/MYaskLow.v
theories/PYaskLow.v
theories/TYaskLow.v
