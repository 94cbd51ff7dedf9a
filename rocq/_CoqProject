-Q theories Verif
theories/Base.v
theories/Num.v
theories/Xr.v
theories/Flt.v
theories/MState.v
theories/MGeom.v
theories/MCoast.v
theories/MRiv.v
theories/MMor.v
theories/MOut.v
theories/MCore.v
theories/MLoad.v
theories/MSynth.v
theories/MVis.v
theories/MWave.v
theories/MConf.v
theories/MMain.v
theories/MNc.v
theories/MCli.v
theories/MMap.v
theories/PAdapt.v
theories/PAgain.v
theories/PAgain2.v
theories/PAgainEx.v
theories/PAgainEx2.v
theories/PAnim.v
theories/PAnimEx.v
theories/PBed.v
theories/PBedEx.v
theories/PBreach.v
theories/PBreach2.v
theories/PBudget.v
theories/PCap.v
theories/PCapEx.v
theories/PChan.v
theories/PChanEx.v
theories/PCli.v
theories/PCoast.v
theories/PConf.v
theories/PConf2.v
theories/PConf3.v
theories/PConf4.v
theories/PConfEx.v
theories/PConfEx2.v
theories/PConn.v
theories/PCore.v
theories/PCoreEx.v
theories/PDouble.v
theories/PDoubleEx.v
theories/PEnds.v
theories/PEndsEx.v
theories/PFill.v
theories/PFrame.v
theories/PFrameEx.v
theories/PGap.v
theories/PGeom.v
theories/PHot.v
theories/PHotEx.v
theories/PHyd.v
theories/PInterp.v
theories/PJac.v
theories/PKeep.v
theories/PKeepEx.v
theories/PLag.v
theories/PLater.v
theories/PLater2.v
theories/PLedger.v
theories/PLedger2.v
theories/PLedger3.v
theories/PLedgerEx.v
theories/PLevel.v
theories/PLine.v
theories/PLoad.v
theories/PLoad2.v
theories/PLoad3.v
theories/PLoad4.v
theories/PLoad5.v
theories/PLong.v
theories/PLong2.v
theories/PLong3.v
theories/PLongEx.v
theories/PMain.v
theories/PMain2.v
theories/PMain3.v
theories/PMain4.v
theories/PMain5.v
theories/PMain6.v
theories/PMainEx.v
theories/PMap.v
theories/PMass.v
theories/PMassEx.v
theories/PMem.v
theories/PMemEx.v
theories/PMirror.v
theories/PMirror2.v
theories/PMirror3.v
theories/PMirror4.v
theories/PMirror5.v
theories/PMirror6.v
theories/PMirrorEx.v
theories/PMirrorEx2.v
theories/PNc.v
theories/PNc2.v
theories/PNcEx.v
theories/PNext.v
theories/PNextEx.v
theories/PNextEx2.v
theories/POut.v
theories/POut2.v
theories/PPlan.v
theories/PPlan2.v
theories/PPlanEx.v
theories/PPost.v
theories/PPostEx.v
theories/PPre.v
theories/PQuiet.v
theories/PQuietEx.v
theories/PRaise.v
theories/PRaise2.v
theories/PRaiseEx.v
theories/PRaiseH.v
theories/PRate.v
theories/PRateEx.v
theories/PRbed.v
theories/PRbedEx.v
theories/PRound.v
theories/PSame.v
theories/PSameEx.v
theories/PSec.v
theories/PSeen.v
theories/PSeenEx.v
theories/PShift.v
theories/PShift2.v
theories/PShiftEx.v
theories/PShore.v
theories/PSpread.v
theories/PStart.v
theories/PStartEx.v
theories/PSteady.v
theories/PStep.v
theories/PStepEx.v
theories/PStore.v
theories/PSv.v
theories/PSynth.v
theories/PSynth2.v
theories/PSynth3.v
theories/PSynthEx.v
theories/PThrough.v
theories/PThroughEx.v
theories/PThroughEx2.v
theories/PTouch.v
theories/PTrans.v
theories/PTrimLine.v
theories/PTrunc.v
theories/PUpdate.v
theories/PUpdate2.v
theories/PVis.v
theories/PVisEx.v
theories/PVol.v
theories/PWatch.v
theories/PWatchEx.v
theories/PWave.v
theories/Prop_Adapt.v
theories/Prop_Again.v
theories/Prop_Breach.v
theories/Prop_Cap.v
theories/Prop_Chan.v
theories/Prop_Cli.v
theories/Prop_Coast.v
theories/Prop_Conf.v
theories/Prop_Conn.v
theories/Prop_Core.v
theories/Prop_Ends.v
theories/Prop_Frame.v
theories/Prop_Gap.v
theories/Prop_Geom.v
theories/Prop_Hyd.v
theories/Prop_Keep.v
theories/Prop_Later.v
theories/Prop_Ledger.v
theories/Prop_Load.v
theories/Prop_Long.v
theories/Prop_Main.v
theories/Prop_Map.v
theories/Prop_Mass.v
theories/Prop_Mem.v
theories/Prop_Mirror.v
theories/Prop_Mirror2.v
theories/Prop_Nc.v
theories/Prop_Next.v
theories/Prop_Out.v
theories/Prop_Plan.v
theories/Prop_Post.v
theories/Prop_Pre.v
theories/Prop_Raise.v
theories/Prop_Rate.v
theories/Prop_Rbed.v
theories/Prop_Same.v
theories/Prop_Sec.v
theories/Prop_Seen.v
theories/Prop_Shift.v
theories/Prop_Start.v
theories/Prop_Steady.v
theories/Prop_Step.v
theories/Prop_Synth.v
theories/Prop_Through.v
theories/Prop_Vis.v
theories/Prop_Vol.v
theories/Prop_Watch.v
theories/Prop_Wave.v
theories/SAdapt.v
theories/SAgain.v
theories/SAnim.v
theories/SBed.v
theories/SChan.v
theories/SCli.v
theories/SCoast.v
theories/SConf.v
theories/SConn.v
theories/SCore.v
theories/SDouble.v
theories/SEnds.v
theories/SFrame.v
theories/SGap.v
theories/SGeom.v
theories/SHyd.v
theories/SKeep.v
theories/SLater.v
theories/SLedger.v
theories/SLine.v
theories/SLoad.v
theories/SLong.v
theories/SMain.v
theories/SMap.v
theories/SMass.v
theories/SMem.v
theories/SMirror.v
theories/SMor.v
theories/SNc.v
theories/SNext.v
theories/SOut.v
theories/SPlan.v
theories/SPost.v
theories/SPre.v
theories/SRaise.v
theories/SRbed.v
theories/SRiv.v
theories/SRun.v
theories/SSame.v
theories/SSeen.v
theories/SShape.v
theories/SShift.v
theories/SStart.v
theories/SStep.v
theories/SSynth.v
theories/SThrough.v
theories/STouch.v
theories/SVis.v
theories/SVol.v
theories/SWatch.v
theories/SWave.v
theories/Sim.v
theories/SimEx.v
theories/XEval.v
