-Q theories Verif
theories/Base/Arith.v
theories/Model/Alloc.v
theories/Model/AppInfo.v
theories/Model/Assign.v
theories/Model/BitCopy.v
theories/Model/Bssgp.v
theories/Model/BtsConf.v
theories/Model/ByteCtr.v
theories/Model/Cell.v
theories/Model/CellStat.v
theories/Model/Codel.v
theories/Model/CodingScheme.v
theories/Model/Csn1.v
theories/Model/Csn1Enc.v
theories/Model/Csn1Tables.v
theories/Model/CtrlMsg.v
theories/Model/DataHeader.v
theories/Model/DlBlockTx.v
theories/Model/DlDemand.v
theories/Model/DlErrors.v
theories/Model/DlTransfer.v
theories/Model/EgprsReport.v
theories/Model/FlowCtl.v
theories/Model/FrameNo.v
theories/Model/GprsReport.v
theories/Model/Gsmtap.v
theories/Model/ImmAss.v
theories/Model/L1Meas.v
theories/Model/LinkAdapt.v
theories/Model/LlcQueue.v
theories/Model/MeasRep.v
theories/Model/MsClass.v
theories/Model/MsRef.v
theories/Model/MsTlli.v
theories/Model/Mslot.v
theories/Model/Nacc.v
theories/Model/NeighCache.v
theories/Model/NsConf.v
theories/Model/Paging.v
theories/Model/PchTimer.v
theories/Model/PcuIf.v
theories/Model/PcuTx.v
theories/Model/Rach.v
theories/Model/Rim.v
theories/Model/RlcCps.v
theories/Model/RlcWindow.v
theories/Model/RlcWindowDl.v
theories/Model/RlcWindowUl.v
theories/Model/Route.v
theories/Model/Sched.v
theories/Model/SchemeCtr.v
theories/Model/Segment.v
theories/Model/ShowMs.v
theories/Model/ShowPdch.v
theories/Model/ShowTbf.v
theories/Model/SingleBlock.v
theories/Model/SplitBlock.v
theories/Model/T4.v
theories/Model/Ta.v
theories/Model/TbfDlWindow.v
theories/Model/TbfFsm.v
theories/Model/TbfSub.v
theories/Model/TbfUlWindow.v
theories/Model/UlAck.v
theories/Model/UlAckDesc.v
theories/Model/UlController.v
theories/Model/UlFrames.v
theories/Model/UlParse.v
theories/Model/VtyConf.v
theories/Proofs/AckDescEx.v
theories/Proofs/AckDescP.v
theories/Proofs/AllocEx.v
theories/Proofs/AllocP.v
theories/Proofs/AllocQ.v
theories/Proofs/AllocR.v
theories/Proofs/AppInfoP.v
theories/Proofs/AssignDown.v
theories/Proofs/AssignEx.v
theories/Proofs/AssignFits.v
theories/Proofs/AssignMem.v
theories/Proofs/AssignRead.v
theories/Proofs/AssignUp.v
theories/Proofs/AssignUpEnd.v
theories/Proofs/AssignUpMsg.v
theories/Proofs/BitCopyP.v
theories/Proofs/BsnDelta.v
theories/Proofs/BssgpP.v
theories/Proofs/BssgpQ.v
theories/Proofs/BssgpR.v
theories/Proofs/ByteCtrP.v
theories/Proofs/CellI.v
theories/Proofs/CellP.v
theories/Proofs/CellStatP.v
theories/Proofs/CellStatQ.v
theories/Proofs/CellStatR.v
theories/Proofs/CodelP.v
theories/Proofs/CodingP.v
theories/Proofs/Csn1Check.v
theories/Proofs/Csn1Close.v
theories/Proofs/Csn1Emit.v
theories/Proofs/Csn1Ex.v
theories/Proofs/Csn1Fields.v
theories/Proofs/Csn1Msgs.v
theories/Proofs/Csn1Ul.v
theories/Proofs/CtrlMsgEx.v
theories/Proofs/CtrlMsgP.v
theories/Proofs/DataHeaderP.v
theories/Proofs/DataHeaderQ.v
theories/Proofs/DataHeaderX.v
theories/Proofs/DlBlockTxP.v
theories/Proofs/DlDemandP.v
theories/Proofs/DlDemandQ.v
theories/Proofs/DlErrorsEx.v
theories/Proofs/DlErrorsP.v
theories/Proofs/DlLoopEx.v
theories/Proofs/DlLoopP.v
theories/Proofs/DlTransferP.v
theories/Proofs/DlTransferQ.v
theories/Proofs/DlTransferR.v
theories/Proofs/DlTransferS.v
theories/Proofs/DlTransferX.v
theories/Proofs/DlWindowEx.v
theories/Proofs/DlWindowH.v
theories/Proofs/DlWindowI.v
theories/Proofs/DlWindowP.v
theories/Proofs/DlWindowProps.v
theories/Proofs/EgprsReportP.v
theories/Proofs/EgprsReportQ.v
theories/Proofs/EgprsReportX.v
theories/Proofs/FlowCtlP.v
theories/Proofs/FrameP.v
theories/Proofs/GprsReportP.v
theories/Proofs/GsmtapP.v
theories/Proofs/ImmAssP.v
theories/Proofs/ImmAssQ.v
theories/Proofs/L1MeasP.v
theories/Proofs/L1MeasQ.v
theories/Proofs/L1MeasR.v
theories/Proofs/L1MeasX.v
theories/Proofs/LinkP.v
theories/Proofs/LinkQ.v
theories/Proofs/LlcP.v
theories/Proofs/LlcQ.v
theories/Proofs/MeasRepP.v
theories/Proofs/MsClassP.v
theories/Proofs/MsClassQ.v
theories/Proofs/MsClassR.v
theories/Proofs/MsClassX.v
theories/Proofs/MsRefP.v
theories/Proofs/MsTlliEx.v
theories/Proofs/MsTlliP.v
theories/Proofs/NaccP.v
theories/Proofs/NaccP2.v
theories/Proofs/NaccP3.v
theories/Proofs/NeighCacheP.v
theories/Proofs/NsConfP.v
theories/Proofs/NsConfQ.v
theories/Proofs/NsConfX.v
theories/Proofs/PagingP.v
theories/Proofs/PchTimerP.v
theories/Proofs/PcuIfEx.v
theories/Proofs/PcuIfP.v
theories/Proofs/PcuIfQ.v
theories/Proofs/PcuIfR.v
theories/Proofs/PcuIfS.v
theories/Proofs/PcuIfT.v
theories/Proofs/PcuIfU.v
theories/Proofs/PcuIfV.v
theories/Proofs/PcuTxP.v
theories/Proofs/PcuTxQ.v
theories/Proofs/PcuTxR.v
theories/Proofs/PcuTxX.v
theories/Proofs/RachP.v
theories/Proofs/RejectP.v
theories/Proofs/RimP.v
theories/Proofs/RimQ.v
theories/Proofs/RimR.v
theories/Proofs/RimW.v
theories/Proofs/RouteP.v
theories/Proofs/RouteQ.v
theories/Proofs/RouteR.v
theories/Proofs/RouteS.v
theories/Proofs/RouteT.v
theories/Proofs/RouteU.v
theories/Proofs/RouteV.v
theories/Proofs/RouteW.v
theories/Proofs/SchedEx.v
theories/Proofs/SchedP.v
theories/Proofs/SchedQ.v
theories/Proofs/SchemeCtrP.v
theories/Proofs/SegP.v
theories/Proofs/SegQ.v
theories/Proofs/ShowMsP.v
theories/Proofs/ShowPdchP.v
theories/Proofs/ShowTbfP.v
theories/Proofs/SingleBlockP.v
theories/Proofs/SplitP.v
theories/Proofs/T4P.v
theories/Proofs/TaP.v
theories/Proofs/TbfFsmP.v
theories/Proofs/TbfFsmQ.v
theories/Proofs/TbfSubEx.v
theories/Proofs/TbfSubP.v
theories/Proofs/TbfSubQ.v
theories/Proofs/TbfSubR.v
theories/Proofs/UlAckEx.v
theories/Proofs/UlAckP.v
theories/Proofs/UlFramesEx.v
theories/Proofs/UlFramesP.v
theories/Proofs/UlLoopEx.v
theories/Proofs/UlLoopP.v
theories/Proofs/UlParseP.v
theories/Proofs/UlWindowEx.v
theories/Proofs/UlWindowI.v
theories/Proofs/UlWindowP.v
theories/Proofs/UlWindowProps.v
theories/Proofs/UlcP.v
theories/Proofs/UlcProps.v
theories/Proofs/VtyConfP.v
theories/Proofs/VtyConfQ.v
theories/Proofs/VtyConfR.v
theories/Props/C01_C04_DlWindow.v
theories/Props/C05_C07_UlWindow.v
theories/Props/C08_C12_Coding.v
theories/Props/C13_C17_Frames.v
theories/Props/C18_C21_Llc.v
theories/Props/C22_Segment.v
theories/Props/C23_C24_UlParse.v
theories/Props/C25_C26_Blocks.v
theories/Props/C27_Crbb.v
theories/Props/C28_C31_Alloc.v
theories/Props/C32_TbfFsm.v
theories/Props/C33_C34_TbfSub.v
theories/Props/C35_MsTlli.v
theories/Props/C36_MsRef.v
theories/Props/C37_Link.v
theories/Props/C38_C42_Sched.v
theories/Props/C43_C44_Paging.v
theories/Props/C45_NeighCache.v
theories/Props/C46_C47_C60_Nacc.v
theories/Props/C48_PchTimer.v
theories/Props/C49_C61_FlowCtl.v
theories/Props/C52_C62_DataHeader.v
theories/Props/C53_C58_Ta.v
theories/Props/C55_C59_ImmAss.v
theories/Props/C56_Rach.v
theories/Props/C63_C64_UlControl.v
theories/Props/C65_Assign.v
theories/Props/C66_C67_CtrlMsg.v
theories/Props/C68_UlAck.v
theories/Props/C69_DlLoop.v
theories/Props/C70_DlErrors.v
theories/Props/C71_UlFrames.v
theories/Props/C72_UlLoop.v
theories/Props/C73_PcuIf.v
theories/Props/C74_AppInfo.v
theories/Props/C75_Route.v
theories/Props/C76_Bssgp.v
theories/Props/C77_Link.v
theories/Props/C78_DlDemand.v
theories/Props/C79_Rim.v
theories/Props/C80_DlTransfer.v
theories/Props/C81_PcuTx.v
theories/Props/C82_EgprsReport.v
theories/Props/C83_NsConf.v
theories/Props/C84_MsClass.v
theories/Props/C85_GprsReport.v
theories/Props/C86_L1Meas.v
theories/Props/C87_VtyConf.v
theories/Props/C88_CellStat.v
theories/Props/C89_SchemeCtr.v
theories/Props/C90_MeasRep.v
theories/Props/C91_ByteCtr.v
theories/Props/C92_ShowTbf.v
theories/Props/C93_ShowPdch.v
theories/Props/C94_ShowMs.v
theories/Props/C95_Gsmtap.v
theories/Props/C96_SingleBlock.v
theories/Spec/AckDescSpec.v
theories/Spec/AllocSpec.v
theories/Spec/AppInfoSpec.v
theories/Spec/AssignSpec.v
theories/Spec/AssignTold.v
theories/Spec/BitSpec.v
theories/Spec/BssgpSpec.v
theories/Spec/ByteCtrSpec.v
theories/Spec/CellStatSpec.v
theories/Spec/CodingSpec.v
theories/Spec/DataHeaderSpec.v
theories/Spec/DlDemandSpec.v
theories/Spec/DlErrorsSpec.v
theories/Spec/DlLoopSpec.v
theories/Spec/DlTransferSpec.v
theories/Spec/DlWindowSpec.v
theories/Spec/EgprsReportSpec.v
theories/Spec/FlowCtlSpec.v
theories/Spec/FrameSpec.v
theories/Spec/GprsReportSpec.v
theories/Spec/GsmtapSpec.v
theories/Spec/ImmAssSpec.v
theories/Spec/LinkSpec.v
theories/Spec/LlcSpec.v
theories/Spec/MeasHistSpec.v
theories/Spec/MeasRepSpec.v
theories/Spec/MeasSpec.v
theories/Spec/MsClassSpec.v
theories/Spec/MsRefSpec.v
theories/Spec/MsTlliSpec.v
theories/Spec/MslotSpec.v
theories/Spec/NaccSpec.v
theories/Spec/NeighCacheSpec.v
theories/Spec/NsConfSpec.v
theories/Spec/PagingSpec.v
theories/Spec/PchTimerSpec.v
theories/Spec/PcuIfSpec.v
theories/Spec/PcuTxSpec.v
theories/Spec/RachSpec.v
theories/Spec/RejectSpec.v
theories/Spec/RimSpec.v
theories/Spec/RouteSpec.v
theories/Spec/SchedSpec.v
theories/Spec/SchemeCtrSpec.v
theories/Spec/SegSpec.v
theories/Spec/SendWindow.v
theories/Spec/ShowMsSpec.v
theories/Spec/ShowPdchSpec.v
theories/Spec/ShowTbfSpec.v
theories/Spec/SingleBlockSpec.v
theories/Spec/SplitSpec.v
theories/Spec/T4Spec.v
theories/Spec/TaSpec.v
theories/Spec/TbfFsmSpec.v
theories/Spec/TbfSubSpec.v
theories/Spec/UlAckSpec.v
theories/Spec/UlAckTold.v
theories/Spec/UlControlSpec.v
theories/Spec/UlFramesSpec.v
theories/Spec/UlLoopSpec.v
theories/Spec/UlParseSpec.v
theories/Spec/UlWindowSpec.v
theories/Spec/VtyConfSpec.v
