-Q theories Verif

theories/Base.v
theories/LBase.v
theories/MPacket.v
theories/MTime.v
theories/Prims.v
theories/MCrypto.v
theories/MBuild.v
theories/MPeel.v
theories/MScattered.v
theories/MFragment.v
theories/MReplayFilter.v
theories/MSurbKeystore.v
theories/MPacketQueues.v
theories/MTopology.v
theories/MRequestBuilder.v
theories/MSessions.v
theories/MMixnet.v
theories/MRequestManager.v
theories/MReplyManager.v
theories/MManagers.v
theories/PScattered.v
theories/PFragPlan.v
theories/PFragWire.v
theories/PFragAsm.v
theories/PFragment.v
theories/LSphinx.v
theories/PKx.v
theories/PPeel.v
theories/PHeader.v
theories/Toy.v
theories/PSphinx.v
theories/PReplayFilter.v
theories/PKeystore.v
theories/PQueues.v
theories/PTopology.v
theories/PRoute.v
theories/LTape.v
theories/PHandle.v
theories/PApi.v
theories/LFloat.v
theories/LBuild.v
theories/LPost.v
theories/PPost.v
theories/PInv.v
theories/PSess.v
theories/PNode.v
theories/PCalls.v
theories/PKeys.v
theories/PExample.v
theories/PReqMgr.v
theories/PRequests.v
theories/PRequestsEx.v
theories/PReplies.v
theories/PRepliesEx.v
theories/LDuration.v
theories/PMetrics.v
theories/PRate.v
theories/PRateEx.v
theories/PNet.v
theories/PTrip.v
theories/PEnd.v
theories/PEndEx.v
theories/PCover.v
theories/PCoverEx.v
theories/PWake.v
theories/PWakeEx.v
theories/PProvenance.v
theories/PProvenanceEx.v
theories/LManager.v
theories/PManaged.v
theories/PManagedEx.v
theories/PTurn.v
theories/PTurnEx.v
theories/PReplayCount.v
theories/PAverage.v
theories/PAtLeast.v
theories/PTiming.v
theories/PTimingEx.v
theories/PUniform.v
theories/PGateways.v
theories/PPosition.v
theories/PFresh.v
theories/PFreshEx.v
theories/PPaths.v
theories/PPathsCover.v
theories/PPathsEx.v
theories/PDerive.v
theories/PMatch.v
theories/PMatchEx.v
theories/PEvents.v
theories/PServe.v
theories/PServeEx.v
theories/PServeNetEx.v
theories/PCarry.v
theories/PCarryEx.v
theories/PTruth.v
theories/PTruthEx.v
theories/POnTime.v
theories/POnTimeEx.v
theories/PPatient.v
theories/PPatientEx.v
theories/PHide.v
theories/PHideEx.v
theories/PVeil.v
theories/PVeilEx.v
theories/PKept.v
theories/PKeptEx.v
theories/PDefault.v
theories/PDefaultEx.v
theories/PLeave.v
theories/PLeaveEx.v
theories/PArrive.v
theories/PArriveEx.v
theories/PFrame.v
theories/PFrameEx.v
theories/PCrowd.v
theories/PCrowdEx.v
theories/PFloodEx.v
theories/PAlter.v
theories/PAlterEx.v
theories/PFinish.v
theories/PFinishEx.v
theories/PWhom.v
theories/PWhomEx.v
theories/PShare.v
theories/PShareEx.v
theories/PStock.v
theories/PStockEx.v
theories/PWait.v
theories/PLate.v
theories/PSlow.v
theories/PTail.v
theories/PWaitEx.v
theories/PSlowEx.v
theories/PDeriveNode.v
theories/PDeriveNodeEx.v
