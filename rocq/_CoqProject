-Q theories Verif
theories/Base.v
theories/LBase.v
theories/LDatabase.v
theories/LDb.v
theories/LDescriptors.v
theories/LEnd.v
theories/LExports.v
theories/LLib.v
theories/LLib2.v
theories/LLib3.v
theories/LLib4.v
theories/LLoad.v
theories/LNetwork.v
theories/LNfs.v
theories/LNfs2.v
theories/LOrder.v
theories/LPage.v
theories/LPrint.v
theories/LProcess.v
theories/LRead.v
theories/LRecorded.v
theories/LRemember.v
theories/LRemember2.v
theories/LRepeat.v
theories/LRpc.v
theories/LRpc2.v
theories/LRpcServer.v
theories/LScan.v
theories/LServer.v
theories/LServer2.v
theories/LSession.v
theories/LSocket.v
theories/LSocket2.v
theories/LStatus.v
theories/LStatus2.v
theories/LSystem.v
theories/LThreads.v
theories/LThreads2.v
theories/LThreads3.v
theories/LTime.v
theories/LTime2.v
theories/LTime3.v
theories/LTime4.v
theories/LTime5.v
theories/LUdp.v
theories/LUnicode.v
theories/MDatabase.v
theories/MDb.v
theories/MDescriptors.v
theories/MFixtures.v
theories/MKeepalive.v
theories/MLib.v
theories/MMain.v
theories/MMemory.v
theories/MNetwork.v
theories/MNfs.v
theories/MPackets.v
theories/MPath.v
theories/MPrint.v
theories/MProcess.v
theories/MRpc.v
theories/MRpcServer.v
theories/MScan.v
theories/MServer.v
theories/MSocket.v
theories/MStatus.v
theories/MStatusTime.v
theories/MStream.v
theories/MSystem.v
theories/MThreads.v
theories/MTime.v
theories/MUnused.v
theories/MWorkers.v
theories/PBuilds.v
theories/PCopies.v
theories/PDatabase.v
theories/PDb.v
theories/PDescriptors.v
theories/PDisk.v
theories/PDocs.v
theories/PEnd.v
theories/PExports.v
theories/PFolders.v
theories/PHarm.v
theories/PHeld.v
theories/PLearn.v
theories/PLib.v
theories/PLoad.v
theories/PLossy.v
theories/PMain.v
theories/PMany.v
theories/PMemory.v
theories/PNetwork.v
theories/PNfs.v
theories/PNoise.v
theories/POrder.v
theories/PPrint.v
theories/PProcess.v
theories/PRecorded.v
theories/PRemember.v
theories/PRemember2.v
theories/PRemember3.v
theories/PRepeat.v
theories/PRestart.v
theories/PRpc.v
theories/PRpcServer.v
theories/PScan.v
theories/PServer.v
theories/PSession.v
theories/PSize.v
theories/PSnapshot.v
theories/PSocket.v
theories/PStatusTime.v
theories/PStranger.v
theories/PStream.v
theories/PSystem.v
theories/PThreads.v
theories/PTime.v
theories/PTraffic.v
theories/PUdp.v
theories/PUnused.v
theories/PUp.v
theories/PWorkers.v
theories/SBuilds.v
theories/SConn.v
theories/SCopies.v
theories/SDatabase.v
theories/SDb.v
theories/SDescriptors.v
theories/SDisk.v
theories/SDocs.v
theories/SEnd.v
theories/SFolders.v
theories/SHarm.v
theories/SHeld.v
theories/SLearn.v
theories/SLib.v
theories/SLoad.v
theories/SMain.v
theories/SMany.v
theories/SMemory.v
theories/SNetwork.v
theories/SNfs.v
theories/SNoise.v
theories/SOrder.v
theories/SPrint.v
theories/SProcess.v
theories/SRecorded.v
theories/SRemember.v
theories/SRemember2.v
theories/SRemember3.v
theories/SRepeat.v
theories/SRestart.v
theories/SRpc.v
theories/SRpcServer.v
theories/SScan.v
theories/SServer.v
theories/SSession.v
theories/SSize.v
theories/SSnapshot.v
theories/SSocket.v
theories/SStatusTime.v
theories/SStream.v
theories/SSystem.v
theories/SThreads.v
theories/STime.v
theories/STraffic.v
theories/SUdp.v
theories/SUnused.v
theories/SUp.v
theories/SWorkers.v
theories/Unicode.v
theories/VTests.v
