-Q theories Verif
theories/Base.v
theories/TcpSeqModel.v
theories/TcpSeqProps.v
theories/CksumModel.v
theories/CksumSpec.v
theories/CksumProof.v
theories/CksumProof2.v
theories/CksumProof3.v
theories/CksumProps.v
theories/RadixModel.v
theories/RadixTree.v
theories/RadixGen.v
theories/RadixForest.v
theories/RadixSpec.v
theories/RadixRun.v
theories/RadixInst.v
theories/RadixInst4.v
theories/RadixHist.v
theories/RadixProof.v
theories/RadixProof4.v
theories/RadixProps.v
theories/MtrieModel.v
theories/MtrieSpec.v
theories/MtrieNum.v
theories/MtrieInv.v
theories/MtrieLoop.v
theories/MtrieRem.v
theories/MtrieProof.v
theories/MtrieDel.v
theories/MtrieProps.v
theories/TimerModel.v
theories/TimerSpec.v
theories/TimerProof.v
theories/TimerLife.v
theories/TimerPool.v
theories/TimerProps.v
theories/ReassModel.v
theories/ReassSpec.v
theories/ReassProof.v
theories/ReassInv.v
theories/ReassStep.v
theories/ReassRun.v
theories/ReassTile.v
theories/ReassProps.v
theories/TcpReassModel.v
theories/TcpReassSpec.v
theories/TcpReassProof.v
theories/TcpReassRun.v
theories/TcpReassProps.v
theories/BrlockModel.v
theories/BrlockProps.v
theories/EpollModel.v
theories/EpollSpec.v
theories/EpollProps.v
theories/ErrnoModel.v
theories/ErrnoProps.v
theories/UmaModel.v
theories/UmaProps.v
theories/ArpModel.v
theories/ArpSpec.v
theories/ArpProof.v
theories/ArpStep.v
theories/ArpHist.v
theories/ArpProps.v
theories/FragModel.v
theories/FragSpec.v
theories/FragProof.v
theories/FragProps.v
theories/AvlModel.v
theories/AvlSpec.v
theories/AvlRep.v
theories/AvlIns.v
theories/AvlRot.v
theories/AvlFun.v
theories/AvlRebal.v
theories/AvlInsert.v
theories/AvlClimb.v
theories/AvlDelete.v
theories/AvlLook.v
theories/AvlHist.v
theories/AvlWalk.v
theories/AvlProps.v
theories/SockModel.v
theories/SockSpec.v
theories/SockProof.v
theories/SockRecv.v
theories/SockSend.v
theories/SockProps.v
theories/SleepModel.v
theories/SleepSpec.v
theories/SleepProof.v
theories/SleepConc.v
theories/SleepProps.v
theories/IpsecModel.v
theories/IpsecSpec.v
theories/IpsecList.v
theories/IpsecSp.v
theories/IpsecLk.v
theories/IpsecSa.v
theories/IpsecInv.v
theories/IpsecInv2.v
theories/IpsecStep.v
theories/IpsecCalls.v
theories/IpsecProps.v
theories/IpsecRefuted.v
theories/Ip4Model.v
theories/Ip4Spec.v
theories/Ip4Proof.v
theories/Ip4Icmp.v
theories/Ip4Reply.v
theories/Ip4Msgs.v
theories/Ip4Echo.v
theories/Ip4Props.v
theories/PcbModel.v
theories/PcbSpec.v
theories/PcbProof.v
theories/PcbProof2.v
theories/PcbProof3.v
theories/PcbProof4.v
theories/PcbProps.v
theories/SackModel.v
theories/SackSpec.v
theories/SackProof.v
theories/SackProof2.v
theories/SackProof3.v
theories/SackProof4.v
theories/SackProps.v
theories/TcpOptModel.v
theories/TcpOptSpec.v
theories/TcpOptProof.v
theories/TcpOptProps.v
theories/TcpInModel.v
theories/TcpInSpec.v
theories/TcpInProof.v
theories/TcpInRx.v
theories/TcpInTx.v
theories/TcpInStream.v
theories/TcpInExact.v
theories/TcpInSyn.v
theories/TcpInEof.v
theories/TcpInProps.v
theories/SynModel.v
theories/SynSpec.v
theories/SynProof.v
theories/SynConn.v
theories/SynLook.v
theories/SynCookie.v
theories/SynFinal.v
theories/SynProps.v
theories/LifeModel.v
theories/LifeSpec.v
theories/LifeInv.v
theories/LifeLocal.v
theories/LifeStep.v
theories/LifeNew.v
theories/LifeOps.v
theories/LifeOps2.v
theories/LifeOps3.v
theories/LifeOps4.v
theories/LifeOps5.v
theories/LifeAll.v
theories/LifeProps.v
theories/LifeRun.v
theories/LifeFind.v
theories/TcpOutModel.v
theories/TcpOutSpec.v
theories/TcpOutProof.v
theories/TcpOutProof2.v
theories/TcpOutProof3.v
theories/TcpOutProof4.v
theories/TcpOutProof5.v
theories/TcpOutProof6.v
theories/TcpOutProof7.v
theories/TcpOutProof8.v
theories/TcpOutProof9.v
theories/TcpOutNet.v
theories/TcpOutProps.v
theories/TcpOutFind.v
theories/Md5Model.v
theories/Md5Spec.v
theories/Md5Proof.v
theories/Md5Proof2.v
theories/Md5Props.v
theories/IsnModel.v
theories/IsnProps.v
theories/RtoModel.v
theories/RtoProps.v
theories/TwModel.v
theories/TwSpec.v
theories/TwProps.v
theories/BurstModel.v
theories/BurstProps.v
theories/IfcModel.v
theories/IfcSpec.v
theories/IfcProps.v
theories/IfcRoutes.v
theories/IfcInv.v
theories/IfcThm.v
theories/IfcMain.v
theories/IfcRefuted.v
theories/McastModel.v
theories/McastSpec.v
theories/McastMerge.v
theories/McastGroup.v
theories/McastInv.v
theories/McastStep.v
theories/McastProps.v
theories/McastMode.v
theories/McastRefuted.v
theories/UdpModel.v
theories/UdpSpec.v
theories/UdpProps.v
theories/UdpCases.v
theories/VxModel.v
theories/VxSpec.v
theories/VxProps.v
theories/VxRefuted.v
theories/TunModel.v
theories/TunProps.v
theories/NdModel.v
theories/NdSpec.v
theories/NdProps.v
theories/Ic6Model.v
theories/Ic6Spec.v
theories/Ic6Props.v
theories/NameModel.v
theories/NameSpec.v
theories/NameProps.v
theories/Pcb6Model.v
theories/Pcb6Spec.v
theories/Pcb6Proof.v
theories/Pcb6Step.v
theories/Pcb6Props.v
theories/ProtoModel.v
theories/ProtoSpec.v
theories/ProtoProps.v
theories/PcbHashModel.v
theories/PcbHashProps.v
