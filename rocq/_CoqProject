-Q theories Verif
theories/Params.v
theories/NumTh.v
theories/FastP.v
theories/PrimeP.v
theories/PrimeN.v
theories/Zmod.v
theories/ECGroup.v
theories/Curve.v
theories/OrderCert.v
theories/Order.v
theories/Bytes.v
theories/Res.v
theories/Secp.v
theories/Spec.v
theories/SecpProofs.v
theories/SecpProofs2.v
theories/PublicKey.v
theories/Schnorr.v
theories/SchnorrProofs.v
theories/Heap.v
theories/Lagrange.v
theories/Dss.v
theories/DssSpec.v
theories/DssProofs.v
theories/DssProofs2.v
theories/DssProofs3.v
theories/Csprng.v
theories/CsprngSpec.v
theories/CsprngProofs.v
theories/Dto.v
theories/DtoSpec.v
theories/DtoProofs.v
theories/Prot.v
theories/ProtSpec.v
theories/ProtProofs.v
theories/ProtProofs2.v
theories/ProtProofs3.v
theories/ProtToy.v
theories/DkgProt.v
theories/ProtProofs4.v
theories/ProtProofs5.v
theories/DkgSpec.v
theories/DkgProofs.v
theories/KMap.v
theories/Outputs.v
theories/Firewall.v
theories/FwSpec.v
theories/FwProofs.v
theories/FwProofs2.v
theories/FwProofs3.v
theories/FwProofs4.v
theories/PropsSecp.v
theories/PropsSchnorr.v
theories/PropsDss.v
theories/PropsCsprng.v
theories/PropsDto.v
theories/PropsProt.v
theories/PropsDkg.v
theories/DkgEnd.v
theories/PropsOutputs.v
theories/PropsFw.v
theories/Net.v
theories/NetSpec.v
theories/NetProofs.v
theories/PropsNet.v
theories/Observers.v
theories/ObsSpec.v
theories/ObsProofs.v
theories/PropsObs.v
theories/Layout.v
theories/LayoutSpec.v
theories/LayoutProofs.v
theories/LayoutProofs2.v
theories/PropsLayout.v
theories/ProtProofs6.v
theories/Node.v
theories/NodeSpec.v
theories/NodeRun.v
theories/NodeRun2.v
theories/NodeProofs.v
theories/NodeProofs2.v
theories/NodeProofs3.v
theories/NodeProofs4.v
theories/NodeProofs5.v
theories/NodeProofs6.v
theories/PropsNode.v
theories/PropsNode2.v
theories/NodeProofs7.v
theories/PropsNode3.v
theories/NodeProofs8.v
theories/NodeProofs9.v
theories/PropsNode4.v
theories/FairSpec.v
theories/NodeProofs10.v
theories/NodeProofs11.v
theories/PropsNode5.v
theories/Requests.v
theories/RequestsProofs.v
theories/ReqSpec.v
theories/PropsReq.v
theories/TimeSpec.v
theories/TimeProofs.v
theories/TimeProofs2.v
theories/PropsTime.v
theories/SignSpec.v
theories/SignProofs.v
theories/SignProofs2.v
theories/PropsSign.v
theories/ObjSpec.v
theories/ObjProofs.v
theories/ObjProofs2.v
theories/ObjProofs3.v
theories/PropsObj.v
theories/ReachSpec.v
theories/ReachProofs.v
theories/ReachProofs2.v
theories/PropsReach.v
theories/Cluster.v
theories/ClusterSpec.v
theories/ClusterProofs.v
theories/ClusterProofs2.v
theories/PropsCluster.v
theories/DeliverSpec.v
theories/ClusterProofs3.v
theories/ClusterProofs4.v
theories/PropsCluster2.v
theories/FlowSpec.v
theories/FlowProofs.v
theories/HonestSpec.v
theories/HonestProofs.v
theories/HonestProofs2.v
theories/HonestProofs3.v
theories/HonestProofs4.v
theories/HonestDemo.v
theories/PropsHonest.v
theories/DocsProofs.v
theories/PropsDocs.v
theories/ClusterProofs5.v
theories/ClusterDemo.v
theories/ClusterDemo2.v
theories/PropsCluster3.v
theories/PropsCluster4.v
theories/Main.v
theories/MainSpec.v
theories/MainProofs.v
theories/PropsMain.v
theories/PropsMain2.v
theories/DeploySpec.v
theories/PropsMain3.v
theories/Stream.v
theories/StreamSpec.v
theories/PropsStream.v
theories/Connect.v
theories/ConnectSpec.v
theories/PropsConnect.v
theories/Hostcomp.v
theories/HostcompSpec.v
theories/PropsHostcomp.v
theories/PropsEqual.v
theories/ClockSpec.v
theories/PropsClock.v
theories/Keys.v
theories/PropsKeys.v
theories/EndProofs.v
theories/EndProofs2.v
theories/PropsEnd.v
theories/EndProofs3.v
theories/EndProofs4.v
theories/PropsOpen.v
theories/PropsOpen2.v
theories/PropsOpen3.v
theories/PropsOpen4.v
theories/Print.v
theories/PrintProofs.v
theories/PropsPrint.v
theories/Text.v
theories/PropsText.v
theories/PropsPrint2.v
theories/PropsExact.v
theories/PropsExact2.v
theories/Group.v
theories/PropsGroup.v
