-Q theories Verif
theories/AcquireModel.v
theories/AcquireProofs.v
theories/AddrModel.v
theories/AddrProofs.v
theories/Base.v
theories/BaseLemmas.v
theories/BitLemmas.v
theories/BufProofs.v
theories/CacheModel.v
theories/CacheProofs.v
theories/CksumModel.v
theories/CksumProofs.v
theories/CodecLemmas.v
theories/CodecModel.v
theories/DadProofs.v
theories/DaytimeModel.v
theories/DaytimeProofs.v
theories/DhcpClientProofs.v
theories/DhcpModel.v
theories/DhcpProofs.v
theories/DiscardModel.v
theories/DiscardProofs.v
theories/EchoClientModel.v
theories/EchoClientProofs.v
theories/EchoModel.v
theories/EchoProofs.v
theories/EchoRunProofs.v
theories/EchoSendProofs.v
theories/EchoTcpModel.v
theories/EchoTcpProofs.v
theories/EchoTcpProofs2.v
theories/EqModel.v
theories/EqProofs.v
theories/EtherModel.v
theories/EtherProofs.v
theories/FragHostProofs.v
theories/FragIpProofs.v
theories/FragModel.v
theories/FragProofs.v
theories/FragRunProofs.v
theories/FragSendProofs.v
theories/Icmp4Model.v
theories/Icmp4Proofs.v
theories/Icmp6AsmProofs.v
theories/Icmp6Model.v
theories/Icmp6Proofs.v
theories/Ip4Model.v
theories/Ip4Proofs.v
theories/Ip6Model.v
theories/Ip6Proofs.v
theories/IpText1.v
theories/IpText2.v
theories/IpText3.v
theories/IpText4.v
theories/IpText5.v
theories/IpText6.v
theories/IpTextModel.v
theories/LifeModel.v
theories/PickProofs.v
theories/PropAcquire.v
theories/PropAddr.v
theories/PropCache.v
theories/PropCksum.v
theories/PropDad.v
theories/PropDaytime.v
theories/PropDhcp.v
theories/PropDiscard.v
theories/PropEcho.v
theories/PropEchoClient.v
theories/PropEchoTcp.v
theories/PropEq.v
theories/PropEther.v
theories/PropFrag.v
theories/PropIcmp4.v
theories/PropIcmp6.v
theories/PropIp4.v
theories/PropIp6.v
theories/PropIpText.v
theories/PropPick.v
theories/PropRing.v
theories/PropRx.v
theories/PropSess.v
theories/PropSess2.v
theories/PropSess3.v
theories/PropSess4.v
theories/PropSess5.v
theories/PropSess6.v
theories/PropSess7.v
theories/PropSess8.v
theories/PropStart.v
theories/PropStat.v
theories/PropStatTx.v
theories/PropTcp.v
theories/PropTcpApi.v
theories/PropTcpCalls.v
theories/PropTcpReg.v
theories/PropTimer.v
theories/PropTrack.v
theories/PropTx.v
theories/PropUdp.v
theories/PropUdpApi.v
theories/PropUdpSend.v
theories/PropUdpTime.v
theories/PshdrLemmas.v
theories/ReactProofs.v
theories/ReplyProofs.v
theories/RingModel.v
theories/RingProofs.v
theories/RxProofs.v
theories/RxReplyProofs.v
theories/RxSockProofs.v
theories/SessAck.v
theories/SessCallModel.v
theories/SessClose.v
theories/SessDial.v
theories/SessDial2.v
theories/SessFork.v
theories/SessHand.v
theories/SessHead.v
theories/SessInv.v
theories/SessKeep.v
theories/SessModel.v
theories/SessOoo.v
theories/SessProofs.v
theories/SessQueue.v
theories/SessRead.v
theories/SessReset.v
theories/SessRetry.v
theories/SessRun.v
theories/SessRx.v
theories/SessStall.v
theories/SessTaken.v
theories/SessTick.v
theories/SessTrace.v
theories/SessTx.v
theories/SessWin.v
theories/SpecAcquire.v
theories/SpecAddr.v
theories/SpecCache.v
theories/SpecCksum.v
theories/SpecDad.v
theories/SpecDaytime.v
theories/SpecDhcp.v
theories/SpecDiscard.v
theories/SpecEcho.v
theories/SpecEchoClient.v
theories/SpecEchoTcp.v
theories/SpecEq.v
theories/SpecIntText.v
theories/SpecIpText.v
theories/SpecNd.v
theories/SpecReact.v
theories/SpecReply.v
theories/SpecRx.v
theories/SpecSess.v
theories/SpecSess2.v
theories/SpecSess3.v
theories/SpecSess4.v
theories/SpecSess5.v
theories/SpecStack.v
theories/SpecStart.v
theories/SpecStat.v
theories/SpecStatTx.v
theories/SpecTcpApi.v
theories/SpecTcpCalls.v
theories/SpecTcpReg.v
theories/SpecTimer.v
theories/SpecTrack.v
theories/SpecUdpApi.v
theories/SpecUdpSend.v
theories/SpecUdpTime.v
theories/SpecWire.v
theories/StackModel.v
theories/StackRouteProofs.v
theories/StackRxModel.v
theories/StackSendProofs.v
theories/StackTxProofs.v
theories/StackWireProofs.v
theories/StartModel.v
theories/StartProofs.v
theories/StartRun.v
theories/StartText.v
theories/StatAllProofs.v
theories/StatDropProofs.v
theories/StatMeanProofs.v
theories/StatRxModel.v
theories/StatRxProofs.v
theories/StatSeenProofs.v
theories/StatTxAsk.v
theories/StatTxFrames.v
theories/StatTxModel.v
theories/StatTxProofs.v
theories/StatTxSource.v
theories/StatTxStatus.v
theories/TcpApiModel.v
theories/TcpApiProofs.v
theories/TcpApiProofs2.v
theories/TcpAsmProofs.v
theories/TcpCallsProofs.v
theories/TcpModel.v
theories/TcpProofs.v
theories/TcpRegProofs.v
theories/TimerModel.v
theories/TimerProofs.v
theories/TrackModel.v
theories/TrackProofs.v
theories/UdpApiModel.v
theories/UdpApiProofs.v
theories/UdpIpProofs.v
theories/UdpModel.v
theories/UdpProofs.v
theories/UdpSendProofs.v
theories/UdpTimeModel.v
theories/UdpTimeProofs.v
