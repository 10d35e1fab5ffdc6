-Q theories Verif

theories/Base.v
theories/Vis.v
theories/Tlv.v
theories/Types.v
theories/Chksum.v
theories/Checks.v
theories/Msg.v
theories/Cdp.v
theories/Edp.v
theories/Fdp.v
theories/Ndp.v
theories/Lldp.v
theories/Protos.v
theories/Conformance.v
theories/Lemmas.v
theories/Spec.v
theories/SpecAdv.v
theories/VisProofs.v
theories/ChkProofs.v
theories/TypesProofs.v
theories/EncProofs.v
theories/EncProofs2.v
theories/EncProofs3.v
theories/EncProofs4.v
theories/DecProofs.v
theories/DecCheck.v
theories/DecCdp.v
theories/DecCdp2.v
theories/DecEdp.v
theories/DecLldp.v
theories/DecLldp2.v
theories/SpecOut.v
theories/EncProps.v
theories/VisProps.v
theories/TlvInj.v
theories/Cases.v
theories/PropAdv.v
theories/PropText.v
theories/SpecRound.v
theories/DecSafe.v
theories/Modes.v
theories/RoundTrip.v
theories/Cases2.v
theories/PropRound.v
theories/PropDec.v
theories/Bpf.v
theories/Wire.v
theories/Parent.v
theories/Util.v
theories/Child.v
theories/SpecNet.v
theories/BpfProofs.v
theories/WireProofs.v
theories/NetProofs.v
theories/ParentProofs.v
theories/ParentProofs2.v
theories/Cases3.v
theories/PropNet.v
theories/SpecChild.v
theories/ChildProofs.v
theories/ChildProofs2.v
theories/ChildProofs3.v
theories/ChildProofs4.v
theories/ChildProofs5.v
theories/ChildProofs6.v
theories/ChildProofs7.v
theories/Cases4.v
theories/PropChild.v
theories/Netif.v
theories/Send.v
theories/SpecNetif.v
theories/NetifProofs1.v
theories/NetifProofs2.v
theories/NetifProofs3.v
theories/NetifProofs4.v
theories/NetifProofs5.v
theories/NetifProofs6.v
theories/Cases5.v
theories/PropNetif.v
theories/Sysinfo.v
theories/SpecSend.v
theories/SendProofs1.v
theories/SendProofs2.v
theories/SendProofs3.v
theories/SendProofs4.v
theories/SendProofs5.v
theories/SendProofs6.v
theories/SendProofs7.v
theories/Cases6.v
theories/PropSend.v
theories/Cli.v
theories/SpecCli.v
theories/CliProofs1.v
theories/CliProofs2.v
theories/CliProofs3.v
theories/CliProofs4.v
theories/CliProofs5.v
theories/CliProofs6.v
theories/CliProofs7.v
theories/CliProofs8.v
theories/Cases7.v
theories/PropCli.v
theories/Start.v
theories/SpecStart.v
theories/StartProofs1.v
theories/StartProofs2.v
theories/StartProofs3.v
theories/StartProofs4.v
theories/StartProofs5.v
theories/PropStart.v
theories/Opts.v
theories/SpecOpts.v
theories/OptsProofs.v
theories/PropOpts.v
theories/Compat.v
theories/SpecCompat.v
theories/CompatProofs.v
theories/PropCompat.v
theories/Imsg.v
theories/SpecImsg.v
theories/ImsgProofs.v
theories/ImsgProofs2.v
theories/PropImsg.v
theories/SpecNetif2.v
theories/NetifProofs7.v
theories/NetifProofs8.v
theories/NetifProofs9.v
theories/Cases8.v
theories/PropNetif2.v
theories/SpecSys.v
theories/SysProofs1.v
theories/SysProofs2.v
theories/SysProofs3.v
theories/PropSys.v
theories/Post.v
theories/SpecPost.v
theories/PostProofs1.v
theories/PostProofs2.v
theories/PostProofs3.v
theories/PostProofs4.v
theories/PostProofs5.v
theories/Cases9.v
theories/PropPost.v
theories/SpecE2E.v
theories/E2EProofs.v
theories/PropE2E.v
theories/Psock.v
theories/SpecPsock.v
theories/PsockProofs.v
theories/PropPsock.v
theories/SpecMedia.v
theories/MediaProofs.v
theories/PropMedia.v
theories/Once.v
theories/SpecOnce.v
theories/OnceProofs.v
theories/PropOnce.v
theories/SpecAddr.v
theories/AddrProofs.v
theories/PropAddr.v
theories/SpecPrint.v
theories/PrintProofs.v
theories/PrintProofs2.v
theories/PrintProofs3.v
theories/Cases10.v
theories/PropPrint.v
theories/Mreq.v
theories/SpecMreq.v
theories/MreqProofs.v
theories/PropMreq.v
theories/Title.v
theories/SpecTitle.v
theories/TitleProofs.v
theories/PropTitle.v
theories/Bsd.v
theories/SpecBsd.v
theories/BsdProofs1.v
theories/BsdProofs2.v
theories/BsdProofs3.v
theories/BsdProofs4.v
theories/BsdProofs5.v
theories/Cases14.v
theories/PropBsd.v
theories/SpecMtu.v
theories/MtuProofs.v
theories/PropMtu.v
theories/SpecWalk.v
theories/WalkProofs.v
theories/PropWalk.v
theories/SpecTags.v
theories/TagProofs1.v
theories/TagProofs2.v
theories/Cases15.v
theories/PropTags.v
theories/Link.v
theories/SpecLink.v
theories/LinkProofs.v
theories/LinkProofs2.v
theories/PropLink.v
theories/HostBsd.v
theories/SpecHostBsd.v
theories/HostBsdProofs1.v
theories/HostBsdProofs2.v
theories/HostBsdProofs3.v
theories/PropHostBsd.v
theories/Queue.v
theories/SpecQueue.v
theories/QueueProofs.v
theories/QueueProofs2.v
theories/SpecOrder.v
theories/OrderProofs.v
theories/PropQueue.v
theories/Heap.v
theories/SpecHeap.v
theories/HeapProofs.v
theories/HeapProofs2.v
theories/HeapProofs3.v
theories/PropHeap.v
theories/NetMem.v
theories/SpecNetMem.v
theories/NetMemProofs.v
theories/NetMemProofs2.v
theories/NetMemProofs3.v
theories/PropNetMem.v
theories/Timer.v
theories/SpecTimer.v
theories/TimerProofs.v
theories/PropTimer.v
theories/SpecHold.v
theories/HoldProofs.v
theories/HoldProofs2.v
theories/SpecListed.v
theories/HoldProofs3.v
theories/PropHold.v
theories/SpecJoint.v
theories/JointProofs.v
theories/JointProofs2.v
theories/PropJoint.v
theories/CliHeap.v
theories/SpecCliMem.v
theories/CliHeapProofs.v
theories/PropCliMem.v
theories/SpecTruth.v
theories/TruthProofs.v
theories/PropTruth.v
theories/SessTimer.v
theories/SpecSess.v
theories/SessProofs.v
theories/PropSess.v
theories/SpecScan.v
theories/ScanProofs.v
theories/PropScan.v
theories/RawMem.v
theories/SpecRaw.v
theories/RawProofs.v
theories/PropRaw.v
theories/Ipc.v
theories/SpecIpc.v
theories/IpcProofs.v
theories/PropIpc.v
theories/SpecFifo.v
theories/FifoProofs.v
theories/FifoProofs2.v
theories/FifoRun.v
theories/PropFifo.v
theories/SpecRest.v
theories/RestProofs.v
theories/RestRun.v
theories/PropRest.v
theories/LinkFd.v
theories/LinkFdProofs.v
theories/PropLinkFd.v
theories/SpecFlow.v
theories/FlowProofs1.v
theories/FlowProofs2.v
theories/PropFlow.v
theories/SpecRepeat.v
theories/RepeatProofs1.v
theories/RepeatProofs2.v
theories/RepeatProofs3.v
theories/RepeatProofs4.v
theories/PropRepeat.v
theories/SpecStd.v
theories/StdProofs.v
theories/PropStd.v
theories/SpecSeq.v
theories/SeqProofs.v
theories/PropSeq.v
theories/SpecFlood.v
theories/FloodProofs.v
theories/PropFlood.v
theories/BsdSend.v
theories/SpecBsdSend.v
theories/BsdSendProofs1.v
theories/BsdSendProofs2.v
theories/BsdSendProofs3.v
theories/PropBsdSend.v
theories/SpecPeers.v
theories/PeersProofs.v
theories/PropPeers.v
theories/Log.v
theories/SpecLog.v
theories/LogProofs.v
theories/LogProofs2.v
theories/PropLog.v
theories/GoneProofs.v
theories/PropGone.v
theories/SpecBsdE2E.v
theories/BsdE2EProofs.v
theories/PropBsdE2E.v
theories/BsdStdProofs.v
theories/PropBsdStd.v
theories/BsdMem.v
theories/SpecBsdMem.v
theories/BsdMemProofs.v
theories/PropBsdMem.v
theories/Getopt.v
theories/SpecGetopt.v
theories/GetoptProofs.v
theories/PropGetopt.v
theories/Config.v
theories/SpecCmd.v
theories/CmdProofs.v
theories/CmdProofs2.v
theories/PropCmd.v
theories/CmdProofs3.v
theories/CmdProofs4.v
theories/PropCmd2.v
theories/CmdBsdProofs.v
theories/PropCmdBsd.v
theories/SpecCmd2.v
theories/CmdProofs5.v
theories/PropCmd3.v
theories/SpecCmd3.v
theories/CmdProofs6.v
theories/PropCmd4.v
theories/CmdProofs7.v
theories/PropCmd5.v
theories/SpecCmdBsd2.v
theories/CmdBsdProofs2.v
theories/PropCmdBsd2.v
theories/ClientMain.v
theories/SpecClient.v
theories/ClientProofs.v
theories/PropClient.v
theories/ClientProofs2.v
theories/PropClient2.v
theories/ClientProofs3.v
theories/PropClient3.v
theories/ClientProofs4.v
theories/PropClient4.v
theories/ClientProofs5.v
theories/PropClient5.v
