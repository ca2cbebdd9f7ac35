-Q theories Verif
theories/Base.v
theories/BaseLemmas.v
theories/ChecksumModel.v
theories/ChecksumSpec.v
theories/ChecksumProofs.v
theories/ChecksumProps.v
theories/EthAddrModel.v
theories/EthAddrSpec.v
theories/EthAddrProofs.v
theories/EthAddrProps.v
theories/Enums.v
theories/EthModel.v
theories/ArpModel.v
theories/Ipv4Model.v
theories/TransportModel.v
theories/CodecLemmas.v
theories/EthProofs.v
theories/Ipv4Proofs.v
theories/Ipv4Proofs2.v
theories/TransportProofs.v
theories/EthProps.v
theories/Ipv4Props.v
theories/TransportProps.v
theories/Ipv6Model.v
theories/Ipv6Proofs.v
theories/Ipv6ExtProofs.v
theories/Ipv6Props.v
theories/IcmpModel.v
theories/IcmpProofs.v
theories/IcmpCodecProofs.v
theories/IcmpFwdProofs.v
theories/IcmpProps.v
theories/RipModel.v
theories/RipProofs.v
theories/RipProps.v
theories/PacketModel.v
theories/PacketProofs.v
theories/PacketSpec.v
theories/PacketParse.v
theories/PacketStack.v
theories/PacketOps.v
theories/PacketTerm.v
theories/PacketFwd.v
theories/PacketMore.v
theories/PacketProps.v
theories/Dict.v
theories/DictLemmas.v
theories/NetModel.v
theories/NetProofs.v
theories/NetProps.v
theories/TestModel.v
theories/TestSpec.v
theories/TestMatch.v
theories/TestBytes.v
theories/TestRun.v
theories/TestScript.v
theories/TestSave.v
theories/TestProps.v
theories/SockModel.v
theories/SockSpec.v
theories/SockProofs.v
theories/SockProps.v
theories/LiveModel.v
theories/LiveSpec.v
theories/LiveProofs.v
theories/LiveProps.v
theories/FwModel.v
theories/FwSpec.v
theories/FwProofs.v
theories/FwProps.v
theories/TopoModel.v
theories/TopoNames.v
theories/TopoProofs.v
theories/TopoSpec.v
theories/TopoInv.v
theories/TopoMore.v
theories/TopoAddr.v
theories/TopoProps.v
theories/OfModel.v
theories/OfSpec.v
theories/OfProofs.v
theories/OfMsg.v
theories/OfLayout.v
theories/OfProps.v
theories/FieldModel.v
theories/FieldSpec.v
theories/FieldProofs.v
theories/FieldProps.v
theories/SwModel.v
theories/SwSpec.v
theories/SwProofs.v
theories/SwMatch.v
theories/SwTable.v
theories/SwProps.v
theories/LinkModel.v
theories/HeapProofs.v
theories/LinkSpec.v
theories/LinkProofs.v
theories/LinkSim.v
theories/LinkProps.v
theories/UserModel.v
theories/UserSpec.v
theories/UserProofs.v
theories/UserStart.v
theories/UserProps.v
theories/OfMore.v
theories/UnitModel.v
theories/UnitSpec.v
theories/UnitProofs.v
theories/UnitText.v
theories/UnitDelay.v
theories/UnitProps.v
theories/CliModel.v
theories/CliSpec.v
theories/CliProofs.v
theories/CliNet.v
theories/CliSafe.v
theories/CliProps.v
theories/CliSim.v
theories/CapModel.v
theories/CapSpec.v
theories/CapProofs.v
theories/CapProps.v
theories/SendModel.v
theories/SendSpec.v
theories/SendProofs.v
theories/SendProps.v
theories/PdevModel.v
theories/PdevSpec.v
theories/PdevProofs.v
theories/PdevProps.v
theories/RdevModel.v
theories/RdevProofs.v
theories/RdevProps.v
theories/RdevSpec.v
theories/MonModel.v
theories/MonSpec.v
theories/MonProofs.v
theories/MonMore.v
theories/MonFail.v
theories/MonProps.v
theories/OswModel.v
theories/OswSpec.v
theories/OswProofs.v
theories/OswMore.v
theories/OswHist.v
theories/OswData.v
theories/OswProps.v
theories/Of13Model.v
theories/Of13Spec.v
theories/Of13Proofs.v
theories/Of13Props.v
theories/StartModel.v
theories/StartProps.v
theories/SeqProps.v
theories/SeqModel.v
theories/FileModel.v
theories/FileProps.v
theories/AliasModel.v
theories/AliasSpec.v
theories/AliasProofs.v
theories/AliasProps.v
theories/KeepModel.v
theories/KeepSpec.v
theories/KeepProofs.v
theories/KeepProps.v
theories/RegModel.v
theories/RegSpec.v
theories/RegProofs.v
theories/RegProps.v
theories/DiagModel.v
theories/DiagSpec.v
theories/DiagProofs.v
theories/DiagProps.v
theories/SigModel.v
theories/SigProofs.v
theories/SigProps.v
theories/OptModel.v
theories/OptSpec.v
theories/OptProofs.v
theories/OptProps.v
theories/RangeProps.v
theories/PacketEqProps.v
theories/UnionModel.v
theories/UnionSpec.v
theories/UnionProofs.v
theories/UnionMore.v
theories/UnionProps.v
theories/StopModel.v
theories/StopSpec.v
theories/StopProofs.v
theories/StopProps.v
theories/OswAny.v
theories/RegMany.v
theories/MakeModel.v
theories/MakeSpec.v
theories/MakeProofs.v
theories/MakeProps.v
theories/ColorModel.v
theories/ColorSpec.v
theories/ColorProofs.v
theories/ColorProps.v
theories/CheckModel.v
theories/CheckSpec.v
theories/CheckProofs.v
theories/CheckProps.v
theories/CtlModel.v
theories/CtlSpec.v
theories/CtlProofs.v
theories/CtlProps.v
theories/LoopModel.v
theories/LoopSpec.v
theories/LoopProofs.v
theories/LoopProps.v
theories/HubModel.v
theories/HubSpec.v
theories/HubProofs.v
theories/HubProps.v
theories/StackModel.v
theories/StackSpec.v
theories/StackProofs.v
theories/StackProps.v
theories/MacModel.v
theories/MacSpec.v
theories/MacProofs.v
theories/MacProps.v
theories/StackMany.v
theories/ExModel.v
theories/ExSpec.v
theories/ExProofs.v
theories/ExProps.v
theories/DiscModel.v
theories/DiscSpec.v
theories/DiscProofs.v
theories/DiscProps.v
theories/DumpModel.v
theories/DumpSpec.v
theories/DumpProofs.v
theories/DumpProps.v
theories/DocModel.v
theories/DocProps.v
theories/DocNetModel.v
theories/DocNetSpec.v
theories/DocNetProofs.v
theories/DocNetProps.v
theories/DocFailModel.v
theories/DocFailSpec.v
theories/DocFailProofs.v
theories/DocFailProps.v
