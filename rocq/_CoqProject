-Q theories Verif

theories/Base.v
theories/BaseProofs.v
theories/GtlvModel.v
theories/GtlvSpec.v
theories/GtlvProofs.v
theories/DecEncModel.v
theories/DecEncSpec.v
theories/DecEncProofs.v
theories/DecOrdProofs.v
theories/DecCharProofs.v
theories/RtProofs.v
theories/OrdMandProofs.v
theories/EncShapeProofs.v
theories/EncAppendProofs.v
theories/CStr.v
theories/TestTables.v
theories/WfProofs.v
theories/GtlvInst.v
theories/PropertiesGtlv.v
theories/RepSpec.v
theories/RepProofs.v
theories/RepUnordProofs.v
theories/RepRtProofs.v
theories/PropertiesRep.v
theories/IesModel.v
theories/IesSpec.v
theories/IesProofs.v
theories/HelperProofs.v
theories/PropertiesIes.v
theories/TablesModel.v
theories/MsgModel.v
theories/MsgSpec.v
theories/MsgProofs.v
theories/MsgEncProofs.v
theories/RxProofs.v
theories/TermProofs.v
theories/SizeProofs.v
theories/MsgFinalProofs.v
theories/RxFullProofs.v
theories/PropertiesMsg.v
theories/EndpointModel.v
theories/EndpointSpec.v
theories/EndpointProofs.v
theories/EndpointRun.v
theories/EndpointLife.v
theories/EndpointFinal.v
theories/EndpointProps.v
theories/EndpointExt.v
theories/EndpointProps2.v
theories/EndpointProps3.v
theories/PropertiesEndpoint.v
theories/CpPeerModel.v
theories/CpPeerSpec.v
theories/CpPeerProofs.v
theories/CpPeerProps.v
theories/UseCountProofs.v
theories/PropertiesPeer.v
theories/AcceptSpec.v
theories/AcceptProofs.v
theories/PropertiesAccept.v
theories/StrModel.v
theories/StrSpec.v
theories/StrProofs.v
theories/PropertiesStr.v
theories/MemModel.v
theories/MemSpec.v
theories/MemProofs.v
theories/MemEncProofs.v
theories/MemTest.v
theories/MemFinal.v
theories/PropertiesMem.v
theories/GenModel.v
theories/GenSpec.v
theories/GenProofs.v
theories/GenTabProofs.v
theories/GenCompile.v
theories/GenConflict.v
theories/GenFinal.v
theories/GenPfcp.v
theories/GenPfcpProofs.v
theories/PfcpMem.v
theories/PfcpMemProofs.v
theories/PfcpMemFinal.v
theories/GenTest.v
theories/PropertiesGen.v
theories/NetModel.v
theories/NetProofs.v
theories/NetFinal.v
theories/NetProps.v
theories/NetLive.v
theories/NetTrip.v
theories/NetTest.v
theories/PropertiesNet.v
theories/NamesModel.v
theories/NamesSpec.v
theories/NamesProofs.v
theories/PropertiesNames.v
theories/ErrModel.v
theories/ErrSpec.v
theories/ErrProofs.v
theories/PropertiesErr.v
theories/RelaySpec.v
theories/RelayProofs.v
theories/PropertiesRelay.v
theories/NetAssoc.v
theories/OrdCharProofs.v
theories/ErrnoSpec.v
theories/ErrnoProofs.v
theories/ReadSpec.v
theories/ReadProofs.v
theories/RepErrProofs.v
theories/PropertiesRead.v
theories/PutSpec.v
theories/PutProofs.v
theories/PutMeanProofs.v
theories/ShortProofs.v
theories/PropertiesPut.v
theories/VarySpec.v
theories/VaryProofs.v
theories/PropertiesVary.v
theories/WireSpec.v
theories/WireProofs.v
theories/PropertiesWire.v
theories/PfcpTest.v
theories/GtlvTest.v
theories/ConfTest.v
theories/FreeModel.v
theories/FreeSpec.v
theories/FreeProofs.v
theories/PropertiesFree.v
theories/CtxModel.v
theories/CtxSpec.v
theories/CtxProofs.v
theories/PropertiesCtx.v
theories/CRead.v
theories/TextModel.v
theories/TextSpec.v
theories/TextLex.v
theories/TextProofs.v
theories/TextTab.v
theories/TextFinal.v
theories/TextRun.v
theories/TextCheck.v
theories/PropertiesText.v
theories/IeMemModel.v
theories/IeMemSpec.v
theories/IeMemProofs.v
theories/IeMemStr.v
theories/IeMemDec.v
theories/PropertiesIeMem.v
theories/IeEncModel.v
theories/IeEncSpec.v
theories/IeEncProofs.v
theories/PropertiesIeEnc.v
theories/LeafMapProofs.v
theories/IeMsgModel.v
theories/IeMsgSpec.v
theories/IeMsgProofs.v
theories/PropertiesIeMsg.v
theories/IeHelpModel.v
theories/IeHelpSpec.v
theories/IeHelpProofs.v
theories/PropertiesIeHelp.v
theories/EncPrefixProofs.v
theories/HdrMemModel.v
theories/HdrMemSpec.v
theories/HdrMemProofs.v
theories/HdrMemLemmas.v
theories/PropertiesHdr.v
theories/MsgMemModel.v
theories/MsgMemSpec.v
theories/MsgMemProofs.v
theories/PropertiesMsgMem.v
theories/SockModel.v
theories/SockSpec.v
theories/SockProofs.v
theories/PropertiesSock.v
