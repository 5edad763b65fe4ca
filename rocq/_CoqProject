-Q theories Verif
theories/Base.v
theories/PyText.v
theories/Ids.v
theories/PyVal.v
theories/Classes.v
theories/Interp.v
theories/Utils.v
theories/Addr.v
theories/BaseFacts.v
theories/TextFacts.v
theories/Spec.v
theories/SpecBasic.v
theories/ClassFacts.v
theories/LeafFacts.v
theories/StructFacts.v
theories/Soundness.v
theories/Closure.v
theories/FuelFacts.v
theories/Totality.v
theories/UnpackTotal.v
theories/SpecMsg.v
theories/MsgFacts.v
theories/MsgBody.v
theories/MsgMain.v
theories/Ref.v
theories/RefFacts.v
theories/SpecSame.v
theories/SameFacts.v
theories/IntFacts.v
theories/AddrFacts.v
theories/P01_Integers.v
theories/P02_Addresses.v
theories/Samples.v
theories/Witness.v
theories/TopFacts.v
theories/DispatchFacts.v
theories/PacketFacts.v
theories/P03_Messages.v
theories/P04_Packets.v
theories/NetTypes.v
theories/SpecNet.v
theories/NetFacts.v
theories/NetFacts2.v
theories/SpecNetRelay.v
theories/NetRelayFacts.v
theories/P05_NetTypes.v
theories/SpecStruct.v
theories/StructThm.v
theories/StructThm2.v
theories/StructCases.v
theories/P06_Structures.v
theories/Operators.v
theories/SpecOps.v
theories/OperatorsFacts.v
theories/P07_Operators.v
theories/Lists.v
theories/SpecLists.v
theories/ListsFacts.v
theories/P08_Lists.v
theories/Match01.v
theories/SpecMatch.v
theories/MatchFacts.v
theories/MatchAddrFacts.v
theories/P09_Match01.v
theories/Access.v
theories/SpecAccess.v
theories/AccessFacts.v
theories/P10_Access.v
theories/Bodies.v
theories/Meta.v
theories/SpecMeta.v
theories/MetaFacts.v
theories/P11_Meta.v
theories/Mutation.v
theories/SpecMutation.v
theories/MutationFacts.v
theories/MutationFacts2.v
theories/MutationFacts3.v
theories/P12_Mutation.v
theories/SpecLayout.v
theories/LayoutFacts.v
theories/P13_Layout.v
theories/SpecWindow.v
theories/WindowFacts.v
theories/WindowThm.v
theories/P14_Window.v
theories/SpecRaises.v
theories/Raises.v
theories/RaisesFacts.v
theories/RaisesThm.v
theories/P15_Exceptions.v
theories/SpecConstants.v
theories/ConstantsFacts.v
theories/P16_Constants.v
theories/SpecSize.v
theories/SizeFacts.v
theories/SizeFacts2.v
theories/SizeThm.v
theories/P17_Sizes.v
theories/SpecLengths.v
theories/LengthFacts.v
theories/P18_Lengths.v
theories/SpecDecode.v
theories/DecodeFacts.v
theories/DecodeFacts2.v
theories/DecodeFacts3.v
theories/DecodeCases.v
theories/P19_Decode.v
theories/SpecReencode.v
theories/ReencodeFacts.v
theories/ReencodeFacts2.v
theories/ReencodeFacts3.v
theories/ReencodeFacts4.v
theories/ReencodeFacts5.v
theories/ReencodeCases.v
theories/P20_Reencode.v
theories/Inits.v
theories/Construct.v
theories/SpecInit.v
theories/ConstructFacts.v
theories/ConstructThm.v
theories/ConstructThm2.v
theories/ConstructThm3.v
theories/ConstructThm4.v
theories/P21_Construct.v
theories/SpecWire.v
theories/WireFacts.v
theories/WireThm.v
theories/WireThm2.v
theories/WireThm3.v
theories/WireThm4.v
theories/P22_Wire.v
theories/SpecTidy.v
theories/TidyFacts.v
theories/TidyFacts2.v
theories/TidyFacts3.v
theories/TidyThm.v
theories/TidyCases.v
theories/P23_Tidy.v
theories/SpecText.v
theories/TextOpsFacts.v
theories/P24_Text.v
theories/SpecAccept.v
theories/AcceptFacts.v
theories/AcceptFacts2.v
theories/AcceptThm.v
theories/AcceptCases.v
theories/P25_Accept.v
theories/P26_NetRelay.v
theories/Heap.v
theories/SpecHeap.v
theories/HeapFacts.v
theories/HeapThm.v
theories/HeapKept.v
theories/HeapMatch.v
theories/HeapCases.v
theories/P27_Heap.v
theories/SpecRefuse.v
theories/RefuseFacts.v
theories/P28_Refuse.v
theories/Convert.v
theories/SpecConvert.v
theories/ConvertFacts.v
theories/P29_Convert.v
theories/SpecShared.v
theories/SharedFacts.v
theories/StoredFacts.v
theories/P30_Shared.v
theories/SpecReject.v
theories/RejectFacts.v
theories/RejectFacts2.v
theories/P31_Reject.v
theories/NetInit.v
theories/SpecNetInit.v
theories/NetInitFacts.v
theories/P32_NetInit.v
theories/SpecReject2.v
theories/RejectFacts3.v
theories/RejectFacts4.v
theories/SpecReject3.v
theories/RejectFacts5.v
theories/P33_RejectBodies.v
theories/SpecSizeRefuse.v
theories/SizeRefuseFacts.v
theories/P34_SizeRefuse.v
theories/SpecNetRefuse.v
theories/NetRefuseFacts.v
theories/P35_NetRefuse.v
theories/SpecLldp.v
theories/LldpFacts.v
theories/P36_Lldp.v
theories/NetSize.v
theories/NetSizeFacts.v
theories/P37_NetSize.v
theories/SpecLiteral.v
theories/LiteralFacts.v
theories/P38_Literals.v
