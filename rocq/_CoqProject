-Q theories Verif
theories/Bytes.v
theories/BytesProofs.v
theories/Value.v
theories/Cbor.v
theories/CborProofs.v
theories/ValueProofs.v
theories/SpecData.v
theories/DataProofs.v
theories/Registry.v
theories/Crypto.v
theories/Keys.v
theories/Pem.v
theories/Algorithms.v
theories/Headers.v
theories/Messages.v
theories/Recipients.v
theories/Misc.v
theories/Repr.v
theories/SpecRepr.v
theories/ReprProofs.v
theories/PropRepr.v
theories/SpecGen.v
theories/GenProofs.v
theories/PropGen.v
theories/SpecWire.v
theories/WireProofs.v
theories/PropWire.v
theories/SpecRfc.v
theories/SpecStruct.v
theories/StructProofs.v
theories/KdfProofs.v
theories/SpecCrypto.v
theories/Toy.v
theories/LayoutProofs.v
theories/SpecIana.v
theories/SpecRegistry.v
theories/RegistryProofs.v
theories/SpecKeys.v
theories/KeyProofs.v
theories/KeyProofs2.v
theories/KeyProofs3.v
theories/KeyProofs4.v
theories/SpecHdr.v
theories/HdrProofs.v
theories/HdrProofs2.v
theories/SpecAlg.v
theories/AlgProofs.v
theories/MiscProofs.v
theories/SpecTrip.v
theories/KeyTrip.v
theories/KeyTrip2.v
theories/KeyTrip3.v
theories/SpecMsg.v
theories/HdrTrip.v
theories/MsgTrip.v
theories/MsgTrip2.v
theories/SpecRcpt.v
theories/RcptProofs.v
theories/RcptProofs2.v
theories/SpecRcptTrip.v
theories/RcptTrip.v
theories/RcptTrip2.v
theories/RcptTrip3.v
theories/RcptTrip4.v
theories/RcptTrip5.v
theories/RcptTrip6.v
theories/PropCbor.v
theories/PropStruct.v
theories/PropRegistry.v
theories/PropKeys.v
theories/PropAlg.v
theories/PropHdr.v
theories/PropTrip.v
theories/PropMsg.v
theories/PropRcpt.v
theories/PropRcptTrip.v
theories/SpecLife.v
theories/LifeProofs.v
theories/PropLife.v
theories/SpecErr.v
theories/ErrProofs.v
theories/PropErr.v
theories/SpecAgree.v
theories/AgreeProofs.v
theories/PropAgree.v
theories/SpecRecv.v
theories/RecvProofs.v
theories/LocalProofs.v
theories/PropRecv.v
theories/Context.v
theories/SpecContext.v
theories/ContextProofs.v
theories/PropContext.v
theories/Heap.v
theories/SpecHeap.v
theories/HeapProofs.v
theories/ShareProofs.v
theories/PropHeap.v
theories/SpecAccept.v
theories/AcceptProofs.v
theories/PropAccept.v
theories/SpecMapping.v
theories/MapProofs.v
theories/PropMapping.v
theories/SpecCheck.v
theories/CheckProofs.v
theories/PropCheck.v
theories/SpecInit.v
theories/InitProofs.v
theories/PropInit.v
theories/SpecCheck2.v
theories/CheckProofs2.v
theories/ForwardProofs.v
theories/PropForward.v
theories/SpecParts.v
theories/PartProofs.v
theories/PropParts.v
theories/PropCheck2.v
theories/SpecCek.v
theories/CekProofs.v
theories/PropCek.v
theories/SpecForm.v
theories/Utf8Proofs.v
theories/FloatProofs.v
theories/FormProofs.v
theories/FormProofs2.v
theories/PropForm.v
theories/Register.v
theories/SpecRegister.v
theories/RegisterProofs.v
theories/PropRegister.v
theories/Derive.v
theories/SpecDerive.v
theories/PropDerive.v
theories/SpecAssign.v
theories/PropAssign.v
theories/SpecKeyErr.v
theories/KeyErrProofs.v
theories/PropKeyErr.v
theories/PropSteps.v
theories/SpecViews.v
theories/PropViews.v
theories/SpecSend.v
theories/SendProofs.v
theories/PropSend.v
theories/SendAgree.v
theories/PropSendAgree.v
theories/SpecOrder.v
theories/OrderProofs.v
theories/OrderKeys.v
theories/PropOrder.v
theories/SpecIncomplete.v
theories/IncProofs.v
theories/IncProofs2.v
theories/IncProofs3.v
theories/PropIncomplete.v
theories/CopyProofs.v
theories/PropCopy.v
theories/Compare.v
theories/PropCompare.v
theories/SpecRcvKey.v
theories/RcvKeyProofs.v
theories/PropRcvKey.v
theories/SpecSize.v
theories/SizeProofs.v
theories/SizeProofs2.v
theories/SizeProofs3.v
theories/SizeProofs4.v
theories/PropSize.v
theories/SpecEqual.v
theories/EqualProofs.v
theories/PropEqual.v
theories/SpecStrict.v
theories/StrictProofs.v
theories/PropStrict.v
theories/SpecAtomic.v
theories/AtomicProofs.v
theories/PropAtomic.v
theories/SpecText.v
theories/TextProofs.v
theories/PropText.v
theories/Alias.v
theories/SpecAlias.v
theories/AliasProofs.v
theories/AliasProofs2.v
theories/PropAlias.v
theories/KeyClass.v
theories/SpecKeyClass.v
theories/KeyClassProofs.v
theories/PropKeyClass.v
theories/Plugin.v
theories/SpecPlugin.v
theories/PluginProofs.v
theories/PropPlugin.v
theories/Construct.v
theories/SpecConstruct.v
theories/ConstructProofs.v
theories/PropConstruct.v
theories/Fields.v
theories/SpecFields.v
theories/PropFields.v
theories/SpecUnprot.v
theories/PropUnprot.v
theories/SpecNonce.v
theories/PropNonce.v
theories/SpecOthers.v
theories/PropOthers.v
theories/SpecMatters.v
theories/PropMatters.v
theories/SpecTrunc.v
theories/PropTrunc.v
theories/SpecB64.v
theories/PropB64.v
theories/SpecLen.v
theories/PropLen.v
theories/CtxEq.v
theories/SpecCtxEq.v
theories/PropCtxEq.v
theories/SpecApart.v
theories/PropApart.v
theories/SpecAgain.v
theories/AgainProofs.v
theories/AgainProofs2.v
theories/PropAgain.v
theories/SpecLen2.v
theories/PropLen2.v
theories/SpecFresh.v
theories/FreshProofs.v
theories/PropFresh.v
theories/SpecHide.v
theories/PropHide.v
theories/SpecNonce2.v
theories/PropNonce2.v
theories/SpecIncomplete2.v
theories/IncProofs4.v
theories/PropIncomplete2.v
theories/SpecIncomplete3.v
theories/IncProofs5.v
theories/PropIncomplete3.v
theories/SpecBulk.v
theories/BulkProofs.v
theories/PropBulk.v
theories/BulkKeyProofs.v
theories/PropBulk2.v
theories/SpecMode.v
theories/ModeProofs.v
theories/PropMode.v
theories/PropMode2.v
theories/PropMode3.v
theories/PropAssign2.v
theories/PropClass.v
theories/KeyTypeProofs.v
theories/PropKeyType.v
