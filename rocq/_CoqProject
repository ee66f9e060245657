-Q theories Verif
theories/PyBase.v
theories/Wire.v
theories/Protos.v
theories/Crypto.v
theories/Ecc.v
theories/Kdf.v
theories/Messages.v
theories/State.v
theories/Prog.v
theories/Ratchet.v
theories/Builder.v
theories/Cipher.v
theories/Groups.v
theories/Helper.v
theories/ProtoFacts.v
theories/ProgFacts.v
theories/Toy.v
theories/StateFacts.v
theories/SpecUtil.v
theories/UtilFacts.v
theories/HelperFacts.v
theories/MsgFacts.v
theories/SpecMsg.v
theories/WireProofs.v
theories/SpecSession.v
theories/CipherFacts.v
theories/DecryptFacts.v
theories/Sched.v
theories/Ex.v
theories/SessionProofs.v
theories/SpecGroup.v
theories/GroupFacts.v
theories/GroupProofs.v
theories/GroupSched.v
theories/GroupDist.v
theories/HandshakeFacts.v
theories/HandshakeProofs.v
theories/LockoutProofs.v
theories/SpecApi.v
theories/PoolFacts.v
theories/InvFacts.v
theories/HistoryProofs.v
theories/ArchiveProofs.v
theories/SpecKeys.v
theories/KeyProofs.v
theories/SpecEncrypt.v
theories/EncryptProofs.v
theories/SessionRefuted.v
theories/HistoryRefuted.v
theories/UtilProofs.v
theories/PropUtil.v
theories/PropWire.v
theories/EncryptRefuted.v
theories/PropSession.v
theories/PropGroup.v
theories/PropHistory.v
theories/PropKeys.v
theories/PropEncrypt.v
theories/SpecConv.v
theories/ConvFacts.v
theories/ConvProofs.v
theories/ConvNet.v
theories/ConvStart.v
theories/KxProofs.v
theories/ConvRefuted.v
theories/PropConv.v
theories/SpecIso.v
theories/IsoProofs.v
theories/PropIso.v
theories/Sha256.v
theories/Vectors.v
theories/SpecCrash.v
theories/CrashProofs.v
theories/CrashRefuted.v
theories/PropCrash.v
theories/SpecGroupHist.v
theories/GroupHistProofs.v
theories/GroupPool.v
theories/GroupHistProofs2.v
theories/GroupGrowth.v
theories/GroupHistRefuted.v
theories/PropGroupHist.v
theories/VersionProofs.v
theories/PropVersion.v
theories/Stores.v
theories/SpecStores.v
theories/StoreProofs.v
theories/PropStores.v
theories/SpecPin.v
theories/PinProofs.v
theories/PinProofs2.v
theories/PinPair.v
theories/PinRefuted.v
theories/PropPin.v
theories/SpecPair.v
theories/PairProofs.v
theories/PropPair.v
theories/SpecFresh.v
theories/FreshProofs.v
theories/PropFresh.v
theories/SpecBeside.v
theories/BesideProofs.v
theories/ServedProofs.v
theories/GroupServed.v
theories/PropBeside.v
theories/ChainInv.v
theories/SpecTwice.v
theories/TwiceProofs.v
theories/PropTwice.v
theories/SetupInv.v
theories/SpecTotal.v
theories/TotalProofs.v
theories/TotalProofs2.v
theories/PropTotal.v
theories/SpecRatchet.v
theories/RatchetProofs.v
theories/PropRatchet.v
theories/SpecSetup.v
theories/SetupEffects.v
theories/PropSetup.v
theories/SpecGroupStep.v
theories/GroupEffects.v
theories/GroupErrors.v
theories/PropGroupStep.v
theories/SpecReplay.v
theories/ReplayProofs.v
theories/PropReplay.v
theories/SpecSkip.v
theories/SkipProofs.v
theories/PropSkip.v
theories/SpecWrap.v
theories/WrapProofs.v
theories/PropWrap.v
theories/SpecBusy.v
theories/BusyProofs.v
theories/PropBusy.v
theories/SpecMany.v
theories/ManyFacts.v
theories/ManyProofs.v
theories/ManyNet.v
theories/ManyStep.v
theories/ManyEnd.v
theories/ManyEx.v
theories/PropMany.v
theories/SpecExact.v
theories/ExactProofs.v
theories/PropExact.v
theories/Hex.v
theories/SpecPoint.v
theories/PointProofs.v
theories/PropPoint.v
theories/Install.v
theories/SpecInstall.v
theories/InstallProofs.v
theories/PropInstall.v
theories/SpecChat.v
theories/ChatProofs.v
theories/PropChat.v
theories/SpecRead.v
theories/ReadProofs.v
theories/PropRead.v
theories/SpecSecret.v
theories/SecretProofs.v
theories/SecretRefuted.v
theories/PropSecret.v
theories/SpecStored.v
theories/StoredProofs.v
theories/PropStored.v
theories/SpecRefill.v
theories/RefillProofs.v
theories/PropRefill.v
theories/SpecOrder.v
theories/OrderProofs.v
theories/PropOrder.v
theories/SpecOrderPair.v
theories/OrderPairProofs.v
theories/PropOrderPair.v
theories/SpecOrderFirst.v
theories/OrderFirstProofs.v
theories/PropOrderFirst.v
theories/SpecRotate.v
theories/RotateProofs.v
theories/PropRotate.v
theories/Params.v
theories/SpecParams.v
theories/ParamsProofs.v
theories/PropParams.v
theories/Compare.v
theories/CompareProofs.v
theories/PropCompare.v
