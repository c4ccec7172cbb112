-Q theories Verif
theories/Base.v
theories/Utf8.v
theories/Item.v
theories/Reader.v
theories/Context.v
theories/Float.v
theories/Env.v
theories/Time.v
theories/Values.v
theories/Opaque.v
theories/Monad.v
theories/Pubkey.v
theories/S2k.v
theories/Subs.v
theories/Tags.v
theories/Parse.v
theories/Golden.v
theories/SpecBase.v
theories/BaseL.v
theories/SpecReader.v
theories/ReaderL.v
theories/MonadL.v
theories/SpecValues.v
theories/ValuesL.v
theories/PropReader.v
theories/PropValues.v
theories/Witness.v
theories/SpecTime.v
theories/TimeL.v
theories/PropTime.v
theories/SpecText.v
theories/Utf8L.v
theories/TextL.v
theories/PropText.v
theories/SpecOpt.v
theories/OptL.v
theories/PropOpt.v
theories/SpecArmor.v
theories/ArmorL.v
theories/PropArmor.v
theories/SpecPacket.v
theories/ReadsL.v
theories/PacketL.v
theories/TagL.v
theories/PropPacket.v
theories/SpecSecret.v
theories/SecretL.v
theories/PropSecret.v
theories/SpecNest.v
theories/FrameL.v
theories/CompL.v
theories/RelL.v
theories/ParseL.v
theories/SpecParse.v
theories/StreamL.v
theories/PropParse.v
theories/SpecCrash.v
theories/CrashL.v
theories/BoomL.v
theories/PropCrash.v
theories/SpecFrame.v
theories/GrammarL.v
theories/FramingL.v
theories/HeadL.v
theories/PropFrame.v
theories/SpecHistory.v
theories/HistoryL.v
theories/PropHistory.v
theories/SpecComp.v
theories/PropComp.v
theories/UnfoldL.v
theories/SubParse.v
theories/SpecSub.v
theories/SubL.v
theories/SigL.v
theories/PropSig.v
theories/NameL.v
theories/SpecSubs.v
theories/SubsL.v
theories/KeyL.v
theories/KeyTailL.v
theories/PropSub.v
theories/PropKeyBlock.v
theories/PropAttr.v
theories/PropFlags.v
theories/SpecState.v
theories/StateL.v
theories/EventL.v
theories/TotalL.v
theories/PropState.v
theories/SpecLiteral.v
theories/PropLiteral.v
theories/SpecHidden.v
theories/HiddenL.v
theories/PropHidden.v
theories/Json.v
theories/SpecJson.v
theories/JsonL.v
theories/JsonDocL.v
theories/PropJson.v
theories/Hkp.v
theories/SpecHkp.v
theories/HkpL.v
theories/PropHkp.v
theories/Url.v
theories/Github.v
theories/SpecGithub.v
theories/GithubL.v
theories/PropGithub.v
theories/Facade.v
theories/SpecFacade.v
theories/PropFacade.v
theories/Radix64.v
theories/SpecRadix64.v
theories/Radix64L.v
theories/ChecksumL.v
theories/ArmorTextL.v
theories/DamageL.v
theories/PropRadix64.v
theories/SpecCount.v
theories/CountL.v
theories/PropCount.v
theories/SpecFloat.v
theories/FloatL.v
theories/PropFloat.v
theories/Cli.v
theories/SpecCli.v
theories/CliL.v
theories/PropCli.v
theories/GoldenCli.v
theories/SpecUrl.v
theories/UrlL.v
theories/PropUrl.v
theories/SpecDebug.v
theories/DebugL.v
theories/PropDebug.v
theories/Session.v
theories/SessionL.v
theories/SpecSession.v
theories/PropSession.v
theories/Process.v
theories/PropProcess.v
theories/SpecRedact.v
theories/RedactL.v
theories/RedactTagL.v
theories/RedactSubL.v
theories/RedactPktL.v
theories/PropRedact.v
theories/SpecAccept.v
theories/AcceptL.v
theories/AcceptFrameL.v
theories/AcceptPktL.v
theories/PropAccept.v
theories/PropAcceptCmd.v
theories/Result.v
theories/SpecResult.v
theories/ResultL.v
theories/PropResult.v
theories/SpecSize.v
theories/SizeL.v
theories/SizeItemL.v
theories/SizePL.v
theories/SizeTL.v
theories/SizeGL.v
theories/PropSize.v
theories/DepthL.v
theories/DepthGL.v
theories/PropDepth.v
theories/ArmorSizeL.v
theories/SpecShown.v
theories/SpecCommand.v
theories/PropShown.v
theories/PropCommand.v
theories/ShownL.v
theories/ShownSigL.v
theories/ShownKeyL.v
theories/ShownScanL.v
theories/PropShownAll.v
theories/PropCommandAll.v
theories/SpecOutcome.v
theories/SpecPrinted.v
theories/PropOutcome.v
theories/PropOutcomeCmd.v
theories/GoldenUnit.v
theories/PropBound.v
theories/PropLengths.v
theories/SpecDump.v
theories/DumpL.v
theories/PropDump.v
theories/PropCut.v
theories/GhJson.v
theories/SpecGhJson.v
theories/GhJsonL.v
theories/GhKeyL.v
theories/PropGhJson.v
theories/GoldenGithub.v
theories/PropGhCmd.v
theories/GhTime.v
theories/SpecGhTime.v
theories/GhTimeL.v
theories/PropGhTime.v
theories/SpecOutline.v
theories/OutlineL.v
theories/PropOutline.v
theories/Stderr.v
theories/SpecStderr.v
theories/PropStderr.v
theories/Reach.v
theories/SpecReach.v
theories/PropReach.v
theories/SpecSame.v
theories/SameL.v
theories/PropSame.v
theories/SpecPipe.v
theories/PropPipe.v
theories/SpecCat.v
theories/PropCat.v
theories/SpecTerminal.v
theories/TerminalL.v
theories/PropTerminal.v
theories/PropVersion.v
theories/SpecScreen.v
theories/PropScreen.v
theories/SpecArmored.v
theories/PropArmored.v
theories/PropCutFile.v
theories/SpecBlocks.v
theories/PropBlocks.v
theories/SpecJoin.v
theories/PropJoin.v
theories/PropReframe.v
theories/SpecReframe.v
theories/PropReframeSub.v
theories/PropArmoredSame.v
