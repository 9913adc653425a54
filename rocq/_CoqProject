-Q theories Verif
theories/Base/Bytes.v
theories/Base/BytesFacts.v
theories/Model/GoIO.v
theories/Model/GoStd.v
theories/Model/Wire.v
theories/Model/Nixbase32.v
theories/Model/Nixhash.v
theories/Model/Storepath.v
theories/Model/References.v
theories/Spec/WireSpec.v
theories/Spec/WireHist.v
theories/Proof/WireFacts.v
theories/Proof/WireProps.v
theories/Props/WireP.v
theories/Model/WirePool.v
theories/Spec/WirePoolSpec.v
theories/Proof/WirePoolFacts.v
theories/Props/WirePoolP.v
theories/Spec/Base32Spec.v
theories/Proof/Bits.v
theories/Proof/Base32Facts.v
theories/Proof/Base32Props.v
theories/Proof/Base32More.v
theories/Props/Base32P.v
theories/Proof/Codec.v
theories/Spec/HashSpec.v
theories/Proof/HashProps.v
theories/Props/HashP.v
theories/Spec/StorePathSpec.v
theories/Proof/PathFacts.v
theories/Proof/StorePathProps.v
theories/Model/StoreRe.v
theories/Proof/StoreReProps.v
theories/Props/StorePathP.v
theories/Spec/RefSpec.v
theories/Proof/RefProps.v
theories/Props/RefP.v
theories/Model/Nar.v
theories/Model/NarReader.v
theories/Spec/NarSpec.v
theories/Spec/NarHist.v
theories/Spec/NarCut.v
theories/Spec/UrlSpec.v
theories/Proof/NarUtilProps.v
theories/Proof/NarPath.v
theories/Proof/NarReaderFacts.v
theories/Proof/NarSession.v
theories/Proof/NarReaderAny.v
theories/Proof/NarTrunc.v
theories/Proof/NarCut.v
theories/Props/NarReaderP.v
theories/Model/NarConc.v
theories/Spec/ConcSpec.v
theories/Proof/NarConcReader.v
theories/Props/NarConcP.v
theories/Model/NarWConc.v
theories/Spec/WConcSpec.v
theories/Proof/NarConcWriter.v
theories/Props/NarWConcP.v
theories/Model/NarWriter.v
theories/Spec/NarWHist.v
theories/Proof/EntryPath.v
theories/Proof/NarWriterSound.v
theories/Proof/NarWriterComplete.v
theories/Proof/NarWriterHist.v
theories/Props/NarWriterP.v
theories/Model/NarWPtr.v
theories/Spec/NarWPtrSpec.v
theories/Proof/NarWPtrProps.v
theories/Props/NarWPtrP.v
theories/Model/NarDump.v
theories/Spec/NarDumpSpec.v
theories/Proof/NarDumpProps.v
theories/Props/NarDumpP.v
theories/Model/NarDumpOS.v
theories/Spec/NarDumpOSSpec.v
theories/Proof/NarDumpOSProps.v
theories/Props/NarDumpOSP.v
theories/Model/NarLs.v
theories/Spec/NarLsSpec.v
theories/Proof/NarLsProps.v
theories/Proof/NarLsOrder.v
theories/Props/NarLsP.v
theories/Model/Scanner.v
theories/Model/Signature.v
theories/Model/NarInfo.v
theories/Spec/SignatureSpec.v
theories/Spec/NarInfoSpec.v
theories/Proof/SignatureProps.v
theories/Proof/ScannerProps.v
theories/Proof/NarInfoProps.v
theories/Proof/NarInfoMore.v
theories/Proof/NarInfoRound.v
theories/Proof/NarInfoCheck.v
theories/Proof/NarInfoExact.v
theories/Props/SignatureP.v
theories/Props/NarInfoP.v
theories/Model/Derivation.v
theories/Model/DrvParser.v
theories/Spec/DerivationSpec.v
theories/Proof/DrvEncode.v
theories/Proof/DrvParse.v
theories/Proof/DrvRound.v
theories/Proof/DrvValidate.v
theories/Proof/DrvText.v
theories/Proof/DrvHash.v
theories/Proof/DrvOrder.v
theories/Proof/DrvAny.v
theories/Proof/DrvAccept.v
theories/Props/DerivationP.v
theories/Model/DrvStore.v
theories/Spec/StoreSpec.v
theories/Proof/StoreMap.v
theories/Proof/StoreBadger.v
theories/Props/StoreP.v
theories/Model/DrvStorePtr.v
theories/Spec/StorePtrSpec.v
theories/Proof/StorePtrProps.v
theories/Props/StorePtrP.v
theories/Proof/StoreLin.v
theories/Props/StoreLinP.v
theories/Model/StoreBackends.v
theories/Model/GoUrl.v
theories/Model/GoUrlAuth.v
theories/Model/Bufio.v
theories/Spec/BackendSpec.v
theories/Proof/BackendProps.v
theories/Proof/UrlProps.v
theories/Proof/UrlRequest.v
theories/Proof/UrlAuth.v
theories/Proof/BufioProps.v
theories/Proof/DumpClient.v
theories/Props/BackendP.v
theories/Spec/ScanSpec.v
theories/Proof/ScanProps.v
theories/Props/ScanP.v
theories/Proof/UrlPlain.v
theories/Props/UrlP.v
theories/Props/DumpCmdP.v
theories/Model/Cmd.v
theories/Spec/CmdSpec.v
theories/Proof/CmdProps.v
theories/Proof/CmdLs.v
theories/Props/CmdP.v
theories/Model/Sqlite.v
theories/Spec/SqliteSpec.v
theories/Proof/SqliteFacts.v
theories/Props/SqliteP.v
theories/Spec/PipelineSpec.v
theories/Proof/PipelineProps.v
theories/Proof/NarInfoVerify.v
theories/Spec/CopySpec.v
theories/Proof/NarWriterTree.v
theories/Proof/NarWriterExact.v
theories/Proof/NarCopy.v
theories/Proof/NarPipe.v
theories/Props/PipelineP.v
theories/Model/Json.v
theories/Spec/JsonSpec.v
theories/Proof/JsonUtf8.v
theories/Proof/JsonStr.v
theories/Proof/JsonVal.v
theories/Proof/JsonEnc.v
theories/Proof/JsonDrv.v
theories/Proof/JsonRead.v
theories/Props/JsonP.v
theories/Model/Handles.v
theories/Spec/HandlesSpec.v
theories/Proof/HandlesProps.v
theories/Props/HandlesP.v
theories/Spec/StreamSpec.v
theories/Props/StreamP.v
theories/Spec/ExtractSpec.v
theories/Proof/NarExtract.v
theories/Props/ExtractP.v
theories/Spec/NarAccept.v
theories/Proof/NarAcceptP.v
theories/Props/AcceptP.v
theories/Spec/NarBackSpec.v
theories/Proof/NarBack.v
theories/Props/BackP.v
theories/Model/SqliteTx.v
theories/Spec/SqliteTxSpec.v
theories/Proof/SqliteTxProps.v
theories/Props/SqliteTxP.v
theories/Spec/BuildSpec.v
theories/Props/BuildP.v
theories/Proof/NarReaderBad.v
theories/Props/NarExactP.v
theories/Props/CopyP.v
theories/Props/PipeP.v
theories/Proof/NoLookahead.v
theories/Props/AheadP.v
theories/Spec/DrvIdSpec.v
theories/Proof/DrvInj.v
theories/Props/IdentityP.v
theories/Spec/DownloadSpec.v
theories/Props/DownloadP.v
theories/Spec/ContentSpec.v
theories/Props/ContentP.v
theories/Spec/GraphSpec.v
theories/Props/GraphP.v
theories/Model/NarReaderMem.v
theories/Spec/MemSpec.v
theories/Proof/NarReaderMemFacts.v
theories/Props/MemP.v
theories/Spec/RoundSpec.v
theories/Proof/DrvExact.v
theories/Proof/DrvInjNeat.v
theories/Props/RoundP.v
theories/Spec/HashTextSpec.v
theories/Proof/HashText.v
theories/Spec/NarInfoText.v
theories/Proof/NarInfoTextFacts.v
theories/Props/HashTextP.v
theories/Spec/ValidSpec.v
theories/Proof/DrvValidOrder.v
theories/Proof/DrvExactAll.v
theories/Props/ValidP.v
theories/Spec/GlueSpec.v
theories/Proof/NarInfoGlue.v
theories/Props/GlueP.v
theories/Spec/JsonAlikeSpec.v
theories/Proof/JsonAlike.v
theories/Props/JsonAlikeP.v
theories/Spec/NarParenSpec.v
theories/Proof/NarParenLast.v
theories/Proof/NarParenPath.v
theories/Props/NarListedP.v
theories/Check/Sha256.v
theories/Check/Fixtures.v
theories/Check/Fixtures2.v
theories/Check/JsonFixtures.v
theories/Check/SqliteFixtures.v
theories/Check/SqliteTxFixtures.v
theories/Props/StreamLastP.v
theories/Props/CmdMisplacedP.v
theories/Props/CopyListedP.v
theories/Props/BackExactP.v
