-Q theories Verif
theories/GoBase.v
theories/Slp.v
theories/Progs.v
theories/FieldModel.v
theories/FieldSpec.v
theories/FieldProofs.v
theories/ByteLemmas.v
theories/EncodeProofs.v
theories/ScalarModel.v
theories/ScalarProofs.v
theories/Primality.v
theories/Fp.v
theories/Curve.v
theories/Tables.v
theories/BaseCert.v
theories/BasePoint.v
theories/GroupModel.v
theories/GroupSpec.v
theories/FieldPow.v
theories/GroupProofs.v
theories/PropFieldLemmas.v
theories/PropField.v
theories/TableProofs.v
theories/PointCodec.v
theories/GroupEq.v
theories/ScalarMul.v
theories/SlideProofs.v
theories/PropGroupLemmas.v
theories/GroupMisuse.v
theories/PropGroup.v
theories/ApiModel.v
theories/ApiSpec.v
theories/SlideSharp.v
theories/ApiProofs.v
theories/VerifyProofs.v
theories/PropSigLemmas.v
theories/PropSig.v
theories/CipherProofs.v
theories/PropCipherLemmas.v
theories/ExampleLemmas.v
theories/ScalarSpec.v
theories/SlideExact.v
theories/PropScalar.v
theories/PropCipher.v
theories/CodecSpec.v
theories/PropCodecLemmas.v
theories/PropCodec.v
theories/HashModel.v
theories/HashSpec.v
theories/HashProofs.v
theories/PropHashLemmas.v
theories/PropHash.v
theories/AesModel.v
theories/AesProofs.v
theories/PropConcrete.v
theories/MathModel.v
theories/MathSpec.v
theories/MathProofs.v
theories/MathAdd.v
theories/MathMul.v
theories/MathDecode.v
theories/PropMathLemmas.v
theories/MathRandom.v
theories/PropMath.v
theories/AliasModel.v
theories/AliasSpec.v
theories/AliasProofs.v
theories/PropAliasLemmas.v
theories/PropAlias.v
theories/ShareModel.v
theories/ShareSpec.v
theories/ShareProofs.v
theories/PropShareLemmas.v
theories/PropShare.v
theories/Torsion.v
theories/PropSecLemmas.v
theories/PropSec.v
theories/SessionModel.v
theories/SessionSpec.v
theories/SessionProofs.v
theories/PropSessionLemmas.v
theories/PropSession.v
theories/MdModel.v
theories/MdSpec.v
theories/MdProofs.v
theories/PropMdLemmas.v
theories/PropMd.v
theories/MemModel.v
theories/MemSpec.v
theories/MemProofs.v
theories/MemApi.v
theories/MemClients.v
theories/PropMemLemmas.v
theories/PropMem.v
theories/LeakModel.v
theories/LeakSpec.v
theories/LeakProofs.v
theories/PropLeakLemmas.v
theories/PropLeak.v
theories/PadSpec.v
theories/PadProofs.v
theories/PropPadLemmas.v
theories/PropPad.v
theories/TextModel.v
theories/TextSpec.v
theories/PropTextLemmas.v
theories/PropText.v
theories/CipherSpec.v
theories/PropFormatLemmas.v
theories/PropFormat.v
theories/GroupOrder.v
theories/PropOrderLemmas.v
theories/PropOrder.v
theories/RfcSpec.v
theories/PropRfcLemmas.v
theories/PropRfc.v
theories/NilModel.v
theories/PropNilLemmas.v
theories/PropNil.v
theories/ReaderModel.v
theories/ReaderSpec.v
theories/PropReaderLemmas.v
theories/PropReader.v
theories/RecoverModel.v
theories/RecoverSpec.v
theories/PropRecoverLemmas.v
theories/PropRecover.v
theories/EncSpec.v
theories/PropEncLemmas.v
theories/PropEnc.v
theories/PropCbcLemmas.v
theories/PropCbc.v
theories/ConcModel.v
theories/ConcSpec.v
theories/PropConcLemmas.v
theories/PropConc.v
theories/ProgModel.v
theories/ProgSpec.v
theories/PropProgLemmas.v
theories/ProgEnds.v
theories/PropProg.v
theories/PropNonceLemmas.v
theories/PropNonce.v
theories/ExprModel.v
theories/ExprSpec.v
theories/PropExprLemmas.v
theories/PropExpr.v
theories/PropConvLemmas.v
theories/PropConv.v
theories/RaceModel.v
theories/RaceSpec.v
theories/RaceProofs.v
theories/PropRaceLemmas.v
theories/PropRace.v
theories/BufModel.v
theories/BufSpec.v
theories/PropBufLemmas.v
theories/PropBuf.v
theories/HandModel.v
theories/HandSpec.v
theories/PropHandLemmas.v
theories/PropHand.v
theories/PropPrintLemmas.v
theories/PropPrint.v
theories/RogueModel.v
theories/RogueSpec.v
theories/PropRogueLemmas.v
theories/PropRogue.v
theories/FipsSpec.v
theories/PropFipsLemmas.v
theories/PropFips.v
theories/AesSpec.v
theories/PropAesLemmas.v
theories/PropAes.v
theories/Sha2Spec.v
theories/PropSha2Lemmas.v
theories/PropSha2.v
theories/RipemdSpec.v
theories/PropRipemdLemmas.v
theories/PropRipemd.v
theories/StdSpec.v
theories/PropStdLemmas.v
theories/PropStd.v
theories/WeakModel.v
theories/WeakSpec.v
theories/WeakProofs.v
theories/PropWeakLemmas.v
theories/PropWeakDoubleLemmas.v
theories/PropWeak.v
theories/ModelTests.v
