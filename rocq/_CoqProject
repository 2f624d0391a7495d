-Q theories Verif
theories/AttestExamples.v
theories/AttestLemmas.v
theories/AttestModel.v
theories/AttestProps.v
theories/AttestSpec.v
theories/AuthExamples.v
theories/AuthKsLemmas.v
theories/AuthLemmas.v
theories/AuthMapLemmas.v
theories/AuthModel.v
theories/AuthOutputLemmas.v
theories/AuthProps.v
theories/AuthSpec.v
theories/AuthVerifyLemmas.v
theories/CipherLemmas.v
theories/CipherModel.v
theories/CipherProps.v
theories/CipherSpec.v
theories/ClientData.v
theories/ClientEffects.v
theories/ClientExamples.v
theories/ClientFinal.v
theories/ClientFlight.v
theories/ClientInv.v
theories/ClientLemmas.v
theories/ClientMain.v
theories/ClientModel.v
theories/ClientOut.v
theories/ClientPanic.v
theories/ClientProps.v
theories/ClientRun.v
theories/ClientSpec.v
theories/ClientSteps.v
theories/ClientWitness.v
theories/CodecLemmas.v
theories/CodecModel.v
theories/CodecProps.v
theories/CodecSpec.v
theories/ConfigLemmas.v
theories/ConfigModel.v
theories/ConfigProps.v
theories/ConfigSpec.v
theories/ConnCalls.v
theories/ConnClose.v
theories/ConnEnd.v
theories/ConnExamples.v
theories/ConnFinal.v
theories/ConnFuel.v
theories/ConnInv.v
theories/ConnLemmas.v
theories/ConnModel.v
theories/ConnMono.v
theories/ConnMoves.v
theories/ConnProps.v
theories/ConnSpec.v
theories/DeapHonestLemmas.v
theories/DeapLemmas.v
theories/DeapMapLemmas.v
theories/DeapMapModel.v
theories/DeapMapProps.v
theories/DeapMapSpec.v
theories/DeapModel.v
theories/DeapProps.v
theories/DeapSpec.v
theories/FollowerLemmas.v
theories/FollowerModel.v
theories/FollowerProps.v
theories/FollowerRobustLemmas.v
theories/FollowerRunLemmas.v
theories/FollowerSpec.v
theories/FramingLemmas.v
theories/GhashFieldLemmas.v
theories/GhashLemmas.v
theories/GhashModel.v
theories/GhashProps.v
theories/GhashSpec.v
theories/GhashTagLemmas.v
theories/HandshakeExamples.v
theories/HandshakeLemmas.v
theories/HandshakeModel.v
theories/HandshakePropLemmas.v
theories/HandshakeProps.v
theories/HandshakeSpec.v
theories/HandshakeViewLemmas.v
theories/HandshakeWriteLemmas.v
theories/HttpExamples.v
theories/HttpLemmas.v
theories/HttpModel.v
theories/HttpProps.v
theories/HttpSpec.v
theories/JsIoLemmas.v
theories/JsIoModel.v
theories/JsIoProps.v
theories/JsIoSpec.v
theories/KeyExchangeLemmas.v
theories/KeyExchangeModel.v
theories/KeyExchangeProps.v
theories/KeyExchangeRunLemmas.v
theories/KeyExchangeSpec.v
theories/KeyLemmas.v
theories/KeyModel.v
theories/KeyProps.v
theories/KeySpec.v
theories/LeaderBlind.v
theories/LeaderCalm.v
theories/LeaderCalmProps.v
theories/LeaderCalmSpec.v
theories/LeaderLemmas.v
theories/LeaderLog.v
theories/LeaderModel.v
theories/LeaderOrder.v
theories/LeaderOut.v
theories/LeaderOutProps.v
theories/LeaderOutSpec.v
theories/LeaderPair.v
theories/LeaderProps.v
theories/LeaderRel.v
theories/LeaderRun.v
theories/LeaderSim.v
theories/LeaderSpec.v
theories/Lib/Base.v
theories/Lib/Bcs.v
theories/Lib/PrimeCert.v
theories/Lib/Ranges.v
theories/Lib/RangesFacts.v
theories/MerkleLemmas.v
theories/MerkleModel.v
theories/MerkleProps.v
theories/MerkleSpec.v
theories/NameEncLemmas.v
theories/NameEncModel.v
theories/NameEncProps.v
theories/NameEncSpec.v
theories/PartsLemmas.v
theories/PartsModel.v
theories/PartsProps.v
theories/PartsSpec.v
theories/PrfExpLemmas.v
theories/PrfFlushLemmas.v
theories/PrfFnLemmas.v
theories/PrfMainLemmas.v
theories/PrfModel.v
theories/PrfProps.v
theories/PrfRunLemmas.v
theories/PrfSetupLemmas.v
theories/PrfShaLemmas.v
theories/PrfSpec.v
theories/PrfStepLemmas.v
theories/PrfVmLemmas.v
theories/ProofLemmas.v
theories/ProofModel.v
theories/ProofProps.v
theories/ProofSpec.v
theories/ProxConnEnd.v
theories/ProxConnExamples.v
theories/ProxConnLemmas.v
theories/ProxConnModel.v
theories/ProxConnProps.v
theories/ProxConnSpec.v
theories/ProxProveExamples.v
theories/ProxProveLemmas.v
theories/ProxProveModel.v
theories/ProxProveProps.v
theories/ProxProveSpec.v
theories/ProxVerExamples.v
theories/ProxVerLemmas.v
theories/ProxVerModel.v
theories/ProxVerProofExamples.v
theories/ProxVerProofLemmas.v
theories/ProxVerProps.v
theories/ProxVerSpec.v
theories/RecordFlushLemmas.v
theories/RecordFwdLemmas.v
theories/RecordGcmLemmas.v
theories/RecordHistLemmas.v
theories/RecordLemmas.v
theories/RecordModel.v
theories/RecordProps.v
theories/RecordSpec.v
theories/SdkExampleData.v
theories/SdkExtractLemmas.v
theories/SdkLemmas.v
theories/SdkLifeLemmas.v
theories/SdkLifeModel.v
theories/SdkLifeProps.v
theories/SdkLifeSpec.v
theories/SdkModel.v
theories/SdkProps.v
theories/SdkRevealLemmas.v
theories/SdkSpec.v
theories/SdkVerLemmas.v
theories/SdkVerModel.v
theories/SdkVerProps.v
theories/SdkVerSpec.v
theories/SessExamples.v
theories/SessLemmas.v
theories/SessModel.v
theories/SessProps.v
theories/SessSpec.v
theories/Sha256.v
theories/ShareLemmas.v
theories/ShareModel.v
theories/ShareProps.v
theories/ShareSpec.v
theories/SigAlgLemmas.v
theories/SigAlgModel.v
theories/SigAlgProps.v
theories/SigAlgSpec.v
theories/TagLemmas.v
theories/TagModel.v
theories/TagProps.v
theories/TagSpec.v
theories/TlsExamples.v
theories/TlsExtractLemmas.v
theories/TlsLemmas.v
theories/TlsModel.v
theories/TlsProps.v
theories/TlsSpec.v
theories/TranscriptLemmas.v
theories/TranscriptModel.v
theories/TranscriptProofs.v
theories/TranscriptProps.v
theories/TranscriptSpec.v
theories/VdCheckLemmas.v
theories/VdCheckModel.v
theories/VdCheckProps.v
theories/VdCheckSpec.v
