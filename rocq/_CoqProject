-Q theories Verif
theories/Common.v
theories/CommonFacts.v
theories/BioModel.v
theories/BioFacts.v
theories/ProofModel.v
theories/ProofSpec.v
theories/ProofFacts.v
theories/ProofTheorems.v
theories/BnModel.v
theories/BnSpec.v
theories/BnFacts.v
theories/BnTheorems.v
theories/HeaderModel.v
theories/HeaderSpec.v
theories/HeaderFacts.v
theories/HeaderTheorems.v
theories/Assoc.v
theories/AssocFacts.v
theories/ChainModel.v
theories/ChainSpec.v
theories/ChainFacts.v
theories/ChainRunFacts.v
theories/ChainTheorems.v
theories/BatchModel.v
theories/BatchTheorems.v
theories/StoreModel.v
theories/StoreTheorems.v
theories/ChainExamples.v
theories/TimeModel.v
theories/TimeTheorems.v
theories/Base32Model.v
theories/UtilTheorems.v
theories/DateModel.v
theories/DateTheorems.v
theories/MsgModel.v
theories/MsgTheorems.v
theories/FrameModel.v
theories/FrameTheorems.v
theories/BrontideModel.v
theories/BrontideSpec.v
theories/BrontideFacts.v
theories/BrontideTheorems.v
theories/BrontideExamples.v
theories/DnsNameModel.v
theories/DnsNameSpec.v
theories/DnsNameFacts.v
theories/DnsNameTheorems.v
theories/DnsMsgModel.v
theories/DnsMsgSpec.v
theories/DnsMsgFacts.v
theories/DnsMsgDecode.v
theories/DnsMsgTrunc.v
theories/DnsMsgWire.v
theories/DnsMsgTheorems.v
theories/Sig0Model.v
theories/Sig0Theorems.v
theories/ReqModel.v
theories/ReqTheorems.v
theories/ResourceModel.v
theories/ResourceTheorems.v
theories/DnssecModel.v
theories/DnssecTheorems.v
theories/AnswerModel.v
theories/AnswerTheorems.v
theories/AnswerTotal.v
theories/CacheModel.v
theories/CacheTheorems.v
theories/DnsMsgTotal.v
theories/HesiodModel.v
theories/HesiodTheorems.v
theories/NsModel.v
theories/NsTheorems.v
theories/TldNames.v
theories/NsTable.v
theories/NsRunTheorems.v
theories/NsExamples.v
theories/MapModel.v
theories/MapKeys.v
theories/MapFacts.v
theories/MapRefine.v
theories/MapTheorems.v
theories/AddrModel.v
theories/AddrFacts.v
theories/AddrText.v
theories/AddrTheorems.v
theories/AddrmanModel.v
theories/AddrmanFacts.v
theories/AddrmanTheorems.v
theories/AddrmanPick.v
theories/SeedsData.v
theories/AddrmanSeeds.v
theories/PoolModel.v
theories/PoolFacts.v
theories/PoolTheorems.v
theories/PoolRun.v
theories/PoolTimer.v
theories/PoolExamples.v
theories/PoolPeer.v
theories/WorkerModel.v
theories/WorkerFacts.v
theories/WorkerRun.v
theories/WorkerTheorems.v
theories/RsModel.v
theories/RsTheorems.v
theories/RsRun.v
theories/StreamFacts.v
theories/Sha256Model.v
theories/Sha256Spec.v
theories/Sha256Facts.v
theories/Sha256Theorems.v
theories/Blake2bModel.v
theories/Blake2bSpec.v
theories/Blake2bFacts.v
theories/Blake2bTheorems.v
theories/Sha3Model.v
theories/Sha3Spec.v
theories/Sha3Facts.v
theories/Sha3Theorems.v
theories/ChaChaModel.v
theories/ChaChaSpec.v
theories/ChaChaFacts.v
theories/ChaChaTheorems.v
theories/PolyModel.v
theories/PolySpec.v
theories/PolyFacts.v
theories/PolyTheorems.v
theories/AeadModel.v
theories/AeadSpec.v
theories/AeadFacts.v
theories/AeadTheorems.v
theories/OptModel.v
theories/OptSpec.v
theories/OptTheorems.v
theories/DaemonModel.v
theories/DaemonSpec.v
theories/DaemonTheorems.v
theories/EccModel.v
theories/EccSpec.v
theories/EccLimb.v
theories/EccMult.v
theories/EccMmod.v
theories/EccField.v
theories/EccCert.v
theories/EccPrime.v
theories/EccModMult.v
theories/EccLadder.v
theories/EccAlgebra.v
theories/EccCurve.v
theories/EccMultiple.v
theories/EccBytes.v
theories/EccSign.v
theories/EccTheorems.v
theories/AddrForms.v
theories/PoolChoice.v
theories/WorkerStart.v
theories/SipModel.v
theories/SipSpec.v
theories/SipTheorems.v
theories/NameVerify.v
theories/KeySteps.v
theories/KeyCert.v
theories/KeyTheorems.v
theories/DnssecReal.v
theories/HashReal.v
theories/HashChain.v
theories/EcModel.v
theories/EcTheorems.v
theories/RrsModel.v
theories/RrsTheorems.v
theories/SaModel.v
theories/SaTheorems.v
theories/BnTextModel.v
theories/BnTextTheorems.v
theories/ClassModel.v
theories/ClassTheorems.v
theories/ProgressModel.v
theories/ProgressTheorems.v
theories/ProgressValue.v
