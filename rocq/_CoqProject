-Q theories Verif
theories/Base.v
theories/Crc.v
theories/Rb.v
theories/Aes.v
theories/Types.v
theories/Sc.v
theories/Phy.v
theories/File.v
theories/Pd.v
theories/Cp.v
theories/CpCtx.v
theories/ListLemmas.v
theories/SpecQueue.v
theories/RbProofs.v
theories/XorLin.v
theories/SpecCrc.v
theories/CrcProofs.v
theories/CrcBurst.v
theories/AesProofs.v
theories/ScProofs.v
theories/PhyCheck.v
theories/PropsLink.v
theories/SpecRx.v
theories/RxProofs.v
theories/SpecFrame.v
theories/PdRx.v
theories/PdCore.v
theories/PhyTx.v
theories/PdTx.v
theories/PdReply.v
theories/PdStep.v
theories/RxFwd.v
theories/SpecPd.v
theories/PdRun.v
theories/PdWire.v
theories/PdFwd.v
theories/PdSpeak.v
theories/SpecSec.v
theories/MacProofs.v
theories/PdPlain.v
theories/PdSec.v
theories/SpecCmd.v
theories/PdRefuse.v
theories/PdFacts.v
theories/ExPd.v
theories/PropsPd1.v
theories/SpecApp.v
theories/PdKinds.v
theories/PdCase.v
theories/PdApp.v
theories/PdTrace.v
theories/PdHist.v
theories/PdHist2.v
theories/PdAnswer.v
theories/PdMore.v
theories/PropsPd2.v
theories/SpecCp.v
theories/CpTx.v
theories/CpRx.v
theories/CpStep.v
theories/CpInv.v
theories/CpEdge.v
theories/CpFacts.v
theories/CpSum.v
theories/SpecSession.v
theories/WireSec.v
theories/CpWire.v
theories/SpecCpRun.v
theories/CpHist.v
theories/CpTime.v
theories/CpFwd.v
theories/CpRetry.v
theories/CpSeq.v
theories/CpQueue.v
theories/AesInv.v
theories/SpecReply.v
theories/SaysProofs.v
theories/CpReply.v
theories/CpApi.v
theories/ExCp.v
theories/PropsCp1.v
theories/PropsCp2.v
theories/SpecCtx.v
theories/CtxProofs.v
theories/PropsCtx.v
theories/SpecLink.v
theories/Chunk.v
theories/Trip.v
theories/ChunkRun.v
theories/LinkProofs.v
theories/LinkStep.v
theories/ExLink.v
theories/PropsTrip.v
theories/CpSend.v
theories/Hand.v
theories/SpecHand.v
theories/PropsHand.v
theories/SpecTalk.v
theories/Line.v
theories/Talk.v
theories/Talk2.v
theories/Talk3.v
theories/Talk4.v
theories/Talk5.v
theories/Talk6.v
theories/PropsTalk.v
theories/SpecFile.v
theories/Xfer.v
theories/PropsFile.v
theories/SpecTotal.v
theories/PdTotal.v
theories/PropsTotal.v
theories/SpecCpTotal.v
theories/CpTotal.v
theories/PropsTotal2.v
theories/SpecAuth.v
theories/AuthProofs.v
theories/CpAuth.v
theories/PropsAuth.v
theories/PdOwn.v
theories/PropsOwn.v
theories/SpecLost.v
theories/Lost.v
theories/Lost2.v
theories/PropsLost.v
theories/SpecRun.v
theories/Run1.v
theories/Run2.v
theories/Run3.v
theories/PropsRun.v
theories/Shake.v
theories/SpecBoot.v
theories/Boot.v
theories/Boot2.v
theories/PropsBoot.v
theories/SpecKey.v
theories/Keys.v
theories/PropsKey.v
theories/SpecBus.v
theories/Bus.v
theories/PropsBus.v
theories/SpecShare.v
theories/Share.v
theories/Share2.v
theories/PropsShare.v
theories/SpecPanel.v
theories/Panel.v
theories/PropsPanel.v
theories/SpecSilent.v
theories/Silent.v
theories/Heal.v
theories/PropsSilent.v
theories/SpecFrag.v
theories/Frag.v
theories/PropsFrag.v
theories/SpecSay.v
theories/PdAll.v
theories/PropsSay.v
theories/SpecSecret.v
theories/Secret.v
theories/SecretCp.v
theories/PropsSecret.v
theories/Mem.v
theories/SpecMem.v
theories/MemProofs.v
theories/PropsMem.v
theories/SpecOpen.v
theories/OpenPd.v
theories/SpecOpenCp.v
theories/OpenCp.v
theories/PropsOpen.v
theories/SpecProg.v
theories/ProgCp.v
theories/PropsProg.v
theories/SpecPoll.v
theories/PollCp.v
theories/PropsPoll.v
theories/SpecOnce.v
theories/OnceCp.v
theories/PropsOnce.v
theories/SpecTell.v
theories/TellCp.v
theories/PropsTell.v
theories/SpecHeard.v
theories/HeardPd.v
theories/PropsHeard.v
theories/PropsKeep.v
theories/CommCp.v
theories/PropsComm.v
theories/DrawnCp.v
theories/PropsDrawn.v
theories/ChlngPd.v
theories/PropsChlng.v
theories/ScryptCp.v
theories/PropsScrypt.v
