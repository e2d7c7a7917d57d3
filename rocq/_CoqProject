-Q theories Verif
theories/Base.v
theories/BaseFacts.v
theories/SatModel.v
theories/SatSpec.v
theories/SatProofs.v
theories/PropSat.v
theories/BitModel.v
theories/BitProofs.v
theories/QualModel.v
theories/QualProofs.v
theories/PropBits.v
theories/PropQual.v
theories/TimeModel.v
theories/TimeSpec.v
theories/TimeProofs.v
theories/TimeLeap.v
theories/TimeAdjust.v
theories/PropTime.v
theories/SigModel.v
theories/SigSpec.v
theories/SigProofs.v
theories/PropSig.v
theories/CssrState.v
theories/CssrModel.v
theories/CssrSpec.v
theories/CssrFacts.v
theories/CssrCodec.v
theories/CssrMask.v
theories/CssrStream.v
theories/CssrStatus.v
theories/CssrUser.v
theories/CssrValid.v
theories/CssrAtmo.v
theories/CssrWitness.v
theories/PropCssr.v
theories/L6Model.v
theories/L6Spec.v
theories/L6Proofs.v
theories/PropL6.v
theories/HasModel.v
theories/HasSpec.v
theories/HasProofs.v
theories/HasLive.v
theories/HasField.v
theories/PropHas.v
theories/PropHasField.v
theories/EphModel.v
theories/EphSpec.v
theories/EphProofs.v
theories/PropEph.v
theories/PephModel.v
theories/PephProofs.v
theories/PephField.v
theories/PephInterp.v
theories/PropPeph.v
theories/PppModel.v
theories/PppSpec.v
theories/PppProofs.v
theories/PropPpp.v
theories/AbGroup.v
theories/FiltModel.v
theories/FiltSpec.v
theories/FiltMatrix.v
theories/FiltUd.v
theories/FiltCs.v
theories/FiltSd.v
theories/PropFilt.v
theories/RtcmFrame.v
theories/RtcmFrameSpec.v
theories/RtcmCrc.v
theories/RtcmFrameProofs.v
theories/PropRtcm.v
theories/RtcmSsr.v
theories/RtcmSsrSpec.v
theories/RtcmSsrProofs.v
theories/RtcmFloat.v
theories/PropRtcmSsr.v
theories/MsmModel.v
theories/MsmSpec.v
theories/MsmProofs.v
theories/PropMsm.v
theories/FieldTac.v
theories/LamModel.v
theories/LamSpec.v
theories/LamRed.v
theories/LamLdl.v
theories/LamSearch.v
theories/LamMain.v
theories/PropLam.v
theories/MdcModel.v
theories/MdcSpec.v
theories/MdcProofs.v
theories/PropMdc.v
theories/RnxModel.v
theories/RnxSpec.v
theories/RnxProofs.v
theories/RnxObsProofs.v
theories/PropRnx.v
theories/FieldSpec.v
theories/FieldFacts.v
theories/RawModel.v
theories/RawSpec.v
theories/RawFacts.v
theories/RawGal.v
theories/RawLnav.v
theories/RawProofs.v
theories/PropRaw.v
theories/SbasModel.v
theories/SbasSpec.v
theories/SbasProofs.v
theories/SbasLong.v
theories/SbasGrid.v
theories/SbasIonoModel.v
theories/SbasIonoSpec.v
theories/SbasIonoProofs.v
theories/PropSbas.v
theories/BdsModel.v
theories/BdsSpec.v
theories/BdsProofs.v
theories/BdsBias.v
theories/PropBds.v
theories/OsnmaModel.v
theories/OsnmaSpec.v
theories/OsnmaProofs.v
theories/OsnmaTags.v
theories/OsnmaHist.v
theories/OsnmaStep.v
theories/OsnmaAuth.v
theories/OsnmaToy.v
theories/OsnmaSound.v
theories/OsnmaDsm.v
theories/OsnmaBlocks.v
theories/OsnmaChain.v
theories/OsnmaLut.v
theories/OsnmaLive.v
theories/OsnmaPages.v
theories/OsnmaWit.v
theories/PropOsnma.v
theories/NavModel.v
theories/NavSpec.v
theories/NavFacts.v
theories/NavCnav.v
theories/NavCnavH.v
theories/NavBds.v
theories/NavBds2.v
theories/NavD1.v
theories/NavD2.v
theories/PropNav.v
theories/GloModel.v
theories/GloSpec.v
theories/GloFacts.v
theories/GloIrn.v
theories/GloFdma.v
theories/GloCdma.v
theories/GloSbs.v
theories/PropGlo.v
theories/BiasModel.v
theories/BiasSpec.v
theories/BiasProofs.v
theories/PropBias.v
theories/REphModel.v
theories/REphSpec.v
theories/REphProofs.v
theories/REphSta.v
theories/PropREph.v
theories/RAtmModel.v
theories/RAtmSpec.v
theories/RAtmProofs.v
theories/RAtmIono.v
theories/RAtmGrid.v
theories/PropRAtm.v
theories/RIntModel.v
theories/RIntSpec.v
theories/RIntProofs.v
theories/PropRInt.v
theories/RNetModel.v
theories/RNetSpec.v
theories/RNetProofs.v
theories/PropRNet.v
theories/RGridModel.v
theories/RGridSpec.v
theories/RGridProofs.v
theories/PropRGrid.v
theories/RAntModel.v
theories/RAntSpec.v
theories/RAntProofs.v
theories/PropRAnt.v
theories/MergeModel.v
theories/MergeSpec.v
theories/MergeProofs.v
theories/PropMerge.v
theories/VtecModel.v
theories/PropVtec.v
