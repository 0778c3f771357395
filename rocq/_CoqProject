-Q theories Verif
theories/Base.v
theories/BaseLemmas.v
theories/Utils.v
theories/UtilsProofs.v
theories/V2IE.v
theories/V2IESpec.v
theories/V2IEProofs.v
theories/V2Header.v
theories/V2HeaderProofs.v
theories/MsgModel.v
theories/Msgs2Gen.v
theories/Msgs1Gen.v
theories/Msgs0Gen.v
theories/MsgProofs.v
theories/MsgProofs2.v
theories/MsgSpec.v
theories/MsgProofs3.v
theories/GenericMsg.v
theories/V2Msg.v
theories/V2MsgProofs.v
theories/TvIE.v
theories/TvIESpec.v
theories/TvIEProofs.v
theories/V1Header.v
theories/V1HeaderSpec.v
theories/V1HeaderProofs.v
theories/V0Header.v
theories/V0HeaderSpec.v
theories/V0HeaderProofs.v
theories/V1Msg.v
theories/V0Msg.v
theories/MsgSpec1.v
theories/MsgProofs4.v
theories/V1MsgProofs.v
theories/V0MsgProofs.v
theories/Gtp.v
theories/TpduProofs.v
theories/V1BuildProofs.v
theories/Spec.v
theories/V2EditProofs.v
theories/PropertiesBase.v
theories/Properties2Msg.v
theories/MsgRepair.v
theories/Properties2Fix.v
theories/DropSpec.v
theories/MsgDrop.v
theories/Properties20.v
theories/Properties1Msg.v
theories/Drop1Spec.v
theories/MsgDrop1.v
theories/Properties20V1.v
theories/FieldSpec.v
theories/FieldProofs.v
theories/FieldProofs2.v
theories/Properties52.v
theories/V2Codec.v
theories/V2Codec2.v
theories/V2Uli.v
theories/V2Tft.v
theories/V2Pco.v
theories/V2Ind.v
theories/CodecSpec.v
theories/V2CodecProofs.v
theories/V2CodecProofs2.v
theories/V2CodecProofs3.v
theories/V2CodecProofs4.v
theories/V2CodecProofs5.v
theories/Properties2Codec.v
theories/CodecSpec2.v
theories/V2IndProofs.v
theories/V2PcoProofs.v
theories/CodecSpec3.v
theories/V2TftProofs.v
theories/Properties2Codec2.v
theories/CodecSpec4.v
theories/V2IdProofs.v
theories/V2TimeProofs.v
theories/Properties2Codec3.v
theories/Maps.v
theories/MapsProofs.v
theories/UPlane.v
theories/USpec.v
theories/UPlaneProofs.v
theories/UPlaneProofs2.v
theories/UPlaneProofs3.v
theories/UPlaneProofs4.v
theories/PropertiesU.v
theories/CPlane.v
theories/CSpec.v
theories/CPlaneProofs.v
theories/CPlaneProofs2.v
theories/CPlaneProofs3.v
theories/CPlaneProofs4.v
theories/PropertiesC.v
theories/PropertiesBase2.v
theories/V2Acc.v
theories/AccSpec.v
theories/V2AccProofs.v
theories/Properties2Acc.v
theories/CSpec2.v
theories/CPlaneProofs5.v
theories/PropertiesC2.v
theories/UliSpec.v
theories/V2UliProofs.v
theories/Properties2Codec4.v
theories/TvCodec.v
theories/TvCodecSpec.v
theories/TvCodecProofs.v
theories/TvCodecProofs2.v
theories/TvCodecProofs3.v
theories/TvCodecProofs4.v
theories/TvCodecProofs5.v
theories/Properties1Codec.v
theories/Properties0Codec.v
theories/TvAnswerSpec.v
theories/TvAnswerProofs.v
theories/PropertiesTvAnswer.v
theories/V2Heap.v
theories/HeapSpec.v
theories/HeapProofs.v
theories/PropertiesHeap.v
theories/PropertiesRepeat.v
theories/UDscp.v
theories/DscpSpec.v
theories/DscpProofs.v
theories/PropertiesDscp.v
theories/Registry.v
theories/PropertiesReg.v
theories/Dial.v
theories/PropertiesDial.v
theories/URelay.v
theories/PropertiesRelay.v
theories/SessReq.v
theories/SessReqProofs.v
theories/PropertiesReq.v
theories/V2Ctx.v
theories/PropertiesCtx.v
theories/MsgSelf.v
theories/SelfSpec.v
theories/PropertiesSelf.v
theories/UKernel.v
theories/UKernelSpec.v
theories/PropertiesKernel.v
theories/V2AnswerSpec.v
theories/V2AnswerProofs.v
theories/V2AnswerProofs2.v
theories/TftAnswerSpec.v
theories/TftAnswerProofs.v
theories/PropertiesV2Answer.v
theories/RaceModel.v
theories/RaceStatic.v
theories/RaceSpec.v
theories/RaceProofs.v
theories/RaceDial.v
theories/RaceBound.v
theories/RaceRun.v
theories/RaceWitness.v
theories/RaceLogging.v
theories/PropertiesRace.v
theories/Life.v
theories/LifeSpec.v
theories/LifeProofs.v
theories/LifeEnd.v
theories/PropertiesLife.v
theories/Work.v
theories/WorkSpec.v
theories/WorkProofs.v
theories/PropertiesWork.v
theories/PropertiesMarshalTo.v
theories/IENames.v
theories/Print.v
theories/PrintSpec.v
theories/PrintProofs.v
theories/PropertiesPrint.v
theories/V1Ext.v
theories/PropertiesExt.v
theories/ErrText.v
theories/PropertiesErr.v
theories/V2TftOps.v
theories/PropertiesTftOps.v
theories/ExPgw.v
theories/PropertiesEx.v
theories/PropertiesEx2.v
theories/PropertiesFwd.v
theories/ExSgw.v
theories/PropertiesSgw.v
theories/PropertiesFill.v
theories/ExSgw2.v
theories/PropertiesSgw2.v
theories/PropertiesSgw3.v
theories/ExMme.v
theories/PropertiesJoin.v
theories/ExSgw3.v
theories/SgwAskSpec.v
theories/SgwAskProofs.v
theories/PropertiesSgw4.v
theories/ExMme2.v
theories/PropertiesMme.v
theories/ExMme3.v
theories/PropertiesMme2.v
