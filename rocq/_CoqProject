-Q theories Verif
theories/Base.v
theories/Mem.v
theories/Libc.v
theories/StrviewModel.v
theories/Spec.v
theories/MemLemmas.v
theories/StrviewProofs.v
theories/StrviewProofs2.v
theories/StrviewProofs3.v
theories/StrviewProofs4.v
theories/ExampleLib.v
theories/PropsView.v
theories/StrnumModel.v
theories/NumSpec.v
theories/StrnumProofs.v
theories/StrnumProofs2.v
theories/StrnumProofs3.v
theories/StrnumFloat.v
theories/FloatSpec.v
theories/StrnumFloatVal.v
theories/PropsNum.v
theories/Alloc.v
theories/StrbufModel.v
theories/BufSpec.v
theories/BufSpec2.v
theories/StrbufProofs.v
theories/StrbufProofs2.v
theories/StrbufProofs3.v
theories/StrbufProofs4.v
theories/StrbufProofs5.v
theories/StrbufProofs6.v
theories/StrbufProofs7.v
theories/StrbufProofs8.v
theories/HistSpec.v
theories/StrbufHistory.v
theories/StrbufProofs9.v
theories/StrbufProofs10.v
theories/BufExample.v
theories/PropsBuf.v
theories/PropsBuf2.v
theories/IoModel.v
theories/IoSpec.v
theories/IoProofs.v
theories/PropsIo.v
theories/PackModel.v
theories/PackSpec.v
theories/PackProofs.v
theories/PropsPack.v
theories/AesModel.v
theories/AesSpec.v
theories/AesProofs.v
theories/AesProofs2.v
theories/AesProofs3.v
theories/PropsAes.v
theories/CryptModel.v
theories/CryptSpec.v
theories/CryptProofs.v
theories/CryptProofs2.v
theories/CryptProofs3.v
theories/CryptProofs4.v
theories/CryptNeg.v
theories/PropsCrypt.v
theories/IeeeSpec.v
theories/StrnumIeee.v
theories/StrnumIeee2.v
theories/StrnumIeee3.v
theories/PropsIeee.v
theories/UriModel.v
theories/UriSpec.v
theories/UriProofs.v
theories/PropsUri.v
theories/PrnfModel.v
theories/PrnfSpec.v
theories/PrnfProofs.v
theories/PrnfProofs2.v
theories/PrnfProofs3.v
theories/PrnfProofs4.v
theories/PrnfProofs5.v
theories/PrnfBufModel.v
theories/PrnfProofs6.v
theories/PrnfIeee.v
theories/PrnfProofs7.v
theories/PrnfProofs8.v
theories/PrnfSpec2.v
theories/PrnfProofs9.v
theories/PrnfPadProofs.v
theories/PropsPrnf.v
theories/PrnfFormat.v
theories/PrnfFormat2.v
theories/PrnfView.v
theories/PrnfPrecSpec.v
theories/PrnfPrec.v
theories/PropsPrec.v
theories/PropsPrnf2.v
theories/PropsPrnf3.v
theories/PrnfProofs10.v
theories/PropsPrnfIeee.v
theories/HistSpec2.v
theories/StrbufHistory2.v
theories/ChannelSpec.v
theories/ChannelProofs.v
theories/PropsHist.v
theories/PropsMore.v
theories/ExamplesModel.v
theories/ExamplesSpec.v
theories/ExamplesProofs.v
theories/ExamplesProofs2.v
theories/ExamplesProofs3.v
theories/PropsExamples.v
theories/UriMainModel.v
theories/UriMainSpec.v
theories/UriMainProofs.v
theories/PropsUriMain.v
theories/DocsModel.v
theories/DocsProofs.v
theories/PropsDocs.v
theories/ReserveSpec.v
theories/ReserveProofs.v
theories/PropsReserve.v
theories/TestSuite.v
theories/NumSpec2.v
theories/NumB0Proofs.v
theories/NumDocsProofs.v
theories/StrnumPieces.v
theories/PropsNum2.v
theories/ReadBackProofs.v
theories/PropsReadBack.v
theories/MacroModel.v
theories/MacroProofs.v
theories/PropsMacro.v
theories/ExactProofs.v
theories/ExactProofs2.v
theories/StrictNum.v
theories/PropsExact.v
theories/CallsSpec.v
theories/CallsProofs.v
theories/PropsCalls.v
theories/PrnfOwnSpec.v
theories/PrnfOwn.v
theories/PrnfOwn2.v
theories/PropsOwn.v
theories/PackTypeModel.v
theories/PackTypeSpec.v
theories/PackTypeProofs.v
theories/PropsPack2.v
theories/SpellSpec.v
theories/SpellProofs.v
theories/SpellIeee.v
theories/PropsSpell.v
theories/LineModel.v
theories/LineSpec.v
theories/LineProofs.v
theories/PropsLine.v
theories/PrnfDouble.v
theories/PrnfDoubleProofs.v
theories/PrnfDoubleEng.v
theories/PropsDouble.v
theories/SameSpec.v
theories/SameProofs.v
theories/PropsSame.v
theories/ViewProg.v
theories/ViewProgProofs.v
theories/ViewProgProofs2.v
theories/PropsViewProg.v
theories/MixSpec.v
theories/MixProofs.v
theories/MixCheck.v
theories/PropsMix.v
theories/TableSpec.v
theories/TableProofs.v
theories/PropsTable.v
theories/PortSpec.v
theories/PortView.v
theories/PortNum.v
theories/PortBuf.v
theories/PortPrnf.v
theories/PortProg.v
theories/PropsPort.v
theories/IsoSpec.v
theories/IsoProofs.v
theories/PropsIso.v
theories/IsoBufSpec.v
theories/IsoBufProofs.v
theories/IsoBufProofs2.v
theories/PropsIsoBuf.v
theories/IsoAccSpec.v
theories/IsoAccProofs.v
theories/PropsIsoAcc.v
theories/IsoMixSpec.v
theories/IsoMixProofs.v
theories/PropsIsoMix.v
theories/NullProofs.v
theories/PropsNull.v
theories/ExamplesProofs4.v
theories/PropsNumTest.v
theories/PrnfConfModel.v
theories/PrnfConfSpec.v
theories/PrnfConfProofs.v
theories/PrnfConfProofs2.v
theories/PrnfConfProofs3.v
theories/PrnfConfProofs4.v
theories/PrnfLongModel.v
theories/PrnfLongSpec.v
theories/PrnfLongProofs.v
theories/PrnfLongProofs2.v
theories/PropsPrnfConf.v
theories/PropsPrnfLong.v
theories/PrnfExtModel.v
theories/PrnfExtSpec.v
theories/PrnfExtProofs.v
theories/PrnfExtProofs2.v
theories/PrnfExtProofs3.v
theories/PropsPrnfExt.v
theories/PrnfExtBufModel.v
theories/PrnfExtProofs4.v
theories/PropsPrnfExtBuf.v
theories/PrnfAssertModel.v
theories/PrnfAssertSpec.v
theories/PrnfAssertProofs.v
theories/PrnfAssertProofs2.v
theories/PropsPrnfAssert.v
theories/PropsPrnfAssertIeee.v
theories/PrnfDefModel.v
theories/PrnfDefSpec.v
theories/PrnfDefProofs.v
theories/PropsPrnfDef.v
theories/PropsPrnfDefIeee.v
theories/PropsCases.v
theories/PropsPrnfExtIeee.v
theories/PropsPrnfConfIeee.v
theories/PrnfGlobalModel.v
theories/PrnfGlobalSpec.v
theories/PrnfGlobalProofs.v
theories/PropsPrnfGlobal.v
theories/PropsPrnfGlobalIeee.v
theories/PrnfReturnModel.v
theories/PrnfReturnSpec.v
theories/PrnfReturnProofs.v
theories/PrnfReturnProofs2.v
theories/PropsPrnfReturn.v
theories/PropsPrnfReturnIeee.v
theories/PrnfWarnModel.v
theories/PrnfWarnSpec.v
theories/PrnfWarnProofs.v
theories/PropsPrnfWarn.v
theories/PropsPrnfWarnIeee.v
