-Q theories Verif
theories/Base.v
theories/BaseProofs.v
theories/PopModel.v
theories/PopBuiltin.v
theories/PopSpec.v
theories/PopScanProofs.v
theories/PopProofs.v
theories/PopComplete.v
theories/PopBuiltinProofs.v
theories/PopCompile.v
theories/PopSameSpec.v
theories/PopSameProofs.v
theories/NumModel.v
theories/NumProofs.v
theories/LangModel.v
theories/LangSpec.v
theories/LangProofs.v
theories/TheoremsPop.v
theories/Utf8Model.v
theories/Utf8Proofs.v
theories/StrModel.v
theories/PoStrModel.v
theories/PoStrSpec.v
theories/PoStrProofs.v
theories/PoDecodeProofs.v
theories/WrapProofs.v
theories/TheoremsPoStr.v
theories/PoWrapSpec.v
theories/PoWrapProofs.v
theories/TheoremsPoWrap.v
theories/F64Model.v
theories/F64Proofs.v
theories/ReModel.v
theories/ReProofs.v
theories/CldrModel.v
theories/CldrBuiltin.v
theories/CldrSpec.v
theories/CldrRules.v
theories/CldrEvalProofs.v
theories/CldrBuiltinProofs.v
theories/CldrOperandProofs.v
theories/CldrParseProofs.v
theories/CldrSampleProofs.v
theories/CldrTotalProofs.v
theories/ShortProofs.v
theories/CldrTextProofs.v
theories/TheoremsCldr.v
theories/PoFileModel.v
theories/PoFileSpec.v
theories/TrimProofs.v
theories/PoScanProofs.v
theories/PoItemProofs.v
theories/PoParseProofs.v
theories/PoTotalProofs.v
theories/PoOutcomeProofs.v
theories/PoHeaderProofs.v
theories/PoSortProofs.v
theories/PoMergeProofs.v
theories/WrapGroupProofs.v
theories/PoEncodeProofs.v
theories/PoRoundProofs.v
theories/PoExamples.v
theories/TheoremsPoFile.v
theories/MoModel.v
theories/MoSpec.v
theories/MoProofs.v
theories/TheoremsMo.v
theories/MoAnySpec.v
theories/MoAnyProofs.v
theories/TheoremsMoAny.v
theories/GettextModel.v
theories/GettextSpec.v
theories/GettextProofs.v
theories/AskedSpec.v
theories/AskedProofs.v
theories/TheoremsGettext.v
theories/JsonModel.v
theories/JsonSpec.v
theories/JsonProofs.v
theories/JsonRoundProofs.v
theories/JsonHeapModel.v
theories/JsonHeapSpec.v
theories/JsonHeapProofs.v
theories/TheoremsJson.v
theories/JsonMsgModel.v
theories/JsonMsgSpec.v
theories/JsonMsgProofs.v
theories/TheoremsJsonMsg.v
theories/LocaleModel.v
theories/LocaleSpec.v
theories/LocaleProofs.v
theories/BundleModel.v
theories/BundleSpec.v
theories/BundleProofs.v
theories/BundleRunProofs.v
theories/BundleTopProofs.v
theories/TheoremsLocale.v
theories/SelfModel.v
theories/SelfSpec.v
theories/SelfProofs.v
theories/TheoremsSelf.v
theories/LoaderModel.v
theories/LoaderSpec.v
theories/LoaderProofs.v
theories/TheoremsLoader.v
theories/FltModel.v
theories/FltProofs.v
theories/NearSpec.v
theories/NearProofs.v
theories/NearTextProofs.v
theories/CalModel.v
theories/CalSpec.v
theories/CalProofs.v
theories/CalLeapProofs.v
theories/TheoremsCal.v
theories/HumModel.v
theories/HumSpec.v
theories/HumTextSpec.v
theories/HumFdProofs.v
theories/HumTimeProofs.v
theories/HumTotalProofs.v
theories/HumExactProofs.v
theories/HumLeapProofs.v
theories/HumNumProofs.v
theories/HumNatProofs.v
theories/TheoremsHum.v
theories/DfmtModel.v
theories/DfmtSpec.v
theories/DfmtProofs.v
theories/DfmtLoopProofs.v
theories/DfmtFieldProofs.v
theories/DfmtDayProofs.v
theories/TheoremsDfmt.v
theories/IwModel.v
theories/IwSpec.v
theories/IwProofs.v
theories/TheoremsIw.v
theories/AppModel.v
theories/AppSpec.v
theories/AppProofs.v
theories/TheoremsApp.v
theories/GoSpec.v
theories/PopSource.v
theories/CldrSource.v
theories/GoSourceProofs.v
theories/GoProofs.v
theories/GenModel.v
theories/GenSpec.v
theories/GenPopProofs.v
theories/GenFileProofs.v
theories/GenCldrProofs.v
theories/GenCldrFileProofs.v
theories/TheoremsGen.v
theories/CastModel.v
theories/CastSpec.v
theories/CastProofs.v
theories/FloatTextSpec.v
theories/FloatTextProofs.v
theories/TheoremsCast.v
theories/ShortDecModel.v
theories/ShortDecSpec.v
theories/ShortDecProofs.v
theories/TheoremsShortDec.v
theories/GroupModel.v
theories/GroupSpec.v
theories/GroupProofs.v
theories/TheoremsGroup.v
theories/JTextModel.v
theories/JTextSpec.v
theories/JTextProofs.v
theories/JTextWriteProofs.v
theories/JFileSpec.v
theories/JFileProofs.v
theories/TheoremsJText.v
theories/PoTightSpec.v
theories/PoTightProofs.v
theories/TheoremsPoTight.v
theories/PoFieldSpec.v
theories/PoFieldProofs.v
theories/TheoremsPoField.v
theories/PoLineSpec.v
theories/PoLineProofs.v
theories/TheoremsPoLine.v
theories/PoStateModel.v
theories/PoStateSpec.v
theories/PoStateProofs.v
theories/PoAgainProofs.v
theories/PoErrProofs.v
theories/TheoremsPoState.v
theories/PoLaySpec.v
theories/PoLayProofs.v
theories/TheoremsPoLay.v
theories/PoFillSpec.v
theories/PoFillProofs.v
theories/TheoremsPoFill.v
theories/PoOrderSpec.v
theories/PoOrderProofs.v
theories/TheoremsPoOrder.v
theories/PoSpellSpec.v
theories/PoSpellProofs.v
theories/TheoremsPoSpelling.v
theories/PoWriteSpec.v
theories/PoWriteProofs.v
theories/TheoremsPoWrite.v
theories/PoEditModel.v
theories/PoEditSpec.v
theories/PoEditProofs.v
theories/TheoremsPoEdit.v
theories/HumLocModel.v
theories/HumData1.v
theories/HumData2.v
theories/HumData3.v
theories/HumData4.v
theories/HumData5.v
theories/HumData6.v
theories/HumData7.v
theories/HumData8.v
theories/HumData9.v
theories/HumData10.v
theories/HumLocSpec.v
theories/HumLocProofs.v
theories/HumCheck.v
theories/TheoremsHumLoc.v
theories/AppJsonModel.v
theories/AppJsonSpec.v
theories/AppJsonProofs.v
theories/TheoremsAppJson.v
theories/CldrExclSpec.v
theories/CldrExclProofs.v
theories/TheoremsCldrExcl.v
theories/CldrGramSpec.v
theories/CldrGramProofs.v
theories/CldrHangProofs.v
theories/TheoremsCldrGram.v
theories/CldrKindSpec.v
theories/CldrKindProofs.v
theories/TheoremsCldrKind.v
theories/ShortNearProofs.v
theories/TheoremsCldrBig.v
theories/CldrAllProofs.v
theories/TheoremsCldrAll.v
theories/CldrFloatSpec.v
theories/CldrFloatProofs.v
theories/TheoremsCldrFloat.v
theories/LangNameModel.v
theories/TheoremsLangName.v
theories/TheoremsHumAsk.v
theories/ExModel.v
theories/ExSpec.v
theories/ExProofs.v
theories/TheoremsEx.v
theories/IwGapProofs.v
theories/TheoremsIwGap.v
theories/JAnySpec.v
theories/JAnyProofs.v
theories/TheoremsJAny.v
theories/PoHangSpec.v
theories/PoHangProofs.v
theories/TheoremsPoHang.v
theories/PoAnySpec.v
theories/PoAnyProofs.v
theories/TheoremsPoAny.v
theories/PoComSpec.v
theories/PoComProofs.v
theories/TheoremsPoCom.v
theories/PoHeadSpec.v
theories/PoHeadProofs.v
theories/TheoremsPoHead.v
theories/PoDupSpec.v
theories/PoDupProofs.v
theories/TheoremsPoDup.v
theories/PoFormSpec.v
theories/PoFormProofs.v
theories/TheoremsPoForm.v
theories/MoreProofs.v
theories/TheoremsMore.v
