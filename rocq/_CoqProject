-Q theories Verif
theories/Base.v
theories/BaseProofs.v
theories/ImageModel.v
theories/ImageSpec.v
theories/ImageProofs.v
theories/PropImage.v
theories/PnmModel.v
theories/PnmSpec.v
theories/PnmProofs.v
theories/PnmProofs2.v
theories/PropPnm.v
theories/BoxModel.v
theories/BoxSpec.v
theories/BoxProofs.v
theories/PropBox.v
theories/StratModel.v
theories/StratSpec.v
theories/StratProofs.v
theories/StratFeatures.v
theories/StratFeatures2.v
theories/StratFeatures3.v
theories/PropStrat.v
theories/ProofTools.v
theories/SortModel.v
theories/SortProofs.v
theories/ZoneModel.v
theories/ZoneSpec.v
theories/ZoneProofs.v
theories/ZoneProofs2.v
theories/ZoneProofs3.v
theories/PropZone.v
theories/DatasModel.v
theories/DatasSpec.v
theories/DatasProofs.v
theories/PropDatas.v
theories/StreamModel.v
theories/GlyphIoModel.v
theories/DatasIoModel.v
theories/DictIoModel.v
theories/StreamProofs.v
theories/GlyphIoSpec.v
theories/GlyphIoProofs.v
theories/DatasIoSpec.v
theories/DatasIoProofs.v
theories/DictIoSpec.v
theories/DictIoProofs.v
theories/PropIo.v
theories/UtfModel.v
theories/UtfSpec.v
theories/UtfProofs.v
theories/TrieModel.v
theories/TrieSpec.v
theories/TrieProofs.v
theories/FlatTrieProofs.v
theories/DictionaryProofs.v
theories/SpellModel.v
theories/SpellSpec.v
theories/SpellProofs.v
theories/DecodeSpec.v
theories/DecodeProofs.v
theories/PropSpell.v
theories/IndexModel.v
theories/IndexSpec.v
theories/IndexProofs.v
theories/ViewClassProofs.v
theories/PropIndex.v
theories/FloatModel.v
theories/FloatSpec.v
theories/FloatProofs.v
theories/FloatProofs2.v
theories/RecogModel.v
theories/RecogSpec.v
theories/RankProofs.v
theories/RecogProofs.v
theories/RecogProofs2.v
theories/RecogWitness.v
theories/PropRecog.v
theories/GlyphsModel.v
theories/GlyphsSpec.v
theories/GlyphsProofs.v
theories/GlyphsProofs2.v
theories/GlyphsProofs3.v
theories/GlyphsProofs4.v
theories/SearchSpec.v
theories/SearchProofs.v
theories/GlyphFileSpec.v
theories/GlyphFileProofs.v
theories/SearchProofs2.v
theories/PropGlyphs.v
theories/FilterModel.v
theories/FilterSpec.v
theories/FilterProofs.v
theories/LinesSpec.v
theories/LinesProofs.v
theories/LinesProofs2.v
theories/PropFilter.v
theories/ExtractModel.v
theories/ExtractSpec.v
theories/ExtractProofs.v
theories/PropExtract.v
theories/AssembleModel.v
theories/AssembleSpec.v
theories/AssembleProofs.v
theories/PropAssemble.v
theories/ReplaceModel.v
theories/ReplaceSpec.v
theories/ReplaceProofs.v
theories/PropReplace.v
theories/NormModel.v
theories/NormSpec.v
theories/NormProofs.v
theories/PropNorm.v
theories/UtilModel.v
theories/UtilSpec.v
theories/UtilProofs.v
theories/PropUtil.v
theories/LearnModel.v
theories/LearnSpec.v
theories/LearnProofs.v
theories/LearnProofs2.v
theories/DecodeProofs2.v
theories/LearnProofs3.v
theories/LearnProofs4.v
theories/PropLearn.v
theories/RefuseSpec.v
theories/RefuseProofs.v
theories/PropRefuse.v
theories/PipelineModel.v
theories/PipelineSpec.v
theories/PipelineProofs.v
theories/PipelineProofs2.v
theories/PipelineProofs3.v
theories/PipelineProofs4.v
theories/PipelineProofs5.v
theories/PropPipeline.v
theories/ReportModel.v
theories/ReportSpec.v
theories/ReportProofs.v
theories/PropReport.v
theories/ReadSpec.v
theories/ReadProofs.v
theories/ReadingSpec.v
theories/ReadingProofs.v
theories/ReadingProofs2.v
theories/PropRead.v
theories/Ocr6Model.v
theories/Ocr6Spec.v
theories/Ocr6Proofs.v
theories/Ocr6Proofs2.v
theories/OcrProofs.v
theories/Ocr6Proofs3.v
theories/Ocr6Proofs4.v
theories/Ocr6Proofs5.v
theories/Ocr8Model.v
theories/Ocr8Spec.v
theories/Ocr8Proofs.v
theories/Ocr8Proofs2.v
theories/Ocr8Proofs3.v
theories/Ocr8Outcome.v
theories/Ocr8Proofs4.v
theories/OcrOutcome.v
theories/OcrOutcome2.v
theories/PropOcr6.v
theories/PropOcr8.v
theories/ShowModel.v
theories/ShowSpec.v
theories/ShowProofs.v
theories/PropShow.v
theories/NumberModel.v
theories/NumberSpec.v
theories/NumberProofs.v
theories/PropNumber.v
theories/AssertModel.v
theories/AssertSpec.v
theories/AssertProofs.v
theories/AssertModel2.v
theories/AssertProofs2.v
theories/PropAssert.v
theories/MiscModel.v
theories/MiscSpec.v
theories/MiscProofs.v
theories/PropMisc.v
theories/FormatModel.v
theories/FormatSpec.v
theories/FormatProofs.v
theories/PrintModel.v
theories/PrintSpec.v
theories/LoadProofs.v
theories/PrintProofs.v
theories/PrintProofs2.v
theories/PropPrint.v
theories/PropFormat.v
theories/OcrOutModel.v
theories/OcrOutSpec.v
theories/OcrOutProofs.v
theories/OcrOutProofs2.v
theories/OcrOutProofs3.v
theories/PropOcrOut.v
theories/ProgModel.v
theories/ProgSpec.v
theories/ProgProofs.v
theories/PropProg.v
theories/GlyphTextSpec.v
theories/GlyphTextProofs.v
theories/PropGlyphText.v
theories/TableTextSpec.v
theories/TableTextProofs.v
theories/PropTableText.v
theories/ChainSpec.v
theories/ChainProofs.v
theories/PropChain.v
theories/Conformance.v
theories/Golden.v
theories/DefsModel.v
theories/DefsSpec.v
theories/DefsProofs.v
theories/PropDefs.v
theories/PictureTextSpec.v
theories/PictureTextProofs.v
theories/PropPictureText.v
theories/RulesTextSpec.v
theories/RulesTextProofs.v
theories/EndsSpec.v
theories/EndsProofs.v
theories/EndsProofs2.v
theories/EndsProofs3.v
theories/EndsProofs4.v
theories/EndsProofs5.v
theories/EndsProofs6.v
theories/EndsProofs7.v
theories/EndsProofs8.v
theories/PropEnds.v
theories/SameSpec.v
theories/SameProofs.v
theories/SameProofs2.v
theories/SameProofs3.v
theories/PropSame.v
theories/PropTrain.v
theories/Same6Spec.v
theories/SameProofs4.v
theories/SameProofs5.v
theories/SameProofs6.v
theories/PropSame6.v
theories/Same8Spec.v
theories/SameProofs7.v
theories/PropSame8.v
theories/Chain6Spec.v
theories/Chain6Proofs.v
theories/PropChain6.v
theories/RangeModel.v
theories/RangeSpec.v
theories/RangeProofs.v
theories/PropRange.v
theories/TurnSpec.v
theories/TurnProofs.v
theories/PropTurn.v
theories/MarginSpec.v
theories/MarginProofs.v
theories/MarginProofs2.v
theories/PropMargin.v
theories/ComposeSpec.v
theories/ComposeProofs.v
theories/ComposeProofs2.v
theories/ComposeProofs3.v
theories/PropCompose.v
theories/TeachSpec.v
theories/TeachProofs.v
theories/TeachProofs2.v
theories/PropTeach.v
theories/MoreSpec.v
theories/MoreProofs.v
theories/MoreProofs2.v
theories/PropMore.v
theories/ScaleSpec.v
theories/ScaleProofs.v
theories/ScaleProofs2.v
theories/ScaleProofs3.v
theories/ScaleProofs4.v
theories/PropScale.v
theories/CopySpec.v
theories/CopyProofs.v
theories/PropCopy.v
theories/MirrorSpec.v
theories/MirrorProofs.v
theories/PropMirror.v
theories/MoreWordsSpec.v
theories/MoreWordsProofs.v
theories/MoreWordsProofs2.v
theories/PropMoreWords.v
theories/LumSpec.v
theories/LumProofs.v
theories/PropLum.v
theories/MoreLinesSpec.v
theories/MoreLinesProofs.v
theories/PropMoreLines.v
theories/WordSetSpec.v
theories/WordSetProofs.v
theories/PropWordSet.v
theories/FeatSetSpec.v
theories/FeatSetProofs.v
theories/PropFeatSet.v
theories/TaughtSpec.v
theories/TaughtProofs.v
theories/TaughtProofs2.v
theories/TaughtProofs3.v
theories/PropTaught.v
theories/StrangeSpec.v
theories/StrangeProofs.v
theories/StrangeProofs2.v
theories/PropStrange.v
