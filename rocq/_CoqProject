-Q theories Verif
theories/Base.v
theories/NumStr.v
theories/NumStrSpec.v
theories/BaseFacts.v
theories/NumStrFacts.v
theories/PropNumStr.v
theories/Xml.v
theories/Ast.v
theories/XmlWrite.v
theories/XmlParse.v
theories/RoundTripSpec.v
theories/KnotFacts.v
theories/XmlSpec.v
theories/XmlSim.v
theories/RoundTripLib.v
theories/RoundTripFacts.v
theories/LossFacts.v
theories/Samples.v
theories/PropRoundTrip.v
theories/PropXml.v
theories/PanicFacts.v
theories/GrammarSpec.v
theories/GrammarFacts.v
theories/ReadSpec.v
theories/ReadFacts.v
theories/PropRead.v
theories/Regex.v
theories/NumText.v
theories/RegexFacts.v
theories/NumTextSpec.v
theories/NumTextFacts.v
theories/HeadingFacts.v
theories/LabelFacts.v
theories/ItemFacts.v
theories/ItemLabelFacts.v
theories/SplitFacts.v
theories/TextParse.v
theories/CodecSample.v
theories/PropNumText.v
theories/TextSpec.v
theories/TextFacts.v
theories/OutlineFacts.v
theories/TextLawFacts.v
theories/LineFacts.v
theories/ClassifyFacts.v
theories/PropText.v
theories/PropLine.v
theories/Utils.v
theories/UtilsSpec.v
theories/UtilsFacts.v
theories/TocRowSpec.v
theories/TocRowFacts.v
theories/PropUtils.v
theories/PlainSpec.v
theories/PlainCheck.v
theories/StableFacts.v
theories/PartsFacts.v
theories/KeptFacts.v
theories/PropStable.v
theories/ReadingSpec.v
theories/ReadingLib.v
theories/ReadingFacts.v
theories/ReadingRules1.v
theories/ReadingRules2.v
theories/ReadingRules3.v
theories/ReadingRules4.v
theories/ReadingRules5.v
theories/ReadingRules6.v
theories/ReadingRules7.v
theories/ReadingExact.v
theories/PropReading.v
theories/DocTextSpec.v
theories/DocTextFacts.v
theories/PropDocText.v
theories/NumberSpec.v
theories/NumberFacts.v
theories/PropNumber.v
theories/ItemSpec.v
theories/ItemReadFacts.v
theories/PropItem.v
theories/TidySpec.v
theories/TidyFacts.v
theories/Api.v
theories/ApiSpec.v
theories/Utf8Facts.v
theories/ApiFacts.v
theories/SampleXml.v
theories/SampleFacts.v
theories/NamedFacts.v
theories/PropApi.v
theories/NeatSpec.v
theories/NeatFacts.v
theories/PropNeat.v
theories/Access.v
theories/AccessSpec.v
theories/PropAccess.v
theories/ErrorSpec.v
theories/ErrorFacts.v
theories/ErrorFacts2.v
theories/PropError.v
theories/StoreSpec.v
theories/BodyFacts.v
theories/StoreNumFacts.v
theories/StoreFacts.v
theories/PropStore.v
theories/ErrorText.v
theories/ErrorTextSpec.v
theories/ErrorTextFacts.v
theories/PropErrorText.v
theories/TextBuild.v
theories/TextBuildSpec.v
theories/TextBuildFacts.v
theories/PropTextBuild.v
theories/ShapeSpec.v
theories/ShapeFacts.v
theories/ShapeLines.v
theories/ShapeText.v
theories/ListingFacts.v
theories/PropShape.v
theories/ArticleText.v
theories/PrintSpec.v
theories/PrintFacts.v
theories/PropPrint.v
theories/PlainListSpec.v
theories/PlainListFacts.v
theories/PropPlainList.v
theories/EndSpec.v
theories/EndFacts.v
theories/EndFacts2.v
theories/EndFacts3.v
theories/PropEnd.v
theories/WrittenSpec.v
theories/WrittenFacts.v
theories/WrittenFacts2.v
theories/WrittenFacts3.v
theories/PropWritten.v
theories/IndexSpec.v
theories/IndexFacts.v
theories/PropIndex.v
theories/Serde.v
theories/SerdeSpec.v
theories/SerdeLib.v
theories/SerdeFacts.v
theories/SerdeFacts2.v
theories/SerdeTable.v
theories/PropSerde.v
theories/DocListSpec.v
theories/DocListFacts.v
theories/PropDocList.v
theories/Unused.v
theories/UnusedSpec.v
theories/UnusedFacts.v
theories/PropUnused.v
theories/CauseSpec.v
theories/CauseFacts.v
theories/PropCause.v
theories/OrderSpec.v
theories/OrderFacts.v
theories/OrderFacts2.v
theories/PropOrder.v
theories/LayoutSpec.v
theories/LayoutFacts.v
theories/PropLayout.v
theories/Derived.v
theories/DerivedLib.v
theories/DerivedEq.v
theories/DerivedHash.v
theories/HashSpec.v
theories/HashFacts.v
theories/PropDerived.v
theories/LocalSpec.v
theories/LocalFacts.v
theories/LocalPlace.v
theories/LocalList.v
theories/LocalTocSpec.v
theories/LocalToc.v
theories/PropLocal.v
theories/CutSpec.v
theories/CutFacts.v
theories/PropCut.v
theories/MendSpec.v
theories/MendFacts.v
theories/MendSame.v
theories/LegibleFacts.v
theories/PropMend.v
theories/MendText.v
theories/PropMendText.v
theories/Debug.v
theories/DebugSpec.v
theories/DebugFacts.v
theories/DebugFacts2.v
theories/PropDebug.v
theories/RepoTests.v
theories/Stdout.v
theories/StdoutSpec.v
theories/StdoutFacts.v
theories/PropStdout.v
theories/SameLinesSpec.v
theories/SameLinesFacts.v
theories/SameTextFacts.v
theories/PropSame.v
theories/DebugLine.v
theories/PropDebugLine.v
theories/MatchSpec.v
theories/MatchFacts.v
theories/PropMatch.v
theories/Pattern.v
theories/PatternSpec.v
theories/PatternFacts.v
theories/PatternReadFacts.v
theories/PropPattern.v
theories/DebugLayoutSpec.v
theories/DebugLayoutFacts.v
theories/DebugJoinSpec.v
theories/DebugJoinFacts.v
theories/PropDebugLayout.v
