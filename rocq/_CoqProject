-Q theories Verif
theories/GoBase.v
theories/BufFacts.v
theories/Strconv.v
theories/StrconvFacts.v
theories/CanModel.v
theories/CanusbModel.v
theories/CanusbSpec.v
theories/CanusbRegistry.v
theories/CanusbParse.v
theories/CanusbFast.v
theories/CanusbRead.v
theories/CanusbSend.v
theories/CanusbProps.v
theories/ActisenseModel.v
theories/ActisenseSpec.v
theories/ActisenseProofs.v
theories/ActisenseProps.v
theories/NmeaTypes.v
theories/LookupTable.v
theories/PgnTable.v
theories/NmeaModel.v
theories/NmeaFloat.v
theories/NmeaSpec.v
theories/NmeaExtract.v
theories/NmeaProps1.v
theories/NmeaParse.v
theories/NmeaTerm.v
theories/NmeaSafe.v
theories/NmeaSingle.v
theories/NmeaProps2.v
theories/NmeaMeaning.v
theories/NmeaProps3.v
theories/CrashSpec.v
theories/NmeaCrash.v
theories/NmeaProps4.v
theories/SignalkModel.v
theories/MapTable.v
theories/SignalkSpec.v
theories/SignalkTime.v
theories/SignalkText.v
theories/SignalkDelta.v
theories/SignalkSplit.v
theories/SignalkProps.v
theories/SignalkProps2.v
theories/HubModel.v
theories/HubSpec.v
theories/HubProps.v
theories/MainModel.v
theories/MainSpec.v
theories/MainProps.v
theories/PipelineModel.v
theories/PipelineSpec.v
theories/PipelineProofs.v
theories/PipelineProps.v
theories/PipelineLive.v
theories/PipelineBoot.v
theories/PipelineExamples.v
theories/ApiModel.v
theories/ApiSpec.v
theories/ApiProps.v
theories/ConfigModel.v
theories/ConfigSpec.v
theories/ConfigProps.v
theories/SaveProps.v
theories/PackagesModel.v
theories/PackagesSpec.v
theories/PackagesProps.v
theories/FormModel.v
theories/FormSpec.v
theories/FormProps.v
theories/LogModel.v
theories/LogSpec.v
theories/LogProps.v
theories/DeathSpec.v
theories/DeathProps.v
theories/DeathKill.v
theories/DeathOrder.v
theories/DeathExamples.v
theories/FtoaModel.v
theories/JsonSpec.v
theories/FtoaFacts.v
theories/JsonModel.v
theories/JsonFacts.v
theories/JsonLayout.v
theories/JsonDecoded.v
theories/JsonUnique.v
theories/JsonProps.v
theories/JsonHtml.v
theories/UnjsonModel.v
theories/UnjsonSpec.v
theories/UnjsonLex.v
theories/UnjsonParse.v
theories/UnjsonFloat.v
theories/UnjsonDecode.v
theories/UnjsonTyped.v
theories/UnjsonProps.v
theories/UnjsonProps2.v
theories/InstallModel.v
theories/InstallProps.v
theories/JsonForm.v
theories/ScannerModel.v
theories/ScannerProps.v
theories/FlagsModel.v
theories/FlagsSpec.v
theories/FlagsNum.v
theories/FlagsProps.v
theories/PgnTexts.v
theories/DetailsModel.v
theories/DetailsSpec.v
theories/DetailsProps.v
theories/PagesText.v
theories/HtmlModel.v
theories/HtmlSpec.v
theories/HtmlProps.v
theories/HtmlSettings.v
theories/MapText.v
theories/XmlModel.v
theories/XmlSpec.v
theories/XmlLex.v
theories/XmlParse.v
theories/XmlTree.v
theories/XmlDecode.v
theories/XmlProps.v
theories/TomlModel.v
theories/TomlSpec.v
theories/TomlLex.v
theories/TomlTree.v
theories/TomlDecode.v
theories/TomlProps.v
theories/TomlTwice.v
theories/TomlSave.v
theories/TomlRestart.v
theories/XmlBytes.v
theories/WireSpec.v
theories/WireFast.v
theories/WireAct.v
theories/WireProps.v
theories/EndToEnd.v
theories/StartModel.v
theories/StartSpec.v
theories/StartProps.v
theories/PkgDiskModel.v
theories/PkgDiskSpec.v
theories/PkgDiskProps.v
theories/YarnModel.v
theories/YarnSpec.v
theories/YarnProps.v
theories/AppsModel.v
theories/AppsSpec.v
theories/AppsProps.v
theories/StatsPageModel.v
theories/StatsPageSpec.v
theories/StatsPageProps.v
theories/XmlOutModel.v
theories/XmlOutSpec.v
theories/XmlOutProps.v
theories/FmtvModel.v
theories/FmtvSpec.v
theories/FmtvProps.v
theories/LogTextModel.v
theories/LogTextSpec.v
theories/LogTextProps.v
theories/FtoaShortSpec.v
theories/FtoaShort.v
