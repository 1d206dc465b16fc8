-Q theories Verif
theories/Base.v
theories/OMap.v
theories/Models.v
theories/Tracer.v
theories/TraceSpec.v
theories/TraceIndex.v
theories/TraceFacts.v
theories/TraceCor.v
theories/MetaSpec.v
theories/LinkFacts.v
theories/PropsLink.v
theories/TraceMeta.v
theories/PropsMeta.v
theories/TraceExamples.v
theories/PropsTrace.v
theories/Aggregator.v
theories/AggSpec.v
theories/AggFacts.v
theories/PropsAgg.v
theories/Unicode.v
theories/Regex.v
theories/MdLex.v
theories/MdSyntax.v
theories/MdLexFacts.v
theories/Utf8.v
theories/ReadFacts.v
theories/MdParser.v
theories/MdSpec.v
theories/MdMachine.v
theories/MdRefine.v
theories/MdExact.v
theories/MdFacts.v
theories/MdLines.v
theories/MdCor.v
theories/MdCor2.v
theories/MdShift.v
theories/MdExamples.v
theories/PropsMd.v
theories/Paths.v
theories/PathFacts.v
theories/MonoParser.v
theories/MonoSpec.v
theories/MonoFacts.v
theories/PropsMono.v
theories/Location.v
theories/LocFacts.v
theories/LocRound.v
theories/PropsLoc.v
theories/RustParser.v
theories/RustSpec.v
theories/RustFacts.v
theories/RustCor.v
theories/PropsRust.v
theories/Sort.v
theories/Show.v
theories/GnuErr.v
theories/Tags.v
theories/Serialize.v
theories/JsonValues.v
theories/JsonValueFacts.v
theories/JsonSpec.v
theories/JsonRound.v
theories/MdFmt.v
theories/Formatters.v
theories/Controller.v
theories/FmtSpec.v
theories/FmtFacts.v
theories/CtlSpec.v
theories/CtlFacts.v
theories/JobFacts.v
theories/JobCor.v
theories/CtlCor.v
theories/EntrySpec.v
theories/FmtCor.v
theories/RoundSpec.v
theories/RoundFacts.v
theories/RoundTrip.v
theories/RoundCor.v
theories/Config.v
theories/ConfigSpec.v
theories/ConfigFacts.v
theories/CtlExamples.v
theories/PropsConfig.v
theories/PropsCtl.v
theories/PropsFmt.v
theories/PropsRound.v
theories/E2ESpec.v
theories/E2E.v
theories/PropsE2E.v
theories/SerdeJson.v
theories/JsonGrammar.v
theories/SerdeFacts.v
theories/JsonCor.v
theories/PropsJson.v
theories/DocFacts.v
theories/DocCtl.v
theories/DocJson.v
theories/PropsDoc.v
theories/Cli.v
theories/CliSpec.v
theories/CliFacts.v
theories/PropsCli.v
theories/Golden.v
theories/SelfTrace.v
theories/UnitTests.v
theories/RelabelSpec.v
theories/TraceExtend.v
theories/TraceRelabel.v
theories/PropsMeta2.v
theories/MdAttr.v
theories/TagRead.v
theories/TraceChain.v
theories/DocIds.v
theories/SortFree.v
theories/CacheFacts.v
theories/PropsDoc2.v
theories/LineEnds.v
theories/PropsText.v
theories/LineSpec.v
theories/LineFiles.v
theories/PropsLines.v
theories/MdRefs.v
theories/TraceOrder.v
theories/PropsMore.v
theories/GnuReadSpec.v
theories/GnuRead.v
theories/GnuReadMd.v
theories/MdInline.v
theories/PropsRead.v
theories/OutlineSpec.v
theories/Outline.v
theories/PropsOutline.v
theories/SameSpec.v
theories/Same.v
theories/SameCtlSpec.v
theories/SameCtl.v
theories/PropsSame.v
theories/AgreeSpec.v
theories/Agree.v
theories/PropsAgree.v
theories/Api.v
theories/ApiSpec.v
theories/ApiFacts.v
theories/PropsApi.v
theories/CodeSpec.v
theories/Code.v
theories/CodeMsg.v
theories/PropsCode.v
theories/ErrText.v
theories/PropsErr.v
theories/Anchors.v
theories/PropsAnchor.v
theories/Templates.v
theories/PropsTemplate.v
theories/Utf8Spec.v
theories/Utf8Facts.v
theories/PropsUtf8.v
theories/Where.v
theories/WhereFacts.v
theories/PropsWhere.v
theories/OrderSpec.v
theories/OrderFacts.v
theories/PropsOrder.v
