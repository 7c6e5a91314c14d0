-Q theories Verif

theories/PyStr.v
theories/UniTab.v
theories/GNames.v
theories/Regex.v
theories/Rules.v
theories/Utils.v
theories/DocTree.v
theories/CreoleParser.v
theories/Res.v
theories/HtmlEmitter.v
theories/Entities.v
theories/HtmlTools.v
theories/HtmlTok.v
theories/HtmlParser.v
theories/MarkupTable.v
theories/UrlQuote.v
theories/HtmlBase.v
theories/Html2X.v
theories/Conf_tok.v
theories/Conf_url.v
theories/ConfHtml.v
theories/Conf_html.v
theories/ConfCreole.v
theories/Conf_creole.v
theories/RegexFacts.v
theories/ParserFacts.v
theories/PyStrFacts.v
theories/HtmlSpec.v
theories/Spec.v
theories/EmitterFacts.v
theories/UsedFacts.v
theories/TotalFacts.v
theories/Safety.v
theories/C2H.v
theories/TocFacts.v
theories/RegexRun.v
theories/Spec2.v
theories/HtmlToolsFacts.v
theories/TableFacts.v
theories/TreeFacts.v
theories/HtmlTokFacts.v
theories/Spec10.v
theories/TokRun.v
theories/Spec3.v
theories/EmitFacts.v
theories/RenameFacts.v
theories/RestFacts.v
theories/Spec50.v
theories/Spec4.v
theories/InlineRun.v
theories/UrlRun.v
theories/NumFacts.v
theories/NumeralFacts.v
theories/InlineParse.v
theories/Spec5.v
theories/BlockRun.v
theories/BlockHits.v
theories/TableHits.v
theories/BlockParse.v
theories/DocParse.v
theories/Spec6.v
theories/P4_Lemmas.v
theories/ImageSize.v
theories/P4_Documents.v
theories/P1_Lemmas.v
theories/P1_Creole2Html.v
theories/P2_Lemmas.v
theories/P2_HtmlTools.v
theories/P3_Lemmas.v
theories/P3_Html2X.v
theories/Spec7.v
theories/DictFacts.v
theories/P5_MacroArguments.v
theories/Cmdline.v
theories/Spec8.v
theories/CmdlineFacts.v
theories/P6_CommandLine.v
theories/SetupUtils.v
theories/SetupFacts.v
theories/Spec48.v
theories/LinesFacts.v
theories/P7_Readme.v
theories/RestTools.v
theories/Spec9.v
theories/RestToolsFacts.v
theories/P8_RestTools.v
theories/StripRun.v
theories/Spec11.v
theories/CleanRun.v
theories/CleanDoc.v
theories/Spec24.v
theories/CleanEmit.v
theories/MaskFacts.v
theories/UnknownFacts.v
theories/P9_Clean.v
theories/Spec12.v
theories/RoundTrip.v
theories/P10_RoundTrip.v
theories/Spec13.v
theories/TextOrder.v
theories/TextShown.v
theories/P11_TextOrder.v
theories/Spec14.v
theories/TextKept.v
theories/P12_TextKept.v
theories/Spec15.v
theories/NoRaise.v
theories/ParseTotal.v
theories/Spec51.v
theories/ClashFacts.v
theories/P13_NoRaise.v
theories/Spec16.v
theories/CleanGen.v
theories/TextileEmit.v
theories/P14_CleanTextile.v
theories/Spec17.v
theories/AddressFacts.v
theories/Spec18.v
theories/MarkdownEmit.v
theories/P15_CleanMarkdown.v
theories/Spec19.v
theories/RestEmit.v
theories/RestNames.v
theories/P16_CleanRest.v
theories/Spec20.v
theories/LiftDoc.v
theories/MacroHit.v
theories/MacroDoc.v
theories/ExampleMacros.v
theories/Spec21.v
theories/ExampleFacts.v
theories/P17_Macros.v
theories/Spec22.v
theories/TagHit.v
theories/BitParse.v
theories/PartDoc.v
theories/P18_Tags.v
theories/Spec23.v
theories/TocHtml.v
theories/TocDoc.v
theories/P19_Toc.v
theories/P20_Unknown.v
theories/Spec25.v
theories/RichTrip.v
theories/P21_RichTrip.v
theories/Spec26.v
theories/PreRun.v
theories/PreDoc.v
theories/P22_Pre.v
theories/Spec27.v
theories/CodeTrip.v
theories/P23_CodeTrip.v
theories/Spec28.v
theories/CodeFence.v
theories/P24_CodeFence.v
theories/Spec29.v
theories/TagTok.v
theories/Spelling.v
theories/SpellDoc.v
theories/SpellOut.v
theories/P25_Spelling.v
theories/Spec30.v
theories/Hidden.v
theories/HiddenOut.v
theories/P26_Hidden.v
theories/Spec31.v
theories/Soup.v
theories/AttrSoup.v
theories/P27_Attrs.v
theories/Spec32.v
theories/AttrMean.v
theories/P28_AttrMean.v
theories/Spec33.v
theories/TablePad.v
theories/TableDoc.v
theories/P29_Tables.v
theories/Spec34.v
theories/TableTrip.v
theories/P30_TableTrip.v
theories/Spec35.v
theories/TocTurns.v
theories/P31_TocTurns.v
theories/Spec36.v
theories/LayoutDoc.v
theories/LayoutTrip.v
theories/P32_Layout.v
theories/FreeTail.v
theories/P33_Below.v
theories/Publish.v
theories/Spec37.v
theories/PublishFacts.v
theories/P34_Publish.v
theories/Spec38.v
theories/PygFacts.v
theories/P35_Code.v
theories/Spec39.v
theories/FreeList.v
theories/P36_Lists.v
theories/Spec40.v
theories/Relaid.v
theories/P37_Layout.v
theories/Spec41.v
theories/Coded.v
theories/CodedOut.v
theories/P38_References.v
theories/Spec42.v
theories/Cut.v
theories/CutOut.v
theories/P39_CutOff.v
theories/Spec43.v
theories/Sheet.v
theories/P40_Copies.v
theories/CliArgs.v
theories/Spec44.v
theories/Programs.v
theories/P41_Programs.v
theories/Spec45.v
theories/MaskGen.v
theories/TextileMask.v
theories/MarkdownMask.v
theories/RestMask.v
theories/MaskModes.v
theories/OtherTags.v
theories/P42_UnknownTargets.v
theories/MacroObj.v
theories/Spec46.v
theories/MacroObjFacts.v
theories/StderrFacts.v
theories/P43_MacroKinds.v
theories/BlockRulesArg.v
theories/Spec47.v
theories/KindFacts.v
theories/RulesArgFacts.v
theories/P44_BlockRules.v
theories/Spec49.v
theories/MarksFacts.v
theories/P45_Marks.v
theories/SizeFacts.v
theories/SizeEmit.v
theories/SizePage.v
theories/P46_Size.v
theories/Spec52.v
theories/TableNest.v
theories/P47_NestedTables.v
theories/Spec53.v
theories/Spec54.v
theories/HeadFar.v
