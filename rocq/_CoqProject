-Q theories Verif
theories/Base.v
theories/Regex.v
theories/Entities.v
theories/Common.v
theories/NormRef.v
theories/Node.v
theories/Inlines.v
theories/Blocks.v
theories/Html.v
theories/Rst.v
theories/Dump.v
theories/Main.v
theories/Spec.v
theories/SpecTree.v
theories/RegexFacts.v
theories/StrFacts.v
theories/CommonFacts.v
theories/LabelFacts.v
theories/TreeFacts.v
theories/HtmlFacts.v
theories/RenderFacts.v
theories/PropsRender.v
theories/PropsStr.v
theories/StrProp.v
theories/EmphFacts.v
theories/InlineFacts.v
theories/InlineInv.v
theories/RegexLang.v
theories/BlockFacts.v
theories/BlockInv.v
theories/BlockSteps.v
theories/BlockRun.v
theories/ParseFacts.v
theories/PropsParse.v
theories/Sim.v
theories/SpecSame.v
theories/SimFacts.v
theories/LineFacts.v
theories/SameHtml.v
theories/PropsSame.v
theories/DocFacts.v
theories/TextFacts.v
theories/WordFacts.v
theories/PropsText.v
theories/EmphDoc.v
theories/PropsInline.v
theories/SmartFacts.v
theories/BracketFacts.v
theories/RefFacts.v
theories/PropsGaps.v
theories/NodeHeap.v
theories/SpecHeap.v
theories/HeapFacts.v
theories/HeapWalk.v
theories/NormFacts.v
theories/NormHtml.v
theories/HeapBuild.v
theories/PropsNode.v
theories/SpecLines.v
theories/ColumnFacts.v
theories/ColumnRun.v
theories/RuleFacts.v
theories/LeafFacts.v
theories/MarkFacts.v
theories/FlankFacts.v
theories/HeadFacts.v
theories/PropsBlock.v
theories/FenceFacts.v
theories/CodeHtml.v
theories/IndentFacts.v
theories/PropsCode.v
theories/AfterFacts.v
theories/BlankFacts.v
theories/TagFacts.v
theories/HtmlBlockFacts.v
theories/CodeThen.v
theories/RefMapFacts.v
theories/SpecRefs.v
theories/RefLine.v
theories/RefInline.v
theories/RefDoc.v
theories/PropsRefs.v
theories/AngleFacts.v
theories/LinkNest.v
theories/SpecParas.v
theories/ParaFacts.v
theories/ParaInline.v
theories/ParaDoc.v
theories/PropsParas.v
theories/SpecLists.v
theories/ListLine.v
theories/ListDoc.v
theories/ListHtml.v
theories/PropsLists.v
theories/SpecPieces.v
theories/PieceRegex.v
theories/PieceMatch.v
theories/PieceLink.v
theories/PieceFacts.v
theories/PropsPieces.v
theories/SpecNest.v
theories/NestFacts.v
theories/PropsNest.v
theories/EmptyLine.v
theories/SpecItems.v
theories/ItemDoc.v
theories/ItemHtml.v
theories/PropsItems.v
theories/JoinLine.v
theories/JoinClose.v
theories/JoinStep.v
theories/JoinList.v
theories/JoinFacts.v
theories/SpecBreak.v
theories/SpecJoin.v
theories/JoinBlocks.v
theories/JoinDoc.v
theories/JoinBlank.v
theories/PropsJoin.v
theories/SpecDoc.v
theories/GramFacts.v
theories/PropsDoc.v
theories/SpecSmart.v
theories/QuoteFacts.v
theories/PropsSmart.v
theories/SpecMany.v
theories/ManyItems.v
theories/ManyHtml.v
theories/PropsMany.v
theories/Cli.v
theories/SpecCli.v
theories/CliFacts.v
theories/PropsCli.v
theories/LazyInv.v
theories/LazyFacts.v
theories/SpecLazy.v
theories/LazySim.v
theories/PropsLazy.v
theories/SpecWeak.v
theories/WeakFacts.v
theories/WeakSim.v
theories/WeakStart.v
theories/PropsWeak.v
theories/BreakLine.v
theories/BreakForm.v
theories/BreakFacts.v
theories/PropsBreak.v
theories/BreakConv.v
theories/BreakExact.v
theories/PropsExact.v
theories/ParaHolds.v
theories/BreakUnder.v
theories/BreakAny.v
theories/UnderHtml.v
theories/PropsUnder.v
theories/SpecTests.v
