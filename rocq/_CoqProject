-Q theories Verif
theories/PyStr.v
theories/Values.v
theories/Schema.v
theories/Parse.v
theories/Serialize.v
theories/Date.v
theories/Markdown.v
theories/Samples.v
theories/Basics.v
theories/SpecParse.v
theories/ParseFacts.v
theories/ParseFacts2.v
theories/ParseFacts3.v
theories/ParseFacts4.v
theories/ParseFacts5.v
theories/SerFacts.v
theories/SerFacts2.v
theories/Properties_Parse.v
theories/Cache.v
theories/CacheFacts.v
theories/Properties_Cache.v
theories/StrFacts.v
theories/MarkFacts.v
theories/MdFacts.v
theories/Properties_Marks.v
theories/SpecMd.v
theories/MdFacts2.v
theories/LeafFacts.v
theories/Properties_Nodes.v
theories/Collapse.v
theories/LayoutFacts.v
theories/Properties_Layout.v
theories/SpecErr.v
theories/ErrFacts.v
theories/Properties_Errors.v
theories/SpecDate.v
theories/DateFacts.v
theories/DateFacts2.v
theories/Properties_Date.v
theories/SpecTable.v
theories/TableFacts.v
theories/Properties_Table.v
theories/SpecQuote.v
theories/QuoteFacts.v
theories/Properties_Quote.v
theories/SpecList.v
theories/ListFacts.v
theories/ListFacts2.v
theories/ListFacts3.v
theories/Properties_Lists.v
theories/SpecRender.v
theories/RenderFacts.v
theories/Properties_Render.v
theories/RenderFacts2.v
theories/SpecText.v
theories/TextFacts.v
theories/TextFacts2.v
theories/Properties_Text.v
theories/Heap.v
theories/SpecHeap.v
theories/HeapFacts.v
theories/DenFacts.v
theories/CopyFacts.v
theories/HeapRefine.v
theories/Properties_Heap.v
theories/GenCode.v
theories/SpecApi.v
theories/ApiFacts.v
theories/RepoApi.v
theories/Properties_Api.v
theories/RepoSchema.v
theories/SpecSchema.v
theories/SchemaFacts.v
theories/Properties_Schema.v
theories/Threads.v
theories/ThreadFacts.v
theories/Properties_Threads.v
theories/HeapDict.v
theories/HeapDictFacts.v
theories/HeapDictRefine.v
theories/Properties_HeapDict.v
theories/SpecInputText.v
theories/Properties_InputText.v
theories/Equal.v
theories/SpecEqual.v
theories/EqualFacts.v
theories/EqualFacts2.v
theories/EqualFacts3.v
theories/Properties_Equal.v
theories/Assumptions.v
theories/Analyze.v
theories/SpecAnalyze.v
theories/AnalyzeFacts.v
theories/AnalyzeFacts2.v
theories/AnalyzeFacts3.v
theories/AnalyzeFacts4.v
theories/AnalyzeFacts5.v
theories/RepoReport.v
theories/Properties_Analyze.v
theories/SpecCost.v
theories/CostFacts.v
theories/CostFacts2.v
theories/CostFacts3.v
theories/Properties_Cost.v
theories/GenNodes.v
theories/SpecGenNodes.v
theories/GenNodesFacts.v
theories/GenNodesFacts2.v
theories/GenNodesFacts3.v
theories/GenNodesFacts4.v
theories/GenNodesFacts5.v
theories/GenNodesFacts6.v
theories/GenNodesFacts7.v
theories/Properties_GenNodes.v
theories/Helper.v
theories/Properties_Helper.v
theories/Download.v
theories/Properties_Download.v
theories/SpecSubst.v
theories/SubstFacts.v
theories/Properties_Subst.v
theories/Properties_Errors2.v
theories/SpecRaise.v
theories/Properties_Raise.v
theories/SpecSize.v
theories/SizeFacts.v
theories/SizeFacts2.v
theories/SizeFacts3.v
theories/Properties_Size.v
theories/SpecJoin.v
theories/Properties_Join.v
theories/Calls.v
theories/SpecCalls.v
theories/CallsFacts.v
theories/Properties_Calls.v
theories/PySyntax.v
theories/PySem.v
theories/RepoCode.v
theories/CodeFacts.v
theories/CodeFacts2.v
theories/CodeFacts3.v
theories/CodeFacts4.v
theories/CodeFacts5.v
theories/CodeFacts6.v
theories/CodeFacts7.v
theories/CodeFacts8.v
theories/CodeFacts9.v
theories/CodeFacts10.v
theories/CodeFacts11.v
theories/CodeFacts12.v
theories/CodeFacts13.v
theories/CodeFacts14.v
theories/Properties_Code.v
theories/RepoCode2.v
theories/PySem2.v
theories/ReadFacts.v
theories/ReadFacts2.v
theories/ReadFacts3.v
theories/ReadFacts4.v
theories/ReadFacts5.v
theories/ReadFacts6.v
theories/ReadFacts7.v
theories/ReadFacts8.v
theories/WriteFacts.v
theories/WriteFacts2.v
theories/WriteFacts3.v
theories/ReadFacts9.v
theories/Properties_Code2.v
theories/Properties_Examples.v
theories/SpecSource.v
theories/Properties_Source.v
theories/SpecChars.v
theories/CharFacts.v
theories/CharFacts2.v
theories/CharFacts3.v
theories/Properties_Chars.v
theories/SpecReader.v
theories/ReaderFacts.v
theories/ReaderFacts2.v
theories/ReaderFacts3.v
theories/ReaderFacts4.v
theories/ReaderFacts5.v
theories/ReaderFacts6.v
theories/ReaderFacts7.v
theories/ReaderFacts8.v
theories/ReaderFacts9.v
theories/SpecSeen.v
theories/Properties_Reader.v
theories/Properties_Reader2.v
theories/Properties_Reader3.v
theories/ReaderFacts10.v
theories/SpecInline.v
theories/SpecLook.v
theories/InlineFacts1.v
theories/InlineFacts2.v
theories/InlineFacts3.v
theories/InlineFacts4.v
theories/InlineFacts5.v
theories/InlineFacts6.v
theories/InlineFacts7.v
theories/InlineFacts8.v
theories/Properties_Inline.v
theories/Properties_Inline2.v
theories/SpecSight.v
theories/SightFacts1.v
theories/SightFacts2.v
theories/Properties_Sight.v
theories/SpecCell.v
theories/CellFacts.v
theories/Properties_Cell.v
theories/Crawl.v
theories/SpecCrawl.v
theories/CrawlFacts1.v
theories/CrawlFacts2.v
theories/Properties_Crawl.v
theories/Cwd.v
theories/SpecCwd.v
theories/Properties_Cwd.v
theories/Properties_Reader4.v
theories/SpecFlow.v
theories/FlowFacts.v
theories/Properties_Flow.v
