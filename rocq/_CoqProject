-Q theories Verif
theories/Common.v
theories/IterModel.v
theories/IterSpec.v
theories/IterProofs.v
theories/IterSafety.v
theories/IterMain.v
theories/IterLex.v
theories/IterRefute.v
theories/P_Iter.v
theories/IterReadSpec.v
theories/IterReadProofs.v
theories/P_IterReads.v
theories/CommonFacts.v
theories/ProcModel.v
theories/ProcSpec.v
theories/ProcStopSpec.v
theories/ProcExactSpec.v
theories/ProcWalk.v
theories/ProcInv.v
theories/ProcMain.v
theories/ProcIndex.v
theories/ProcResult.v
theories/ProcSafe.v
theories/ProcMore.v
theories/ProcRefute.v
theories/ProcStop.v
theories/ProcStopSmall.v
theories/ProcExact.v
theories/P_Proc.v
theories/P_ProcExact.v
theories/IndexModel.v
theories/IndexSpec.v
theories/IndexFloat.v
theories/IndexVec.v
theories/IndexNum.v
theories/IndexWords.v
theories/IndexDist.v
theories/IndexExact.v
theories/IndexRef.v
theories/P_Index.v
theories/Regex.v
theories/RegexFacts.v
theories/TokModel.v
theories/TokSpec.v
theories/TokRe.v
theories/TokNoise.v
theories/TokWords.v
theories/TokWord.v
theories/TokLine.v
theories/P_Tok.v
theories/TokExactSpec.v
theories/TokExact.v
theories/P_TokExact.v
theories/Utf8Facts.v
theories/FilesModel.v
theories/FilesSpec.v
theories/FilesNames.v
theories/FilesSources.v
theories/P_Files.v
theories/ReportModel.v
theories/ReportSpec.v
theories/ReportProofs.v
theories/ReportMore.v
theories/ReportRender.v
theories/ReportLive.v
theories/P_Report.v
theories/HtmlModel.v
theories/HtmlSpec.v
theories/HtmlReportSpec.v
theories/HtmlProofs.v
theories/HtmlPage.v
theories/P_Html.v
theories/P_Live.v
theories/P_Complete.v
theories/P_Compare.v
theories/P_Noise.v
theories/P_Same.v
theories/P_Grown.v
theories/CliModel.v
theories/CliProofs.v
theories/P_Cli.v
theories/CrawlModel.v
theories/CrawlSpec.v
theories/CrawlProofs.v
theories/CrawlWalk.v
theories/CrawlPanic.v
theories/P_Crawl.v
theories/CacheModel.v
theories/CacheSpec.v
theories/CacheProofs.v
theories/CacheOrigin.v
theories/P_Cache.v
theories/SharedModel.v
theories/SharedSpec.v
theories/P_Shared.v
theories/LazyModel.v
theories/LazyIter.v
theories/LazyProofs.v
theories/P_Replay.v
theories/ZuulModel.v
theories/ZuulSpec.v
theories/ZuulProofs.v
theories/P_Zuul.v
theories/ZuulApiModel.v
theories/P_ZuulApi.v
theories/DatasetModel.v
theories/DatasetSpec.v
theories/DatasetProofs.v
theories/P_Dataset.v
theories/GenerateModel.v
theories/P_Generate.v
theories/StoreModel.v
theories/StoreSpec.v
theories/StoreProofs.v
theories/P_Store.v
theories/RenderModel.v
theories/P_Render.v
theories/ShownModel.v
theories/ShownSpec.v
theories/ShownProofs.v
theories/PageSpec.v
theories/PageProofs.v
theories/P_Shown.v
theories/P_Page.v
theories/SummarySpec.v
theories/P_Summary.v
theories/FormSpec.v
theories/P_Form.v
theories/DomSpec.v
theories/ClickModel.v
theories/ClickDoc.v
theories/P_Click.v
theories/MatModel.v
theories/MatSpec.v
theories/MatProofs.v
theories/P_Mat.v
theories/Conformance.v
theories/OutModel.v
theories/OutSpec.v
theories/P_Out.v
theories/SavedModel.v
theories/P_Saved.v
theories/MainModel.v
theories/MainSpec.v
theories/P_Main.v
theories/DiffSpec.v
theories/P_Diff.v
theories/P_GrownDiff.v
theories/P_SameDiff.v
theories/DiffPageSpec.v
theories/P_DiffPage.v
theories/RunsSpec.v
theories/P_Runs.v
theories/P_Named.v
theories/P_Hidden.v
theories/RunsPageSpec.v
theories/P_RunsPage.v
theories/P_Path.v
theories/BuildModel.v
theories/BuildSpec.v
theories/P_Build.v
theories/P_BuildUrl.v
theories/StackModel.v
theories/StackSpec.v
theories/P_Stack.v
