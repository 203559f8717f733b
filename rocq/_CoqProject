-Q theories Verif

theories/Text.v
theories/Utf8.v
theories/Json.v
theories/Base.v
theories/Lexer.v
theories/Syntax.v
theories/Parse.v
theories/Tree.v
theories/Interp.v
theories/Build.v
theories/Disk.v
theories/Cli.v
theories/Load.v
theories/Dev.v
theories/Js.v
theories/New.v
theories/Report.v
theories/Main.v
theories/SpecChars.v
theories/TextFacts.v
theories/CharFacts.v
theories/LexerFacts.v
theories/SpecTemplate.v
theories/SpecGrammar.v
theories/SpecLocation.v
theories/EscapeFacts.v
theories/CallFacts.v
theories/ParseFacts.v
theories/ParseInv.v
theories/ParseErr.v
theories/GrammarFacts.v
theories/SpecMain.v
theories/MainFacts.v
theories/SpecReport.v
theories/ReportFacts.v
theories/ParseLoc.v
theories/PropParse.v
theories/SpecMarkdown.v
theories/MarkdownFacts.v
theories/PropMarkdown.v
theories/SpecScope.v
theories/SpecPage.v
theories/InterpFacts.v
theories/ScopeFacts.v
theories/PropScope.v
theories/SpecRender.v
theories/RenderFacts.v
theories/SpecLoop.v
theories/SelectFacts.v
theories/SpecBlocks.v
theories/BlockFacts.v
theories/TextFnFacts.v
theories/Utf8Facts.v
theories/LoopFacts.v
theories/TotalFacts.v
theories/SpecUtf8.v
theories/Utf8Run.v
theories/PropRender.v
theories/SpecTree.v
theories/TreeFacts.v
theories/PathFacts.v
theories/BuildTotal.v
theories/BuilderFacts.v
theories/PropTree.v
theories/PropReads.v
theories/MergeFacts.v
theories/SpecDisk.v
theories/DiskFacts.v
theories/SaveFacts.v
theories/SpecProject.v
theories/SpecLoad.v
theories/ProjectFacts.v
theories/CliFacts.v
theories/AgainFacts.v
theories/PropDisk.v
theories/ProgramFacts.v
theories/LoadFacts.v
theories/PropCli.v
theories/PropAgain.v
theories/PropLoad.v
theories/SpecPlugins.v
theories/PluginFacts.v
theories/PropPlugins.v
theories/ViewFacts.v
theories/SpecLocal.v
theories/LocalFacts.v
theories/PropLocal.v
theories/SpecOrder.v
theories/OrderFacts.v
theories/PropOrder.v
theories/SpecDev.v
theories/DevFacts.v
theories/MarkerFacts.v
theories/PropDev.v
theories/SpecJs.v
theories/JsFacts.v
theories/PropJs.v
theories/SpecSite.v
theories/SpecReads.v
theories/SpecBlame.v
theories/SiteFacts.v
theories/SiteDisk.v
theories/SpecMeta.v
theories/MetaFacts.v
theories/PropMeta.v
theories/PropSite.v
theories/SpecNew.v
theories/NewFacts.v
theories/NewSite.v
theories/PropNew.v
theories/SpecBreak.v
theories/BreakFacts.v
theories/ReadsFacts.v
theories/BlameFacts.v
theories/PropGrammar.v
theories/PropMain.v
theories/PropReport.v
theories/SpecSound.v
theories/SoundFacts.v
theories/PropSound.v
theories/JsLoad.v
theories/SpecJsLoad.v
theories/JsLoadFacts.v
theories/PropJsLoad.v
theories/Shipped.v
theories/SpecShipped.v
theories/ShippedFacts.v
theories/PropShipped.v
theories/Serve.v
theories/SpecServe.v
theories/ServeFacts.v
theories/PropServe.v
theories/PropBlame.v
theories/SpecAlike.v
theories/AlikeFacts.v
theories/MoveFacts.v
theories/PropMove.v
theories/SpecStop.v
theories/StopFacts.v
theories/PropStop.v
theories/SpecNeeds.v
theories/NeedsFacts.v
theories/PropNeeds.v
theories/SpecRename.v
theories/RenameFacts.v
theories/PropRename.v
theories/SpecEncoded.v
theories/EncodedFacts.v
theories/PropEncoded.v
theories/SpecExact.v
theories/ExactFacts.v
theories/PropExact.v
theories/SpecCommand.v
theories/CommandFacts.v
theories/PropCommand.v
theories/SpecSwap.v
theories/SwapFacts.v
theories/SwapLaws.v
theories/PropSwap.v
theories/Server.v
theories/SpecServer.v
theories/ServerFacts.v
theories/PropServer.v
theories/SpecMode.v
theories/ModeFacts.v
theories/PropMode.v
theories/SpecPlace.v
theories/PlaceFacts.v
theories/PropPlace.v
theories/SpecRecover.v
theories/RecoverFacts.v
theories/PropRecover.v
theories/State.v
theories/StateCli.v
theories/SpecState.v
theories/StateFacts.v
theories/SpecSRender.v
theories/SRenderFacts.v
theories/StateCliFacts.v
theories/PropState.v
theories/PropStateCli.v
theories/Conform.v
theories/SpecRegress.v
theories/RegressFacts.v
theories/PropRegress.v
theories/Live.v
theories/SpecLive.v
theories/LiveFacts.v
theories/PropLive.v
theories/SpecSettings.v
theories/SettingsFacts.v
theories/PropSettings.v
theories/SpecCopies.v
theories/CopyFacts.v
theories/PropCopies.v
theories/SpecLines.v
theories/LineFacts.v
theories/LineRun.v
theories/PropLines.v
theories/SpecSections.v
theories/SectionFacts.v
theories/PropSections.v
theories/SpecHistory.v
theories/HistoryFacts.v
theories/PropHistory.v
theories/ShapeFacts.v
theories/SpecSays.v
theories/SaysFacts.v
theories/AlterFacts.v
theories/SpecLayout.v
theories/LayoutFacts.v
theories/LayoutCmd.v
theories/PropLayout.v
theories/PropSays.v
theories/SpecKeys.v
theories/KeysFacts.v
theories/KeysCmd.v
theories/PropKeys.v
theories/SpecFields.v
theories/FieldsFacts.v
theories/FieldsCmd.v
theories/PropFields.v
theories/SpecShare.v
theories/SpecRelabel.v
theories/ShareFacts.v
theories/RelabelFacts.v
theories/PropShare.v
theories/PropRelabel.v
theories/SpecUnused.v
theories/UnusedFacts.v
theories/PropUnused.v
theories/SpecRewrite.v
theories/RewriteFacts.v
theories/PropRewrite.v
theories/RenameCmd.v
theories/PropRenameCmd.v
theories/SpecJoinIf.v
theories/JoinIfFacts.v
theories/PropJoinIf.v
theories/SpecMoveImport.v
theories/MoveImport.v
theories/PropMoveImport.v
