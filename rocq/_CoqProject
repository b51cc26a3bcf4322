-Q theories Verif
theories/Py.v
theories/PyFacts.v
theories/UtilModel.v
theories/UtilSpec.v
theories/UtilProofs.v
theories/UtilProps.v
theories/BoardModel.v
theories/BoardSpec.v
theories/BoardProofs.v
theories/BoardProps.v
theories/MoveModel.v
theories/MoveSpec.v
theories/PoolProofs.v
theories/MoveProofs.v
theories/GuessProofs.v
theories/PickupProofs.v
theories/MoveProps.v
theories/DbModel.v
theories/DbSpec.v
theories/DbProofs.v
theories/DbProps.v
theories/GnuModel.v
theories/GnuSpec.v
theories/GnuProofs.v
theories/GnuMatchProofs.v
theories/GnuProps.v
theories/XgidModel.v
theories/XgidSpec.v
theories/XgidProofs.v
theories/XgidProps.v
theories/FibsModel.v
theories/FibsSpec.v
theories/FibsProofs.v
theories/FibsProps.v
theories/BearoffModel.v
theories/BearoffSpec.v
theories/BearoffProofs.v
theories/BearoffCount.v
theories/BearoffProps.v
theories/Dict.v
theories/DictFacts.v
theories/StatModel.v
theories/StatSpec.v
theories/StatProofs.v
theories/StatProps.v
theories/Re.v
theories/ReFacts.v
theories/SnowieModel.v
theories/SnowieSpec.v
theories/SnowieProofs.v
theories/SnowieProps.v
theories/ReInter.v
theories/CookieModel.v
theories/CookieSpec.v
theories/CookieTables.v
theories/CookieProofs.v
theories/CookieProps.v
theories/SessionModel.v
theories/SessionSpec.v
theories/SessionProofs.v
theories/SessionProps.v
theories/HtmlModel.v
theories/HtmlSpec.v
theories/HtmlProofs.v
theories/HtmlProps.v
theories/TreeModel.v
theories/TreeSpec.v
theories/TreeProofs.v
theories/TreeVisit.v
theories/TreeHtml.v
theories/TreeText.v
theories/TreeProps.v
theories/Rx.v
theories/RxFacts.v
theories/WikiModel.v
theories/WikiSpec.v
theories/WikiInv.v
theories/WikiMatch.v
theories/WikiWalk.v
theories/WikiText.v
theories/WikiProofs.v
theories/WikiAttrs.v
theories/WikiProps.v
theories/ThemeData.v
theories/ImageModel.v
theories/ImageSpec.v
theories/ImageCss.v
theories/ImageTree.v
theories/ImageBoard.v
theories/ImageReach.v
theories/ImageMag.v
theories/ImageHeap.v
theories/ImageSheet.v
theories/ImageProofs.v
theories/ImageProps.v
theories/ImageSign.v
theories/ImageRound.v
theories/WikiFrame.v
theories/WikiShift.v
theories/WikiPara.v
theories/TreeStream.v
theories/TocModel.v
theories/TocSpec.v
theories/TocProofs.v
theories/TocProps.v
theories/ThemeModel.v
theories/ThemePath.v
theories/ThemeDraw.v
theories/ThemeScale.v
theories/ThemeTree.v
theories/ThemeSpec.v
theories/ThemeAudit.v
theories/ThemeSound.v
theories/ThemeCheck.v
theories/ThemeProofs.v
theories/ThemeProps.v
theories/AttrSpec.v
theories/AttrProofs.v
theories/AttrProps.v
theories/PilModel.v
theories/PilSpec.v
theories/PilProofs.v
theories/PilProps.v
theories/DrawnSpec.v
theories/DrawnTree.v
theories/DrawnProofs.v
theories/DrawnProps.v
theories/XmlModel.v
theories/XmlSpec.v
theories/XmlProofs.v
theories/XmlTree.v
theories/XmlStyle.v
theories/XmlDtd.v
theories/XmlFinal.v
theories/XmlProps.v
theories/PlaceSpec.v
theories/PlaceProofs.v
theories/PlaceProps.v
theories/GameModel.v
theories/GameSpec.v
theories/GameProofs.v
theories/GameCodes.v
theories/GameProps.v
theories/TraceModel.v
theories/TraceSpec.v
theories/TraceProofs.v
theories/TraceProps.v
theories/WikiToc.v
theories/WikiPage.v
theories/WikiPageProps.v
theories/WikiAmp.v
theories/WikiLink.v
theories/WikiLinkProps.v
theories/WellSpec.v
theories/WikiKeep.v
theories/WikiWell.v
theories/WikiWellProps.v
theories/CmpModel.v
theories/CmpSpec.v
theories/CmpProofs.v
theories/CmpProps.v
theories/SheetSpec.v
theories/SheetProofs.v
theories/SheetProps.v
theories/AnalysisModel.v
theories/AnalysisSpec.v
theories/AnalysisProofs.v
theories/AnalysisPage.v
theories/AnalysisFit.v
theories/AnalysisProps.v
theories/AnalysisFitProps.v
theories/ShowSpec.v
theories/ShowRead.v
theories/ShowMatch.v
theories/ShowProofs.v
theories/ShowPage.v
theories/ShowWhole.v
theories/ShowPlain.v
theories/ShowProps.v
theories/TalkSpec.v
theories/TalkProofs.v
theories/TalkProps.v
theories/PickSpec.v
theories/PickProofs.v
theories/PickProps.v
theories/EnterProofs.v
theories/EnterProps.v
theories/FuzzModel.v
theories/FuzzSpec.v
theories/FuzzProofs.v
theories/FuzzProps.v
theories/ListSpec.v
theories/ListMatch.v
theories/ListPage.v
theories/ListProps.v
theories/QuoteSpec.v
theories/QuoteMatch.v
theories/QuotePage.v
theories/QuoteProps.v
theories/TableSpec.v
theories/TableMatch.v
theories/TablePage.v
theories/TableProps.v
theories/DefSpec.v
theories/DefMatch.v
theories/DefPage.v
theories/DefProps.v
theories/BlockSpec.v
theories/BlockMatch.v
theories/BlockVeil.v
theories/BlockPage.v
theories/BlockProps.v
theories/InsideSpec.v
theories/InsideAudit.v
theories/InsideProofs.v
theories/InsideProps.v
theories/BearoffParam.v
theories/MacroSpec.v
theories/MacroProofs.v
theories/MacroProps.v
theories/OptionProofs.v
theories/RegistryModel.v
theories/RegistrySpec.v
theories/RegistryProofs.v
theories/RegistryProps.v
theories/OptionMore.v
theories/GnuForeignSpec.v
theories/GnuForeign.v
theories/GnuForeignProps.v
theories/NamedSpec.v
theories/NamedPage.v
theories/NamedProps.v
theories/ConvertSpec.v
theories/ConvertProofs.v
theories/ConvertProps.v
theories/ViewSpec.v
theories/ViewProofs.v
theories/ViewProps.v
theories/FibsIdSpec.v
theories/FibsIdProofs.v
theories/FibsIdProps.v
theories/SaveSpec.v
theories/SaveProofs.v
theories/SaveProps.v
theories/DecodedSpec.v
theories/DecodedProofs.v
theories/DecodedProps.v
theories/SaveGame.v
theories/DrawSpec.v
theories/DrawProofs.v
theories/DrawProps.v
theories/ReceivedSpec.v
theories/ReceivedProofs.v
theories/ReceivedProps.v
