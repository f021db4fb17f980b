-Q theories Verif
theories/PyBase.v
theories/PyLemmas.v
theories/SplitLemmas.v
theories/F64.v
theories/ColorTab.v
theories/SpaceModel.v
theories/ColorModel.v
theories/AnsiRe.v
theories/SpanModel.v
theories/KeyTab.v
theories/CoreModel.v
theories/TimeoutModel.v
theories/EventModel.v
theories/ScreenModel.v
theories/TermModel.v
theories/Vt.v
theories/SpaceSpec.v
theories/SpaceProofs.v
theories/PropSpace.v
theories/EventSpec.v
theories/EventProofs.v
theories/PropEvent.v
theories/ColorSpec.v
theories/ColorProofs.v
theories/ColorProofs2.v
theories/BlendSpec.v
theories/FloatLemmas.v
theories/BlendProofs.v
theories/PropColor.v
theories/PropBlend.v
theories/PaletteSpec.v
theories/PaletteProofs.v
theories/PropPalette.v
theories/HueSpec.v
theories/HueProofs.v
theories/HueProofs2.v
theories/HueProofs3.v
theories/HueProofs4.v
theories/DecSpec.v
theories/DecProofs.v
theories/ColorProofs3.v
theories/PropHue.v
theories/PropAlpha.v
theories/GreySpec.v
theories/GreyProofs.v
theories/GreyProofs2.v
theories/GreyProofs3.v
theories/PropGrey.v
theories/KeySpec.v
theories/KeyProofs.v
theories/KeyProofs2.v
theories/KeyProofs3.v
theories/TimeoutSpec.v
theories/TimeoutProofs.v
theories/PropTimeout.v
theories/PropKey.v
theories/SpanSpec.v
theories/SpanProofs.v
theories/SpanProofs2.v
theories/ParseProofs.v
theories/ParseProofs2.v
theories/ParseProofs3.v
theories/ParseProofs4.v
theories/GroupProofs.v
theories/SpanProofs3.v
theories/PropSpan.v
theories/ScreenSpec.v
theories/ScreenProofs.v
theories/ScreenProofs2.v
theories/ScreenProofs3.v
theories/ScreenProofs4.v
theories/ScreenProofs5.v
theories/ScreenProofs6.v
theories/ScreenProofs7.v
theories/ScreenProofs8.v
theories/DrawSpec.v
theories/DrawProofs.v
theories/DrawProofs2.v
theories/DrawProofs3.v
theories/ScrollProofs.v
theories/ScrollProofs2.v
theories/ScrollProofs3.v
theories/PropScreen.v
theories/PropDraw.v
theories/TermSpec.v
theories/TermProofs.v
theories/TermProofs2.v
theories/TermProofs3.v
theories/PropTerm.v
theories/SvgSpec.v
theories/SvgProofs.v
theories/PropSvg.v
theories/SvgDocModel.v
theories/SvgDocSpec.v
theories/SvgDocProofs.v
theories/SvgDocProofs2.v
theories/PropSvgDoc.v
theories/SvgGeoModel.v
theories/SvgGeoSpec.v
theories/SvgGeoProofs.v
theories/PropSvgGeo.v
theories/Utf8Spec.v
theories/Utf8Proofs.v
theories/PropUtf8.v
theories/MainModel.v
theories/MainSpec.v
theories/MainProofs.v
theories/MainProofs2.v
theories/PropMain.v
theories/MiscProofs.v
theories/PropMisc.v
theories/KeyUseModel.v
theories/KeyUseSpec.v
theories/KeyUseProofs.v
theories/PropKeyUse.v
theories/RedrawSpec.v
theories/RedrawProofs.v
theories/SessionSpec.v
theories/SessionProofs.v
theories/PlayModel.v
theories/PlaySpec.v
theories/PlayProofs.v
theories/PropSession.v
theories/PropRedraw.v
theories/ReprModel.v
theories/ReprSpec.v
theories/ReprProofs.v
theories/SvgTextModel.v
theories/SvgTextSpec.v
theories/SvgTextProofs.v
theories/PropSvgText.v
theories/TransSpec.v
theories/TransProofs.v
theories/PropTrans.v
theories/ObjModel.v
theories/ObjSpec.v
theories/ObjProofs.v
theories/ObjProofs2.v
theories/ObjProofs3.v
theories/ObjProofs4.v
theories/PropObj.v
theories/ShowModel.v
theories/ShowSpec.v
theories/ShowProofs.v
theories/ShowProofs2.v
theories/ShowProofs3.v
theories/ShowProofs4.v
theories/PropShow.v
theories/NumSpec.v
theories/NumProofs.v
theories/NumProofs2.v
theories/NumProofs3.v
theories/DescSpec.v
theories/DescProofs.v
theories/PropDesc.v
theories/LogSpec.v
theories/LogProofs.v
theories/PropLog.v
theories/TtyModel.v
theories/TtySpec.v
theories/TtyProofs.v
theories/StartProofs.v
theories/QueryProofs.v
theories/PropTty.v
theories/FeedModel.v
theories/FeedSpec.v
theories/FeedProofs.v
theories/PropFeed.v
theories/WideSpec.v
theories/WideProofs.v
theories/WideProofs2.v
theories/WideProofs3.v
theories/PropWide.v
theories/StepModel.v
theories/StepSpec.v
theories/StepProofs.v
theories/PropStep.v
theories/LazyModel.v
theories/LazySpec.v
theories/LazyProofs.v
theories/PropLazy.v
theories/RaceModel.v
theories/RaceSpec.v
theories/RaceProofs.v
theories/PropRace.v
theories/ColorProofs4.v
theories/CommandSpec.v
theories/CommandProofs.v
theories/CommandProofs2.v
theories/CommandProofs3.v
theories/PropCommand.v
theories/CutProofs.v
theories/CutProofs2.v
theories/PropCut.v
theories/WindowSpec.v
theories/WindowProofs.v
theories/PropWindow.v
theories/ResizeRaceModel.v
theories/ResizeRaceSpec.v
theories/ResizeRaceProofs.v
theories/ResizeRaceProofs2.v
theories/PropResizeRace.v
theories/AltSpec.v
theories/AltProofs.v
theories/PropAlt.v
theories/CrewModel.v
theories/CrewSpec.v
theories/CrewProofs.v
theories/CrewProofs2.v
theories/CrewProofs3.v
theories/PropCrew.v
theories/EconSpec.v
theories/EconProofs.v
theories/PropEcon.v
theories/ReadmeModel.v
theories/ReadmeSpec.v
theories/ReadmeProofs.v
theories/PropReadme.v
theories/TileSpec.v
theories/TileProofs.v
theories/PropTile.v
theories/PenSpec.v
theories/PenProofs.v
theories/PenProofs2.v
theories/PenProofs3.v
theories/PropPen.v
theories/ReshapeSpec.v
theories/ReshapeModel.v
theories/ReshapeProofs.v
theories/ReshapeProofs2.v
theories/PainterSpec.v
theories/PainterProofs.v
theories/PainterProofs2.v
theories/UvProofs.v
theories/PropReshape.v
theories/LoneSpec.v
theories/LoneProofs.v
theories/LoneProofs2.v
theories/PropLone.v
theories/LineSpec.v
theories/LineProofs.v
theories/LineProofs2.v
theories/PropLine.v
theories/MarkupModel.v
theories/MarkupSpec.v
theories/MarkupProofs.v
theories/MarkupProofs2.v
theories/MarkupProofs3.v
theories/PropMarkup.v
theories/GroupSpec.v
theories/GroupProofs2.v
theories/ViewSpec.v
theories/ViewProofs.v
theories/ViewProofs2.v
theories/ViewProofs3.v
theories/ViewProofs4.v
theories/ViewProofs5.v
theories/PropView.v
theories/ExportModel.v
theories/ExportSpec.v
theories/ExportProofs.v
theories/PropExport.v
theories/SpanValueModel.v
theories/SpanValueSpec.v
theories/SpanValueProofs.v
theories/PropSpanValue.v
theories/FlowSpec.v
theories/FlowProofs.v
theories/PropFlow.v
theories/SwapSpec.v
theories/SwapProofs.v
theories/SwapProofs2.v
theories/PropSwap.v
