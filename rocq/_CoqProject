-Q theories Verif
theories/Str.v
theories/F32.v
theories/Res.v
theories/Json.v
theories/PropKey.v
theories/Html.v
theories/Css.v
theories/Element.v
theories/Tree.v
theories/ViewModel.v
theories/Render.v
theories/Update.v
theories/Matching.v
theories/Initial.v
theories/Cascade.v
theories/Animation.v
theories/Apply.v
theories/Styling.v
theories/Events.v
theories/View.v
theories/SpecView.v
theories/SpecBind.v
theories/StrFacts.v
theories/ResFacts.v
theories/JsonFacts.v
theories/BindFacts.v
theories/ConformFacts.v
theories/ChangeFacts.v
theories/FrameFacts.v
theories/SpecReact.v
theories/BindProps.v
theories/SpecRender.v
theories/SpecTree.v
theories/RenderFacts.v
theories/RenderTree.v
theories/RenderNode.v
theories/RenderProps.v
theories/RenderAny.v
theories/RenderMore.v
theories/SpecLive.v
theories/SpecLog.v
theories/LiveFacts.v
theories/LiveUpdate.v
theories/LiveView.v
theories/LiveSlots.v
theories/LiveValues.v
theories/LiveAlone.v
theories/LiveHistory.v
theories/LiveOrder.v
theories/LiveData.v
theories/SpecSchema.v
theories/SchemaFacts.v
theories/SpecEvents.v
theories/EventFacts.v
theories/EventPage.v
theories/EventSteps.v
theories/EventFrame.v
theories/EventSay.v
theories/EventHistory.v
theories/EventProps.v
theories/EventMore.v
theories/EventOut.v
theories/EventTotal.v
theories/FloatFacts.v
theories/EventBox.v
theories/SpecTold.v
theories/EventTold.v
theories/SpecSelect.v
theories/SelectFacts.v
theories/SelectLive.v
theories/SelectFresh.v
theories/SpecStyle.v
theories/SpecShow.v
theories/ApplyFacts.v
theories/ShowFacts.v
theories/CascadeFacts.v
theories/AnimationFacts.v
theories/StyleTrace.v
theories/SpecPage.v
theories/StyleView.v
theories/StylePage.v
theories/StyleRest.v
theories/StyleMore.v
theories/StyleResolve.v
theories/SpecCss.v
theories/SpecDocument.v
theories/SpecValues.v
theories/ValueFacts.v
theories/ValuePage.v
theories/DocumentFacts.v
theories/Samples.v
theories/PropBind.v
theories/PropRender.v
theories/PropTree.v
theories/PropSchema.v
theories/PropEvents.v
theories/PropSelect.v
theories/StyleSamples.v
theories/ValueSamples.v
theories/PropStyle.v
theories/PropValues.v
theories/PropDocument.v
theories/AnimFloat.v
theories/SpecAnim.v
theories/AnimProps.v
theories/FrameProps.v
theories/BlendProps.v
theories/PropAnim.v
theories/SpecEnds.v
theories/EndsTimer.v
theories/EndsFacts.v
theories/EndsPage.v
theories/EndsMore.v
theories/PropEnds.v
theories/SpecPlace.v
theories/PlaceFacts.v
theories/ScrollFacts.v
theories/PropPlace.v
theories/Peg.v
theories/CssGrammar.v
theories/HtmlGrammar.v
theories/Number.v
theories/ReadCss.v
theories/ReadHtml.v
theories/PegFacts.v
theories/PegTotal.v
theories/PegShape.v
theories/ReadTotal.v
theories/SpecKeys.v
theories/SpecText.v
theories/SpecSheet.v
theories/PegLook.v
theories/NumberFacts.v
theories/KeyFacts.v
theories/ReadValues.v
theories/ReadBlocks.v
theories/ReadSelectors.v
theories/ReadSheet.v
theories/SpecTemplate.v
theories/ReadMarkup.v
theories/ReadTexts.v
theories/ReadAttributes.v
theories/ReadTemplate.v
theories/SpecRead.v
theories/ReadFacts.v
theories/Load.v
theories/Fragment.v
theories/PropRead.v
theories/PropLoad.v
theories/SpecSeen.v
theories/SeenFacts.v
theories/PropSeen.v
theories/SpecLocal.v
theories/LocalFacts.v
theories/PropLocal.v
theories/SpecWalk.v
theories/WalkFacts.v
theories/PropWalk.v
theories/SpecImage.v
theories/ImageFacts.v
theories/PropImage.v
theories/Transform.v
theories/SpecTime.v
theories/TimeFacts.v
theories/SpecPipe.v
theories/PipeFacts.v
theories/PropPipe.v
theories/Fonts.v
theories/FontFacts.v
theories/PropFont.v
theories/SpecTotal.v
theories/LoadTotal.v
theories/ReadNamed.v
theories/UpdateTotal.v
theories/PropTotal.v
theories/SpecShape.v
theories/ShapeFacts.v
theories/PropShape.v
theories/ReadTests.v
theories/ViewTests.v
theories/SpecMove.v
theories/MoveFacts.v
theories/MoveSamples.v
theories/PropMove.v
theories/SpecSame.v
theories/SameFacts.v
theories/PropSame.v
theories/Input.v
theories/SpecInput.v
theories/InputFacts.v
theories/PropInput.v
theories/Metrics.v
theories/SpecMetrics.v
theories/MetricsFacts.v
theories/MetricsPage.v
theories/StyleEqb.v
theories/PropMetrics.v
theories/SpecViewport.v
theories/ViewportFacts.v
theories/PropViewport.v
theories/SpecUsed.v
theories/UsedFacts.v
theories/PropUsed.v
theories/SpecIdle.v
theories/IdleFacts.v
theories/PropIdle.v
theories/SpecApart.v
theories/ApartFacts.v
theories/ApartPage.v
theories/PropApart.v
theories/SpecCounted.v
theories/CountedFacts.v
theories/PropCounted.v
theories/BoundFacts.v
theories/PropRun.v
