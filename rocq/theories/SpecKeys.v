(** * The CSS name of every property.  GENERATED by tools/gen_speckeys.py: the name of the variant of
    [PropertyKey] (src/css/model.rs:212-806) in CSS spelling, which is the name in the CSS standards. *)
From Verif Require Import Str PropKey.

Definition standard_name (k : PropertyKey) : string :=
  match k with
  | KAccentColor => "accent-color"
  | KAlignContent => "align-content"
  | KAlignItems => "align-items"
  | KAlignSelf => "align-self"
  | KAlignmentBaseline => "alignment-baseline"
  | KAll => "all"
  | KAnchorName => "anchor-name"
  | KAnchorScope => "anchor-scope"
  | KAnimation => "animation"
  | KAnimationComposition => "animation-composition"
  | KAnimationDelay => "animation-delay"
  | KAnimationDirection => "animation-direction"
  | KAnimationDuration => "animation-duration"
  | KAnimationFillMode => "animation-fill-mode"
  | KAnimationIterationCount => "animation-iteration-count"
  | KAnimationName => "animation-name"
  | KAnimationPlayState => "animation-play-state"
  | KAnimationRange => "animation-range"
  | KAnimationRangeEnd => "animation-range-end"
  | KAnimationRangeStart => "animation-range-start"
  | KAnimationTimeline => "animation-timeline"
  | KAnimationTimingFunction => "animation-timing-function"
  | KAppearance => "appearance"
  | KAspectRatio => "aspect-ratio"
  | KAzimuth => "azimuth"
  | KBackfaceVisibility => "backface-visibility"
  | KBackground => "background"
  | KBackgroundAttachment => "background-attachment"
  | KBackgroundBlendMode => "background-blend-mode"
  | KBackgroundClip => "background-clip"
  | KBackgroundColor => "background-color"
  | KBackgroundImage => "background-image"
  | KBackgroundOrigin => "background-origin"
  | KBackgroundPosition => "background-position"
  | KBackgroundPositionX => "background-position-x"
  | KBackgroundPositionY => "background-position-y"
  | KBackgroundRepeat => "background-repeat"
  | KBackgroundSize => "background-size"
  | KBaselineShift => "baseline-shift"
  | KBaselineSource => "baseline-source"
  | KBlockEllipsis => "block-ellipsis"
  | KBlockSize => "block-size"
  | KBlockStep => "block-step"
  | KBlockStepAlign => "block-step-align"
  | KBlockStepInsert => "block-step-insert"
  | KBlockStepRound => "block-step-round"
  | KBlockStepSize => "block-step-size"
  | KBookmarkLabel => "bookmark-label"
  | KBookmarkLevel => "bookmark-level"
  | KBookmarkState => "bookmark-state"
  | KBorder => "border"
  | KBorderBlock => "border-block"
  | KBorderBlockColor => "border-block-color"
  | KBorderBlockEnd => "border-block-end"
  | KBorderBlockEndColor => "border-block-end-color"
  | KBorderBlockEndStyle => "border-block-end-style"
  | KBorderBlockEndWidth => "border-block-end-width"
  | KBorderBlockStart => "border-block-start"
  | KBorderBlockStartColor => "border-block-start-color"
  | KBorderBlockStartStyle => "border-block-start-style"
  | KBorderBlockStartWidth => "border-block-start-width"
  | KBorderBlockStyle => "border-block-style"
  | KBorderBlockWidth => "border-block-width"
  | KBorderBottom => "border-bottom"
  | KBorderBottomColor => "border-bottom-color"
  | KBorderBottomLeftRadius => "border-bottom-left-radius"
  | KBorderBottomRightRadius => "border-bottom-right-radius"
  | KBorderBottomStyle => "border-bottom-style"
  | KBorderBottomWidth => "border-bottom-width"
  | KBorderBoundary => "border-boundary"
  | KBorderCollapse => "border-collapse"
  | KBorderColor => "border-color"
  | KBorderEndEndRadius => "border-end-end-radius"
  | KBorderEndStartRadius => "border-end-start-radius"
  | KBorderImage => "border-image"
  | KBorderImageOutset => "border-image-outset"
  | KBorderImageRepeat => "border-image-repeat"
  | KBorderImageSlice => "border-image-slice"
  | KBorderImageSource => "border-image-source"
  | KBorderImageWidth => "border-image-width"
  | KBorderInline => "border-inline"
  | KBorderInlineColor => "border-inline-color"
  | KBorderInlineEnd => "border-inline-end"
  | KBorderInlineEndColor => "border-inline-end-color"
  | KBorderInlineEndStyle => "border-inline-end-style"
  | KBorderInlineEndWidth => "border-inline-end-width"
  | KBorderInlineStart => "border-inline-start"
  | KBorderInlineStartColor => "border-inline-start-color"
  | KBorderInlineStartStyle => "border-inline-start-style"
  | KBorderInlineStartWidth => "border-inline-start-width"
  | KBorderInlineStyle => "border-inline-style"
  | KBorderInlineWidth => "border-inline-width"
  | KBorderLeft => "border-left"
  | KBorderLeftColor => "border-left-color"
  | KBorderLeftStyle => "border-left-style"
  | KBorderLeftWidth => "border-left-width"
  | KBorderRadius => "border-radius"
  | KBorderRight => "border-right"
  | KBorderRightColor => "border-right-color"
  | KBorderRightStyle => "border-right-style"
  | KBorderRightWidth => "border-right-width"
  | KBorderSpacing => "border-spacing"
  | KBorderStartEndRadius => "border-start-end-radius"
  | KBorderStartStartRadius => "border-start-start-radius"
  | KBorderStyle => "border-style"
  | KBorderTop => "border-top"
  | KBorderTopColor => "border-top-color"
  | KBorderTopLeftRadius => "border-top-left-radius"
  | KBorderTopRightRadius => "border-top-right-radius"
  | KBorderTopStyle => "border-top-style"
  | KBorderTopWidth => "border-top-width"
  | KBorderWidth => "border-width"
  | KBottom => "bottom"
  | KBoxDecorationBreak => "box-decoration-break"
  | KBoxShadow => "box-shadow"
  | KBoxSizing => "box-sizing"
  | KBoxSnap => "box-snap"
  | KBreakAfter => "break-after"
  | KBreakBefore => "break-before"
  | KBreakInside => "break-inside"
  | KCaptionSide => "caption-side"
  | KCaret => "caret"
  | KCaretAnimation => "caret-animation"
  | KCaretColor => "caret-color"
  | KCaretShape => "caret-shape"
  | KChains => "chains"
  | KClear => "clear"
  | KClip => "clip"
  | KClipPath => "clip-path"
  | KClipRule => "clip-rule"
  | KColor => "color"
  | KColorAdjust => "color-adjust"
  | KColorInterpolationFilters => "color-interpolation-filters"
  | KColorScheme => "color-scheme"
  | KColumnCount => "column-count"
  | KColumnFill => "column-fill"
  | KColumnGap => "column-gap"
  | KColumnRule => "column-rule"
  | KColumnRuleColor => "column-rule-color"
  | KColumnRuleStyle => "column-rule-style"
  | KColumnRuleWidth => "column-rule-width"
  | KColumnSpan => "column-span"
  | KColumnWidth => "column-width"
  | KColumns => "columns"
  | KContain => "contain"
  | KContainIntrinsicBlockSize => "contain-intrinsic-block-size"
  | KContainIntrinsicHeight => "contain-intrinsic-height"
  | KContainIntrinsicInlineSize => "contain-intrinsic-inline-size"
  | KContainIntrinsicSize => "contain-intrinsic-size"
  | KContainIntrinsicWidth => "contain-intrinsic-width"
  | KContainer => "container"
  | KContainerName => "container-name"
  | KContainerType => "container-type"
  | KContent => "content"
  | KContentVisibility => "content-visibility"
  | KContinue => "continue"
  | KCounterIncrement => "counter-increment"
  | KCounterReset => "counter-reset"
  | KCounterSet => "counter-set"
  | KCue => "cue"
  | KCueAfter => "cue-after"
  | KCueBefore => "cue-before"
  | KCursor => "cursor"
  | KDirection => "direction"
  | KDisplay => "display"
  | KDominantBaseline => "dominant-baseline"
  | KElevation => "elevation"
  | KEmptyCells => "empty-cells"
  | KFieldSizing => "field-sizing"
  | KFill => "fill"
  | KFillBreak => "fill-break"
  | KFillColor => "fill-color"
  | KFillImage => "fill-image"
  | KFillOpacity => "fill-opacity"
  | KFillOrigin => "fill-origin"
  | KFillPosition => "fill-position"
  | KFillRepeat => "fill-repeat"
  | KFillRule => "fill-rule"
  | KFillSize => "fill-size"
  | KFilter => "filter"
  | KFlex => "flex"
  | KFlexBasis => "flex-basis"
  | KFlexDirection => "flex-direction"
  | KFlexFlow => "flex-flow"
  | KFlexGrow => "flex-grow"
  | KFlexShrink => "flex-shrink"
  | KFlexWrap => "flex-wrap"
  | KFloat => "float"
  | KFloatDefer => "float-defer"
  | KFloatOffset => "float-offset"
  | KFloatReference => "float-reference"
  | KFloodColor => "flood-color"
  | KFloodOpacity => "flood-opacity"
  | KFlow => "flow"
  | KFlowFrom => "flow-from"
  | KFlowInto => "flow-into"
  | KFont => "font"
  | KFontFamily => "font-family"
  | KFontFeatureSettings => "font-feature-settings"
  | KFontKerning => "font-kerning"
  | KFontLanguageOverride => "font-language-override"
  | KFontOpticalSizing => "font-optical-sizing"
  | KFontPalette => "font-palette"
  | KFontSize => "font-size"
  | KFontSizeAdjust => "font-size-adjust"
  | KFontStretch => "font-stretch"
  | KFontStyle => "font-style"
  | KFontSynthesis => "font-synthesis"
  | KFontSynthesisPosition => "font-synthesis-position"
  | KFontSynthesisSmallCaps => "font-synthesis-small-caps"
  | KFontSynthesisStyle => "font-synthesis-style"
  | KFontSynthesisWeight => "font-synthesis-weight"
  | KFontVariant => "font-variant"
  | KFontVariantAlternates => "font-variant-alternates"
  | KFontVariantCaps => "font-variant-caps"
  | KFontVariantEastAsian => "font-variant-east-asian"
  | KFontVariantEmoji => "font-variant-emoji"
  | KFontVariantLigatures => "font-variant-ligatures"
  | KFontVariantNumeric => "font-variant-numeric"
  | KFontVariantPosition => "font-variant-position"
  | KFontVariationSettings => "font-variation-settings"
  | KFontWeight => "font-weight"
  | KFontWidth => "font-width"
  | KFootnoteDisplay => "footnote-display"
  | KFootnotePolicy => "footnote-policy"
  | KForcedColorAdjust => "forced-color-adjust"
  | KGap => "gap"
  | KGlyphOrientationVertical => "glyph-orientation-vertical"
  | KGrid => "grid"
  | KGridArea => "grid-area"
  | KGridAutoColumns => "grid-auto-columns"
  | KGridAutoFlow => "grid-auto-flow"
  | KGridAutoRows => "grid-auto-rows"
  | KGridColumn => "grid-column"
  | KGridColumnEnd => "grid-column-end"
  | KGridColumnStart => "grid-column-start"
  | KGridRow => "grid-row"
  | KGridRowEnd => "grid-row-end"
  | KGridRowStart => "grid-row-start"
  | KGridTemplate => "grid-template"
  | KGridTemplateAreas => "grid-template-areas"
  | KGridTemplateColumns => "grid-template-columns"
  | KGridTemplateRows => "grid-template-rows"
  | KHangingPunctuation => "hanging-punctuation"
  | KHeight => "height"
  | KHyphenateCharacter => "hyphenate-character"
  | KHyphenateLimitChars => "hyphenate-limit-chars"
  | KHyphenateLimitLast => "hyphenate-limit-last"
  | KHyphenateLimitLines => "hyphenate-limit-lines"
  | KHyphenateLimitZone => "hyphenate-limit-zone"
  | KHyphens => "hyphens"
  | KImageOrientation => "image-orientation"
  | KImageRendering => "image-rendering"
  | KImageResolution => "image-resolution"
  | KInitialLetter => "initial-letter"
  | KInitialLetterAlign => "initial-letter-align"
  | KInitialLetterWrap => "initial-letter-wrap"
  | KInlineSize => "inline-size"
  | KInlineSizing => "inline-sizing"
  | KInputSecurity => "input-security"
  | KInset => "inset"
  | KInsetArea => "inset-area"
  | KInsetBlock => "inset-block"
  | KInsetBlockEnd => "inset-block-end"
  | KInsetBlockStart => "inset-block-start"
  | KInsetInline => "inset-inline"
  | KInsetInlineEnd => "inset-inline-end"
  | KInsetInlineStart => "inset-inline-start"
  | KIsolation => "isolation"
  | KJustifyContent => "justify-content"
  | KJustifyItems => "justify-items"
  | KJustifySelf => "justify-self"
  | KLeft => "left"
  | KLetterSpacing => "letter-spacing"
  | KLightingColor => "lighting-color"
  | KLineBreak => "line-break"
  | KLineClamp => "line-clamp"
  | KLineFitEdge => "line-fit-edge"
  | KLineGrid => "line-grid"
  | KLineHeight => "line-height"
  | KLineHeightStep => "line-height-step"
  | KLinePadding => "line-padding"
  | KLineSnap => "line-snap"
  | KListStyle => "list-style"
  | KListStyleImage => "list-style-image"
  | KListStylePosition => "list-style-position"
  | KListStyleType => "list-style-type"
  | KMargin => "margin"
  | KMarginBlock => "margin-block"
  | KMarginBlockEnd => "margin-block-end"
  | KMarginBlockStart => "margin-block-start"
  | KMarginBottom => "margin-bottom"
  | KMarginBreak => "margin-break"
  | KMarginInline => "margin-inline"
  | KMarginInlineEnd => "margin-inline-end"
  | KMarginInlineStart => "margin-inline-start"
  | KMarginLeft => "margin-left"
  | KMarginRight => "margin-right"
  | KMarginTop => "margin-top"
  | KMarginTrim => "margin-trim"
  | KMarker => "marker"
  | KMarkerEnd => "marker-end"
  | KMarkerKnockoutLeft => "marker-knockout-left"
  | KMarkerKnockoutRight => "marker-knockout-right"
  | KMarkerMid => "marker-mid"
  | KMarkerPattern => "marker-pattern"
  | KMarkerSegment => "marker-segment"
  | KMarkerSide => "marker-side"
  | KMarkerStart => "marker-start"
  | KMask => "mask"
  | KMaskBorder => "mask-border"
  | KMaskBorderMode => "mask-border-mode"
  | KMaskBorderOutset => "mask-border-outset"
  | KMaskBorderRepeat => "mask-border-repeat"
  | KMaskBorderSlice => "mask-border-slice"
  | KMaskBorderSource => "mask-border-source"
  | KMaskBorderWidth => "mask-border-width"
  | KMaskClip => "mask-clip"
  | KMaskComposite => "mask-composite"
  | KMaskImage => "mask-image"
  | KMaskMode => "mask-mode"
  | KMaskOrigin => "mask-origin"
  | KMaskPosition => "mask-position"
  | KMaskRepeat => "mask-repeat"
  | KMaskSize => "mask-size"
  | KMaskType => "mask-type"
  | KMaxBlockSize => "max-block-size"
  | KMaxHeight => "max-height"
  | KMaxInlineSize => "max-inline-size"
  | KMaxLines => "max-lines"
  | KMaxWidth => "max-width"
  | KMinBlockSize => "min-block-size"
  | KMinHeight => "min-height"
  | KMinInlineSize => "min-inline-size"
  | KMinIntrinsicSizing => "min-intrinsic-sizing"
  | KMinWidth => "min-width"
  | KMixBlendMode => "mix-blend-mode"
  | KNavDown => "nav-down"
  | KNavLeft => "nav-left"
  | KNavRight => "nav-right"
  | KNavUp => "nav-up"
  | KObjectFit => "object-fit"
  | KObjectPosition => "object-position"
  | KOffset => "offset"
  | KOffsetAnchor => "offset-anchor"
  | KOffsetDistance => "offset-distance"
  | KOffsetPath => "offset-path"
  | KOffsetPosition => "offset-position"
  | KOffsetRotate => "offset-rotate"
  | KOpacity => "opacity"
  | KOrder => "order"
  | KOrphans => "orphans"
  | KOutline => "outline"
  | KOutlineColor => "outline-color"
  | KOutlineOffset => "outline-offset"
  | KOutlineStyle => "outline-style"
  | KOutlineWidth => "outline-width"
  | KOverflow => "overflow"
  | KOverflowAnchor => "overflow-anchor"
  | KOverflowBlock => "overflow-block"
  | KOverflowClipMargin => "overflow-clip-margin"
  | KOverflowClipMarginBlock => "overflow-clip-margin-block"
  | KOverflowClipMarginBlockEnd => "overflow-clip-margin-block-end"
  | KOverflowClipMarginBlockStart => "overflow-clip-margin-block-start"
  | KOverflowClipMarginBottom => "overflow-clip-margin-bottom"
  | KOverflowClipMarginInline => "overflow-clip-margin-inline"
  | KOverflowClipMarginInlineEnd => "overflow-clip-margin-inline-end"
  | KOverflowClipMarginInlineStart => "overflow-clip-margin-inline-start"
  | KOverflowClipMarginLeft => "overflow-clip-margin-left"
  | KOverflowClipMarginRight => "overflow-clip-margin-right"
  | KOverflowClipMarginTop => "overflow-clip-margin-top"
  | KOverflowInline => "overflow-inline"
  | KOverflowWrap => "overflow-wrap"
  | KOverflowX => "overflow-x"
  | KOverflowY => "overflow-y"
  | KOverscrollBehavior => "overscroll-behavior"
  | KOverscrollBehaviorBlock => "overscroll-behavior-block"
  | KOverscrollBehaviorInline => "overscroll-behavior-inline"
  | KOverscrollBehaviorX => "overscroll-behavior-x"
  | KOverscrollBehaviorY => "overscroll-behavior-y"
  | KPadding => "padding"
  | KPaddingBlock => "padding-block"
  | KPaddingBlockEnd => "padding-block-end"
  | KPaddingBlockStart => "padding-block-start"
  | KPaddingBottom => "padding-bottom"
  | KPaddingInline => "padding-inline"
  | KPaddingInlineEnd => "padding-inline-end"
  | KPaddingInlineStart => "padding-inline-start"
  | KPaddingLeft => "padding-left"
  | KPaddingRight => "padding-right"
  | KPaddingTop => "padding-top"
  | KPage => "page"
  | KPageBreakAfter => "page-break-after"
  | KPageBreakBefore => "page-break-before"
  | KPageBreakInside => "page-break-inside"
  | KPause => "pause"
  | KPauseAfter => "pause-after"
  | KPauseBefore => "pause-before"
  | KPerspective => "perspective"
  | KPerspectiveOrigin => "perspective-origin"
  | KPitch => "pitch"
  | KPitchRange => "pitch-range"
  | KPlaceContent => "place-content"
  | KPlaceItems => "place-items"
  | KPlaceSelf => "place-self"
  | KPlayDuring => "play-during"
  | KPointerEvents => "pointer-events"
  | KPosition => "position"
  | KPositionAnchor => "position-anchor"
  | KPositionArea => "position-area"
  | KPositionTry => "position-try"
  | KPositionTryFallbacks => "position-try-fallbacks"
  | KPositionTryOptions => "position-try-options"
  | KPositionTryOrder => "position-try-order"
  | KPositionVisibility => "position-visibility"
  | KPrintColorAdjust => "print-color-adjust"
  | KPropertyName => "property-name"
  | KQuotes => "quotes"
  | KRegionFragment => "region-fragment"
  | KResize => "resize"
  | KRest => "rest"
  | KRestAfter => "rest-after"
  | KRestBefore => "rest-before"
  | KRichness => "richness"
  | KRight => "right"
  | KRotate => "rotate"
  | KRowGap => "row-gap"
  | KRubyAlign => "ruby-align"
  | KRubyMerge => "ruby-merge"
  | KRubyOverhang => "ruby-overhang"
  | KRubyPosition => "ruby-position"
  | KRunning => "running"
  | KScale => "scale"
  | KScrollBehavior => "scroll-behavior"
  | KScrollMargin => "scroll-margin"
  | KScrollMarginBlock => "scroll-margin-block"
  | KScrollMarginBlockEnd => "scroll-margin-block-end"
  | KScrollMarginBlockStart => "scroll-margin-block-start"
  | KScrollMarginBottom => "scroll-margin-bottom"
  | KScrollMarginInline => "scroll-margin-inline"
  | KScrollMarginInlineEnd => "scroll-margin-inline-end"
  | KScrollMarginInlineStart => "scroll-margin-inline-start"
  | KScrollMarginLeft => "scroll-margin-left"
  | KScrollMarginRight => "scroll-margin-right"
  | KScrollMarginTop => "scroll-margin-top"
  | KScrollPadding => "scroll-padding"
  | KScrollPaddingBlock => "scroll-padding-block"
  | KScrollPaddingBlockEnd => "scroll-padding-block-end"
  | KScrollPaddingBlockStart => "scroll-padding-block-start"
  | KScrollPaddingBottom => "scroll-padding-bottom"
  | KScrollPaddingInline => "scroll-padding-inline"
  | KScrollPaddingInlineEnd => "scroll-padding-inline-end"
  | KScrollPaddingInlineStart => "scroll-padding-inline-start"
  | KScrollPaddingLeft => "scroll-padding-left"
  | KScrollPaddingRight => "scroll-padding-right"
  | KScrollPaddingTop => "scroll-padding-top"
  | KScrollSnapAlign => "scroll-snap-align"
  | KScrollSnapStop => "scroll-snap-stop"
  | KScrollSnapType => "scroll-snap-type"
  | KScrollStartTarget => "scroll-start-target"
  | KScrollTimeline => "scroll-timeline"
  | KScrollTimelineAxis => "scroll-timeline-axis"
  | KScrollTimelineName => "scroll-timeline-name"
  | KScrollbarColor => "scrollbar-color"
  | KScrollbarGutter => "scrollbar-gutter"
  | KScrollbarWidth => "scrollbar-width"
  | KShapeImageThreshold => "shape-image-threshold"
  | KShapeInside => "shape-inside"
  | KShapeMargin => "shape-margin"
  | KShapeOutside => "shape-outside"
  | KSpatialNavigationAction => "spatial-navigation-action"
  | KSpatialNavigationContain => "spatial-navigation-contain"
  | KSpatialNavigationFunction => "spatial-navigation-function"
  | KSpeak => "speak"
  | KSpeakAs => "speak-as"
  | KSpeakHeader => "speak-header"
  | KSpeakNumeral => "speak-numeral"
  | KSpeakPunctuation => "speak-punctuation"
  | KSpeechRate => "speech-rate"
  | KStress => "stress"
  | KStringSet => "string-set"
  | KStroke => "stroke"
  | KStrokeAlign => "stroke-align"
  | KStrokeAlignment => "stroke-alignment"
  | KStrokeBreak => "stroke-break"
  | KStrokeColor => "stroke-color"
  | KStrokeDashCorner => "stroke-dash-corner"
  | KStrokeDashJustify => "stroke-dash-justify"
  | KStrokeDashadjust => "stroke-dashadjust"
  | KStrokeDasharray => "stroke-dasharray"
  | KStrokeDashcorner => "stroke-dashcorner"
  | KStrokeDashoffset => "stroke-dashoffset"
  | KStrokeImage => "stroke-image"
  | KStrokeLinecap => "stroke-linecap"
  | KStrokeLinejoin => "stroke-linejoin"
  | KStrokeMiterlimit => "stroke-miterlimit"
  | KStrokeOpacity => "stroke-opacity"
  | KStrokeOrigin => "stroke-origin"
  | KStrokePosition => "stroke-position"
  | KStrokeRepeat => "stroke-repeat"
  | KStrokeSize => "stroke-size"
  | KStrokeWidth => "stroke-width"
  | KTabSize => "tab-size"
  | KTableLayout => "table-layout"
  | KTextAlign => "text-align"
  | KTextAlignAll => "text-align-all"
  | KTextAlignLast => "text-align-last"
  | KTextAutospace => "text-autospace"
  | KTextBox => "text-box"
  | KTextBoxEdge => "text-box-edge"
  | KTextBoxTrim => "text-box-trim"
  | KTextCombineUpright => "text-combine-upright"
  | KTextDecoration => "text-decoration"
  | KTextDecorationColor => "text-decoration-color"
  | KTextDecorationLine => "text-decoration-line"
  | KTextDecorationSkip => "text-decoration-skip"
  | KTextDecorationSkipBox => "text-decoration-skip-box"
  | KTextDecorationSkipInk => "text-decoration-skip-ink"
  | KTextDecorationSkipInset => "text-decoration-skip-inset"
  | KTextDecorationSkipSelf => "text-decoration-skip-self"
  | KTextDecorationSkipSpaces => "text-decoration-skip-spaces"
  | KTextDecorationStyle => "text-decoration-style"
  | KTextDecorationThickness => "text-decoration-thickness"
  | KTextDecorationTrim => "text-decoration-trim"
  | KTextEmphasis => "text-emphasis"
  | KTextEmphasisColor => "text-emphasis-color"
  | KTextEmphasisPosition => "text-emphasis-position"
  | KTextEmphasisSkip => "text-emphasis-skip"
  | KTextEmphasisStyle => "text-emphasis-style"
  | KTextGroupAlign => "text-group-align"
  | KTextIndent => "text-indent"
  | KTextJustify => "text-justify"
  | KTextOrientation => "text-orientation"
  | KTextOverflow => "text-overflow"
  | KTextShadow => "text-shadow"
  | KTextSpacing => "text-spacing"
  | KTextSpacingTrim => "text-spacing-trim"
  | KTextTransform => "text-transform"
  | KTextUnderlineOffset => "text-underline-offset"
  | KTextUnderlinePosition => "text-underline-position"
  | KTextWrap => "text-wrap"
  | KTextWrapMode => "text-wrap-mode"
  | KTextWrapStyle => "text-wrap-style"
  | KTimelineScope => "timeline-scope"
  | KTop => "top"
  | KTransform => "transform"
  | KTransformBox => "transform-box"
  | KTransformOrigin => "transform-origin"
  | KTransformStyle => "transform-style"
  | KTransition => "transition"
  | KTransitionBehavior => "transition-behavior"
  | KTransitionDelay => "transition-delay"
  | KTransitionDuration => "transition-duration"
  | KTransitionProperty => "transition-property"
  | KTransitionTimingFunction => "transition-timing-function"
  | KTranslate => "translate"
  | KUnicodeBidi => "unicode-bidi"
  | KUserSelect => "user-select"
  | KVerticalAlign => "vertical-align"
  | KViewTimeline => "view-timeline"
  | KViewTimelineAxis => "view-timeline-axis"
  | KViewTimelineInset => "view-timeline-inset"
  | KViewTimelineName => "view-timeline-name"
  | KViewTransitionClass => "view-transition-class"
  | KViewTransitionName => "view-transition-name"
  | KVisibility => "visibility"
  | KVoiceBalance => "voice-balance"
  | KVoiceDuration => "voice-duration"
  | KVoiceFamily => "voice-family"
  | KVoicePitch => "voice-pitch"
  | KVoiceRange => "voice-range"
  | KVoiceRate => "voice-rate"
  | KVoiceStress => "voice-stress"
  | KVoiceVolume => "voice-volume"
  | KVolume => "volume"
  | KWhiteSpace => "white-space"
  | KWhiteSpaceCollapse => "white-space-collapse"
  | KWhiteSpaceTrim => "white-space-trim"
  | KWidows => "widows"
  | KWidth => "width"
  | KWillChange => "will-change"
  | KWordBreak => "word-break"
  | KWordSpaceTransform => "word-space-transform"
  | KWordSpacing => "word-spacing"
  | KWordWrap => "word-wrap"
  | KWrapAfter => "wrap-after"
  | KWrapBefore => "wrap-before"
  | KWrapFlow => "wrap-flow"
  | KWrapInside => "wrap-inside"
  | KWrapThrough => "wrap-through"
  | KWritingMode => "writing-mode"
  | KZIndex => "z-index"
  | KZoom => "zoom"
  end.

(** Properties the code knows under another name than the standard one. *)
Definition misspelt : list (PropertyKey * string) :=
  [ (KBorderBlockEndStyle, "border-block-end-styles")
  ; (KBorderBlockStartStyle, "border-block-start-styles")
  ; (KBorderBlockStyle, "border-block-styles")
  ; (KBorderBottomStyle, "border-bottom-styles")
  ; (KBorderInlineEndStyle, "border-inline-end-styles")
  ; (KBorderInlineStartStyle, "border-inline-start-styles")
  ; (KBorderInlineStyle, "border-inline-styles")
  ; (KBorderLeftStyle, "border-left-styles")
  ; (KBorderRightStyle, "border-right-styles")
  ; (KBorderStyle, "border-styles")
  ; (KBorderTopStyle, "border-top-styles")
  ; (KColumnRuleStyle, "column-rule-styles")
  ; (KFontSynthesisStyle, "font-synthesis-styles")
  ; (KListStyle, "list-styles")
  ; (KListStyleImage, "list-styles-image")
  ; (KListStylePosition, "list-styles-position")
  ; (KListStyleType, "list-styles-type")
  ; (KOutlineStyle, "outline-styles")
  ; (KTextDecorationStyle, "text-decoration-styles")
  ; (KTextEmphasisStyle, "text-emphasis-styles")
  ; (KTextWrapStyle, "text-wrap-styles")
  ; (KTransformStyle, "transform-styles") ].

(** Properties the code knows under no name. *)
Definition nameless : list PropertyKey := [KBackgroundPositionX; KBackgroundPositionY].

(** The name a property is written with in a style sheet. *)
Definition written (k : PropertyKey) (name : string) : Prop :=
  In (k, name) misspelt \/ (name = standard_name k /\ ~ In k (map fst misspelt) /\ ~ In k nameless).
