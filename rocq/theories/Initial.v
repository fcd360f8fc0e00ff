(** * Initial values.  GENERATED by tools/gen_initial.py from src/styles/initial.rs:4-316. *)
From Verif Require Import Str F32 PropKey Css.

(** src/styles/initial.rs:4-316 *)
Definition initial (key : PropertyKey) : ComputedValue :=
  match key with
  | KAccentColor => CKeyword "auto"
  | KAlignContent => CKeyword "normal"
  | KAlignItems => CKeyword "normal"
  | KAlignSelf => CKeyword "auto"
  | KAlignmentBaseline => CKeyword "auto"
  | KAnchorName => CKeyword "none"
  | KAnimationComposition => CKeyword "replace"
  | KAnimationDelay => CTime (f32_of_Z 0)
  | KAnimationDirection => CKeyword "normal"
  | KAnimationDuration => CTime (f32_of_Z 0)
  | KAnimationFillMode => CKeyword "none"
  | KAnimationIterationCount => CNumber (f32_of_Z 1)
  | KAnimationName => CKeyword "none"
  | KAnimationPlayState => CKeyword "running"
  | KAnimationRangeEnd => CKeyword "normal"
  | KAnimationRangeStart => CKeyword "normal"
  | KAnimationTimeline => CKeyword "auto"
  | KAnimationTimingFunction => CKeyword "ease"
  | KAppearance => CKeyword "none"
  | KAspectRatio => CKeyword "auto"
  | KBackfaceVisibility => CKeyword "visible"
  | KBackgroundAttachment => CKeyword "scroll"
  | KBackgroundBlendMode => CKeyword "normal"
  | KBackgroundClip => CKeyword "border-box"
  | KBackgroundColor => CColor (0, 0, 0, 0)%Z
  | KBackgroundImage => CKeyword "none"
  | KBackgroundOrigin => CKeyword "padding-box"
  | KBackgroundPositionX => CPercentage f0
  | KBackgroundPositionY => CPercentage f0
  | KBackgroundRepeat => CKeyword "repeat"
  | KBackgroundSize => CKeyword "auto"
  | KBorderBottomColor => CKeyword "currentColor"
  | KBorderBottomLeftRadius => CZero
  | KBorderBottomRightRadius => CZero
  | KBorderBottomStyle => CKeyword "none"
  | KBorderBottomWidth => CKeyword "medium"
  | KBorderCollapse => CKeyword "separate"
  | KBorderLeftColor => CKeyword "currentColor"
  | KBorderLeftStyle => CKeyword "none"
  | KBorderLeftWidth => CKeyword "medium"
  | KBorderRightColor => CKeyword "currentColor"
  | KBorderRightStyle => CKeyword "none"
  | KBorderRightWidth => CKeyword "medium"
  | KBorderSpacing => CZero
  | KBorderTopColor => CKeyword "currentColor"
  | KBorderTopLeftRadius => CZero
  | KBorderTopRightRadius => CZero
  | KBorderTopStyle => CKeyword "none"
  | KBorderTopWidth => CKeyword "medium"
  | KBottom => CKeyword "auto"
  | KBoxShadow => CKeyword "none"
  | KBoxSizing => CKeyword "content-box"
  | KBreakAfter => CKeyword "auto"
  | KBreakBefore => CKeyword "auto"
  | KBreakInside => CKeyword "auto"
  | KCaptionSide => CKeyword "top"
  | KCaretColor => CKeyword "auto"
  | KClear => CKeyword "none"
  | KClipPath => CKeyword "none"
  | KColor => CKeyword "currentColor"
  | KColorScheme => CKeyword "normal"
  | KColumnCount => CKeyword "auto"
  | KColumnFill => CKeyword "balance"
  | KColumnGap => CKeyword "normal"
  | KColumnRuleColor => CKeyword "currentColor"
  | KColumnRuleStyle => CKeyword "none"
  | KColumnRuleWidth => CKeyword "medium"
  | KColumnSpan => CKeyword "none"
  | KColumnWidth => CKeyword "auto"
  | KContain => CKeyword "none"
  | KContainIntrinsicBlockSize => CKeyword "none"
  | KContainIntrinsicHeight => CKeyword "none"
  | KContainIntrinsicInlineSize => CKeyword "none"
  | KContainIntrinsicSize => CKeyword "none"
  | KContainIntrinsicWidth => CKeyword "none"
  | KContainerName => CKeyword "none"
  | KContainerType => CKeyword "normal"
  | KContent => CKeyword "normal"
  | KContentVisibility => CKeyword "visible"
  | KCounterIncrement => CKeyword "none"
  | KCounterReset => CKeyword "none"
  | KCounterSet => CKeyword "none"
  | KCursor => CKeyword "auto"
  | KDirection => CKeyword "ltr"
  | KDisplay => CKeyword "block"
  | KDominantBaseline => CKeyword "auto"
  | KEmptyCells => CKeyword "show"
  | KFieldSizing => CKeyword "fixed"
  | KFillOpacity => CNumber (f32_of_Z 1)
  | KFillRule => CKeyword "nonzero"
  | KFilter => CKeyword "none"
  | KFlexBasis => CKeyword "auto"
  | KFlexDirection => CKeyword "row"
  | KFlexGrow => CZero
  | KFlexShrink => CNumber (f32_of_Z 1)
  | KFlexWrap => CKeyword "nowrap"
  | KFloat => CKeyword "none"
  | KFontFamily => CKeyword "system-ui"
  | KFontFeatureSettings => CKeyword "normal"
  | KFontKerning => CKeyword "auto"
  | KFontLanguageOverride => CKeyword "normal"
  | KFontOpticalSizing => CKeyword "auto"
  | KFontPalette => CKeyword "normal"
  | KFontSize => CDimension (mkDim (f32_of_Z 16) UPx)
  | KFontSizeAdjust => CKeyword "none"
  | KFontStretch => CKeyword "normal"
  | KFontStyle => CKeyword "normal"
  | KFontSynthesisPosition => CKeyword "none"
  | KFontSynthesisSmallCaps => CKeyword "auto"
  | KFontSynthesisStyle => CKeyword "auto"
  | KFontSynthesisWeight => CKeyword "auto"
  | KFontVariant => CKeyword "normal"
  | KFontVariantAlternates => CKeyword "normal"
  | KFontVariantCaps => CKeyword "normal"
  | KFontVariantEastAsian => CKeyword "normal"
  | KFontVariantEmoji => CKeyword "normal"
  | KFontVariantLigatures => CKeyword "normal"
  | KFontVariantNumeric => CKeyword "normal"
  | KFontVariantPosition => CKeyword "normal"
  | KFontVariationSettings => CKeyword "normal"
  | KFontWeight => CKeyword "normal"
  | KForcedColorAdjust => CKeyword "auto"
  | KGridAutoColumns => CKeyword "auto"
  | KGridAutoFlow => CKeyword "row"
  | KGridAutoRows => CKeyword "auto"
  | KGridColumnEnd => CKeyword "auto"
  | KGridColumnStart => CKeyword "auto"
  | KGridRowEnd => CKeyword "auto"
  | KGridRowStart => CKeyword "auto"
  | KGridTemplateAreas => CKeyword "none"
  | KGridTemplateColumns => CKeyword "none"
  | KGridTemplateRows => CKeyword "none"
  | KHangingPunctuation => CKeyword "none"
  | KHeight => CKeyword "auto"
  | KHyphenateCharacter => CKeyword "auto"
  | KHyphenateLimitChars => CKeyword "auto"
  | KHyphens => CKeyword "manual"
  | KImageOrientation => CKeyword "from-image"
  | KImageRendering => CKeyword "auto"
  | KInitialLetter => CKeyword "normal"
  | KInlineSize => CKeyword "auto"
  | KInsetBlockEnd => CKeyword "auto"
  | KInsetBlockStart => CKeyword "auto"
  | KInsetInlineEnd => CKeyword "auto"
  | KInsetInlineStart => CKeyword "auto"
  | KIsolation => CKeyword "auto"
  | KJustifyContent => CKeyword "normal"
  | KJustifyItems => CKeyword "legacy"
  | KJustifySelf => CKeyword "auto"
  | KLeft => CKeyword "auto"
  | KLetterSpacing => CKeyword "normal"
  | KLineBreak => CKeyword "auto"
  | KLineHeight => CKeyword "normal"
  | KLineHeightStep => CZero
  | KMarginBlockEnd => CZero
  | KMarginBlockStart => CZero
  | KMarginBottom => CZero
  | KMarginInlineEnd => CZero
  | KMarginInlineStart => CZero
  | KMarginLeft => CZero
  | KMarginRight => CZero
  | KMarginTop => CZero
  | KMarginTrim => CKeyword "none"
  | KMarkerEnd => CKeyword "none"
  | KMarkerMid => CKeyword "auto"
  | KMarkerStart => CKeyword "auto"
  | KMaskBorderMode => CKeyword "alpha"
  | KMaskBorderOutset => CZero
  | KMaskBorderRepeat => CKeyword "stretch"
  | KMaskBorderSlice => CZero
  | KMaskBorderSource => CKeyword "none"
  | KMaskBorderWidth => CKeyword "auto"
  | KMaskClip => CKeyword "border-box"
  | KMaskComposite => CKeyword "add"
  | KMaskImage => CKeyword "none"
  | KMaskMode => CKeyword "match-source"
  | KMaskOrigin => CKeyword "border-box"
  | KMaskRepeat => CKeyword "repeat"
  | KMaskSize => CKeyword "auto"
  | KMaskType => CKeyword "luminance"
  | KMaxBlockSize => CKeyword "none"
  | KMaxHeight => CKeyword "none"
  | KMaxInlineSize => CKeyword "none"
  | KMaxWidth => CKeyword "none"
  | KMinBlockSize => CZero
  | KMinHeight => CKeyword "auto"
  | KMinInlineSize => CZero
  | KMinWidth => CKeyword "auto"
  | KMixBlendMode => CKeyword "normal"
  | KObjectFit => CKeyword "fill"
  | KOffsetAnchor => CKeyword "auto"
  | KOffsetDistance => CZero
  | KOffsetPath => CKeyword "none"
  | KOffsetPosition => CKeyword "normal"
  | KOffsetRotate => CKeyword "auto"
  | KOpacity => CNumber (f32_of_Z 1)
  | KOrder => CZero
  | KOrphans => CNumber (f32_of_Z 2)
  | KOutlineColor => CKeyword "auto"
  | KOutlineOffset => CZero
  | KOutlineStyle => CKeyword "none"
  | KOutlineWidth => CKeyword "medium"
  | KOverflowAnchor => CKeyword "auto"
  | KOverflowBlock => CKeyword "auto"
  | KOverflowClipMargin => CDimension (mkDim (f32_of_Z 0) UPx)
  | KOverflowInline => CKeyword "auto"
  | KOverflowWrap => CKeyword "normal"
  | KOverflowX => CKeyword "visible"
  | KOverflowY => CKeyword "visible"
  | KOverscrollBehavior => CKeyword "auto"
  | KOverscrollBehaviorBlock => CKeyword "auto"
  | KOverscrollBehaviorInline => CKeyword "auto"
  | KOverscrollBehaviorX => CKeyword "auto"
  | KOverscrollBehaviorY => CKeyword "auto"
  | KPaddingBlockEnd => CZero
  | KPaddingBlockStart => CZero
  | KPaddingBottom => CZero
  | KPaddingInlineEnd => CZero
  | KPaddingInlineStart => CZero
  | KPaddingLeft => CZero
  | KPaddingRight => CZero
  | KPaddingTop => CZero
  | KPageBreakAfter => CKeyword "auto"
  | KPageBreakBefore => CKeyword "auto"
  | KPageBreakInside => CKeyword "auto"
  | KPerspective => CKeyword "none"
  | KPointerEvents => CKeyword "auto"
  | KPosition => CKeyword "static"
  | KPositionAnchor => CKeyword "implicit"
  | KPrintColorAdjust => CKeyword "economy"
  | KResize => CKeyword "none"
  | KRight => CKeyword "auto"
  | KRotate => CKeyword "none"
  | KRowGap => CKeyword "normal"
  | KRubyAlign => CKeyword "space-around"
  | KRubyPosition => CKeyword "alternate"
  | KScale => CKeyword "none"
  | KScrollBehavior => CKeyword "auto"
  | KScrollMarginBlockEnd => CZero
  | KScrollMarginBlockStart => CZero
  | KScrollMarginBottom => CZero
  | KScrollMarginInlineEnd => CZero
  | KScrollMarginInlineStart => CZero
  | KScrollMarginLeft => CZero
  | KScrollMarginRight => CZero
  | KScrollMarginTop => CZero
  | KScrollPaddingBlockEnd => CKeyword "auto"
  | KScrollPaddingBlockStart => CKeyword "auto"
  | KScrollPaddingBottom => CKeyword "auto"
  | KScrollPaddingInlineEnd => CKeyword "auto"
  | KScrollPaddingInlineStart => CKeyword "auto"
  | KScrollPaddingLeft => CKeyword "auto"
  | KScrollPaddingRight => CKeyword "auto"
  | KScrollPaddingTop => CKeyword "auto"
  | KScrollSnapAlign => CKeyword "none"
  | KScrollSnapStop => CKeyword "normal"
  | KScrollSnapType => CKeyword "none"
  | KScrollTimelineAxis => CKeyword "block"
  | KScrollTimelineName => CKeyword "none"
  | KScrollbarColor => CKeyword "auto"
  | KScrollbarGutter => CKeyword "auto"
  | KScrollbarWidth => CKeyword "auto"
  | KShapeImageThreshold => CNumber (f32_of_Z 0)
  | KShapeMargin => CZero
  | KShapeOutside => CKeyword "none"
  | KTabSize => CNumber (f32_of_Z 8)
  | KTableLayout => CKeyword "auto"
  | KTextAlign => CKeyword "start"
  | KTextAlignLast => CKeyword "auto"
  | KTextCombineUpright => CKeyword "none"
  | KTextDecorationColor => CKeyword "currentColor"
  | KTextDecorationLine => CKeyword "none"
  | KTextDecorationSkip => CKeyword "objects"
  | KTextDecorationStyle => CKeyword "solid"
  | KTextDecorationThickness => CKeyword "auto"
  | KTextEmphasisColor => CKeyword "currentColor"
  | KTextEmphasisStyle => CKeyword "none"
  | KTextIndent => CZero
  | KTextJustify => CKeyword "auto"
  | KTextOrientation => CKeyword "mixed"
  | KTextOverflow => CKeyword "clip"
  | KTextShadow => CKeyword "none"
  | KTextSpacingTrim => CKeyword "normal"
  | KTextTransform => CKeyword "none"
  | KTextUnderlineOffset => CKeyword "auto"
  | KTextUnderlinePosition => CKeyword "auto"
  | KTextWrap => CKeyword "wrap"
  | KTextWrapMode => CKeyword "wrap"
  | KTextWrapStyle => CKeyword "auto"
  | KTimelineScope => CKeyword "none"
  | KTop => CKeyword "auto"
  | KTransformBox => CKeyword "view-box"
  | KTransformStyle => CKeyword "flat"
  | KTranslate => CKeyword "none"
  | KUnicodeBidi => CKeyword "normal"
  | KUserSelect => CKeyword "auto"
  | KVerticalAlign => CKeyword "baseline"
  | KVisibility => CKeyword "visible"
  | KWhiteSpace => CKeyword "normal"
  | KWhiteSpaceCollapse => CKeyword "collapse"
  | KWidows => CNumber (f32_of_Z 2)
  | KWidth => CKeyword "auto"
  | KWillChange => CKeyword "auto"
  | KWordBreak => CKeyword "normal"
  | KWordSpacing => CKeyword "normal"
  | KWritingMode => CKeyword "horizontal-tb"
  | KZIndex => CKeyword "auto"
  | KZoom => CKeyword "normal"
  | _ => CKeyword "initial"
  end.
