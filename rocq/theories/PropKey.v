(** * CSS property keys.  GENERATED by tools/gen_propkey.py from src/css/model.rs:212-806 (enum) and 808-1407 (parse). *)
From Verif Require Import Str.
From stdpp Require Import countable.

(** src/css/model.rs:212-806, every variant in source order. *)
Inductive PropertyKey : Set :=
| KAccentColor
| KAlignContent
| KAlignItems
| KAlignSelf
| KAlignmentBaseline
| KAll
| KAnchorName
| KAnchorScope
| KAnimation
| KAnimationComposition
| KAnimationDelay
| KAnimationDirection
| KAnimationDuration
| KAnimationFillMode
| KAnimationIterationCount
| KAnimationName
| KAnimationPlayState
| KAnimationRange
| KAnimationRangeEnd
| KAnimationRangeStart
| KAnimationTimeline
| KAnimationTimingFunction
| KAppearance
| KAspectRatio
| KAzimuth
| KBackfaceVisibility
| KBackground
| KBackgroundAttachment
| KBackgroundBlendMode
| KBackgroundClip
| KBackgroundColor
| KBackgroundImage
| KBackgroundOrigin
| KBackgroundPosition
| KBackgroundPositionX
| KBackgroundPositionY
| KBackgroundRepeat
| KBackgroundSize
| KBaselineShift
| KBaselineSource
| KBlockEllipsis
| KBlockSize
| KBlockStep
| KBlockStepAlign
| KBlockStepInsert
| KBlockStepRound
| KBlockStepSize
| KBookmarkLabel
| KBookmarkLevel
| KBookmarkState
| KBorder
| KBorderBlock
| KBorderBlockColor
| KBorderBlockEnd
| KBorderBlockEndColor
| KBorderBlockEndStyle
| KBorderBlockEndWidth
| KBorderBlockStart
| KBorderBlockStartColor
| KBorderBlockStartStyle
| KBorderBlockStartWidth
| KBorderBlockStyle
| KBorderBlockWidth
| KBorderBottom
| KBorderBottomColor
| KBorderBottomLeftRadius
| KBorderBottomRightRadius
| KBorderBottomStyle
| KBorderBottomWidth
| KBorderBoundary
| KBorderCollapse
| KBorderColor
| KBorderEndEndRadius
| KBorderEndStartRadius
| KBorderImage
| KBorderImageOutset
| KBorderImageRepeat
| KBorderImageSlice
| KBorderImageSource
| KBorderImageWidth
| KBorderInline
| KBorderInlineColor
| KBorderInlineEnd
| KBorderInlineEndColor
| KBorderInlineEndStyle
| KBorderInlineEndWidth
| KBorderInlineStart
| KBorderInlineStartColor
| KBorderInlineStartStyle
| KBorderInlineStartWidth
| KBorderInlineStyle
| KBorderInlineWidth
| KBorderLeft
| KBorderLeftColor
| KBorderLeftStyle
| KBorderLeftWidth
| KBorderRadius
| KBorderRight
| KBorderRightColor
| KBorderRightStyle
| KBorderRightWidth
| KBorderSpacing
| KBorderStartEndRadius
| KBorderStartStartRadius
| KBorderStyle
| KBorderTop
| KBorderTopColor
| KBorderTopLeftRadius
| KBorderTopRightRadius
| KBorderTopStyle
| KBorderTopWidth
| KBorderWidth
| KBottom
| KBoxDecorationBreak
| KBoxShadow
| KBoxSizing
| KBoxSnap
| KBreakAfter
| KBreakBefore
| KBreakInside
| KCaptionSide
| KCaret
| KCaretAnimation
| KCaretColor
| KCaretShape
| KChains
| KClear
| KClip
| KClipPath
| KClipRule
| KColor
| KColorAdjust
| KColorInterpolationFilters
| KColorScheme
| KColumnCount
| KColumnFill
| KColumnGap
| KColumnRule
| KColumnRuleColor
| KColumnRuleStyle
| KColumnRuleWidth
| KColumnSpan
| KColumnWidth
| KColumns
| KContain
| KContainIntrinsicBlockSize
| KContainIntrinsicHeight
| KContainIntrinsicInlineSize
| KContainIntrinsicSize
| KContainIntrinsicWidth
| KContainer
| KContainerName
| KContainerType
| KContent
| KContentVisibility
| KContinue
| KCounterIncrement
| KCounterReset
| KCounterSet
| KCue
| KCueAfter
| KCueBefore
| KCursor
| KDirection
| KDisplay
| KDominantBaseline
| KElevation
| KEmptyCells
| KFieldSizing
| KFill
| KFillBreak
| KFillColor
| KFillImage
| KFillOpacity
| KFillOrigin
| KFillPosition
| KFillRepeat
| KFillRule
| KFillSize
| KFilter
| KFlex
| KFlexBasis
| KFlexDirection
| KFlexFlow
| KFlexGrow
| KFlexShrink
| KFlexWrap
| KFloat
| KFloatDefer
| KFloatOffset
| KFloatReference
| KFloodColor
| KFloodOpacity
| KFlow
| KFlowFrom
| KFlowInto
| KFont
| KFontFamily
| KFontFeatureSettings
| KFontKerning
| KFontLanguageOverride
| KFontOpticalSizing
| KFontPalette
| KFontSize
| KFontSizeAdjust
| KFontStretch
| KFontStyle
| KFontSynthesis
| KFontSynthesisPosition
| KFontSynthesisSmallCaps
| KFontSynthesisStyle
| KFontSynthesisWeight
| KFontVariant
| KFontVariantAlternates
| KFontVariantCaps
| KFontVariantEastAsian
| KFontVariantEmoji
| KFontVariantLigatures
| KFontVariantNumeric
| KFontVariantPosition
| KFontVariationSettings
| KFontWeight
| KFontWidth
| KFootnoteDisplay
| KFootnotePolicy
| KForcedColorAdjust
| KGap
| KGlyphOrientationVertical
| KGrid
| KGridArea
| KGridAutoColumns
| KGridAutoFlow
| KGridAutoRows
| KGridColumn
| KGridColumnEnd
| KGridColumnStart
| KGridRow
| KGridRowEnd
| KGridRowStart
| KGridTemplate
| KGridTemplateAreas
| KGridTemplateColumns
| KGridTemplateRows
| KHangingPunctuation
| KHeight
| KHyphenateCharacter
| KHyphenateLimitChars
| KHyphenateLimitLast
| KHyphenateLimitLines
| KHyphenateLimitZone
| KHyphens
| KImageOrientation
| KImageRendering
| KImageResolution
| KInitialLetter
| KInitialLetterAlign
| KInitialLetterWrap
| KInlineSize
| KInlineSizing
| KInputSecurity
| KInset
| KInsetArea
| KInsetBlock
| KInsetBlockEnd
| KInsetBlockStart
| KInsetInline
| KInsetInlineEnd
| KInsetInlineStart
| KIsolation
| KJustifyContent
| KJustifyItems
| KJustifySelf
| KLeft
| KLetterSpacing
| KLightingColor
| KLineBreak
| KLineClamp
| KLineFitEdge
| KLineGrid
| KLineHeight
| KLineHeightStep
| KLinePadding
| KLineSnap
| KListStyle
| KListStyleImage
| KListStylePosition
| KListStyleType
| KMargin
| KMarginBlock
| KMarginBlockEnd
| KMarginBlockStart
| KMarginBottom
| KMarginBreak
| KMarginInline
| KMarginInlineEnd
| KMarginInlineStart
| KMarginLeft
| KMarginRight
| KMarginTop
| KMarginTrim
| KMarker
| KMarkerEnd
| KMarkerKnockoutLeft
| KMarkerKnockoutRight
| KMarkerMid
| KMarkerPattern
| KMarkerSegment
| KMarkerSide
| KMarkerStart
| KMask
| KMaskBorder
| KMaskBorderMode
| KMaskBorderOutset
| KMaskBorderRepeat
| KMaskBorderSlice
| KMaskBorderSource
| KMaskBorderWidth
| KMaskClip
| KMaskComposite
| KMaskImage
| KMaskMode
| KMaskOrigin
| KMaskPosition
| KMaskRepeat
| KMaskSize
| KMaskType
| KMaxBlockSize
| KMaxHeight
| KMaxInlineSize
| KMaxLines
| KMaxWidth
| KMinBlockSize
| KMinHeight
| KMinInlineSize
| KMinIntrinsicSizing
| KMinWidth
| KMixBlendMode
| KNavDown
| KNavLeft
| KNavRight
| KNavUp
| KObjectFit
| KObjectPosition
| KOffset
| KOffsetAnchor
| KOffsetDistance
| KOffsetPath
| KOffsetPosition
| KOffsetRotate
| KOpacity
| KOrder
| KOrphans
| KOutline
| KOutlineColor
| KOutlineOffset
| KOutlineStyle
| KOutlineWidth
| KOverflow
| KOverflowAnchor
| KOverflowBlock
| KOverflowClipMargin
| KOverflowClipMarginBlock
| KOverflowClipMarginBlockEnd
| KOverflowClipMarginBlockStart
| KOverflowClipMarginBottom
| KOverflowClipMarginInline
| KOverflowClipMarginInlineEnd
| KOverflowClipMarginInlineStart
| KOverflowClipMarginLeft
| KOverflowClipMarginRight
| KOverflowClipMarginTop
| KOverflowInline
| KOverflowWrap
| KOverflowX
| KOverflowY
| KOverscrollBehavior
| KOverscrollBehaviorBlock
| KOverscrollBehaviorInline
| KOverscrollBehaviorX
| KOverscrollBehaviorY
| KPadding
| KPaddingBlock
| KPaddingBlockEnd
| KPaddingBlockStart
| KPaddingBottom
| KPaddingInline
| KPaddingInlineEnd
| KPaddingInlineStart
| KPaddingLeft
| KPaddingRight
| KPaddingTop
| KPage
| KPageBreakAfter
| KPageBreakBefore
| KPageBreakInside
| KPause
| KPauseAfter
| KPauseBefore
| KPerspective
| KPerspectiveOrigin
| KPitch
| KPitchRange
| KPlaceContent
| KPlaceItems
| KPlaceSelf
| KPlayDuring
| KPointerEvents
| KPosition
| KPositionAnchor
| KPositionArea
| KPositionTry
| KPositionTryFallbacks
| KPositionTryOptions
| KPositionTryOrder
| KPositionVisibility
| KPrintColorAdjust
| KPropertyName
| KQuotes
| KRegionFragment
| KResize
| KRest
| KRestAfter
| KRestBefore
| KRichness
| KRight
| KRotate
| KRowGap
| KRubyAlign
| KRubyMerge
| KRubyOverhang
| KRubyPosition
| KRunning
| KScale
| KScrollBehavior
| KScrollMargin
| KScrollMarginBlock
| KScrollMarginBlockEnd
| KScrollMarginBlockStart
| KScrollMarginBottom
| KScrollMarginInline
| KScrollMarginInlineEnd
| KScrollMarginInlineStart
| KScrollMarginLeft
| KScrollMarginRight
| KScrollMarginTop
| KScrollPadding
| KScrollPaddingBlock
| KScrollPaddingBlockEnd
| KScrollPaddingBlockStart
| KScrollPaddingBottom
| KScrollPaddingInline
| KScrollPaddingInlineEnd
| KScrollPaddingInlineStart
| KScrollPaddingLeft
| KScrollPaddingRight
| KScrollPaddingTop
| KScrollSnapAlign
| KScrollSnapStop
| KScrollSnapType
| KScrollStartTarget
| KScrollTimeline
| KScrollTimelineAxis
| KScrollTimelineName
| KScrollbarColor
| KScrollbarGutter
| KScrollbarWidth
| KShapeImageThreshold
| KShapeInside
| KShapeMargin
| KShapeOutside
| KSpatialNavigationAction
| KSpatialNavigationContain
| KSpatialNavigationFunction
| KSpeak
| KSpeakAs
| KSpeakHeader
| KSpeakNumeral
| KSpeakPunctuation
| KSpeechRate
| KStress
| KStringSet
| KStroke
| KStrokeAlign
| KStrokeAlignment
| KStrokeBreak
| KStrokeColor
| KStrokeDashCorner
| KStrokeDashJustify
| KStrokeDashadjust
| KStrokeDasharray
| KStrokeDashcorner
| KStrokeDashoffset
| KStrokeImage
| KStrokeLinecap
| KStrokeLinejoin
| KStrokeMiterlimit
| KStrokeOpacity
| KStrokeOrigin
| KStrokePosition
| KStrokeRepeat
| KStrokeSize
| KStrokeWidth
| KTabSize
| KTableLayout
| KTextAlign
| KTextAlignAll
| KTextAlignLast
| KTextAutospace
| KTextBox
| KTextBoxEdge
| KTextBoxTrim
| KTextCombineUpright
| KTextDecoration
| KTextDecorationColor
| KTextDecorationLine
| KTextDecorationSkip
| KTextDecorationSkipBox
| KTextDecorationSkipInk
| KTextDecorationSkipInset
| KTextDecorationSkipSelf
| KTextDecorationSkipSpaces
| KTextDecorationStyle
| KTextDecorationThickness
| KTextDecorationTrim
| KTextEmphasis
| KTextEmphasisColor
| KTextEmphasisPosition
| KTextEmphasisSkip
| KTextEmphasisStyle
| KTextGroupAlign
| KTextIndent
| KTextJustify
| KTextOrientation
| KTextOverflow
| KTextShadow
| KTextSpacing
| KTextSpacingTrim
| KTextTransform
| KTextUnderlineOffset
| KTextUnderlinePosition
| KTextWrap
| KTextWrapMode
| KTextWrapStyle
| KTimelineScope
| KTop
| KTransform
| KTransformBox
| KTransformOrigin
| KTransformStyle
| KTransition
| KTransitionBehavior
| KTransitionDelay
| KTransitionDuration
| KTransitionProperty
| KTransitionTimingFunction
| KTranslate
| KUnicodeBidi
| KUserSelect
| KVerticalAlign
| KViewTimeline
| KViewTimelineAxis
| KViewTimelineInset
| KViewTimelineName
| KViewTransitionClass
| KViewTransitionName
| KVisibility
| KVoiceBalance
| KVoiceDuration
| KVoiceFamily
| KVoicePitch
| KVoiceRange
| KVoiceRate
| KVoiceStress
| KVoiceVolume
| KVolume
| KWhiteSpace
| KWhiteSpaceCollapse
| KWhiteSpaceTrim
| KWidows
| KWidth
| KWillChange
| KWordBreak
| KWordSpaceTransform
| KWordSpacing
| KWordWrap
| KWrapAfter
| KWrapBefore
| KWrapFlow
| KWrapInside
| KWrapThrough
| KWritingMode
| KZIndex
| KZoom
.

Definition prop_index (k : PropertyKey) : nat :=
  match k with
  | KAccentColor => 0
  | KAlignContent => 1
  | KAlignItems => 2
  | KAlignSelf => 3
  | KAlignmentBaseline => 4
  | KAll => 5
  | KAnchorName => 6
  | KAnchorScope => 7
  | KAnimation => 8
  | KAnimationComposition => 9
  | KAnimationDelay => 10
  | KAnimationDirection => 11
  | KAnimationDuration => 12
  | KAnimationFillMode => 13
  | KAnimationIterationCount => 14
  | KAnimationName => 15
  | KAnimationPlayState => 16
  | KAnimationRange => 17
  | KAnimationRangeEnd => 18
  | KAnimationRangeStart => 19
  | KAnimationTimeline => 20
  | KAnimationTimingFunction => 21
  | KAppearance => 22
  | KAspectRatio => 23
  | KAzimuth => 24
  | KBackfaceVisibility => 25
  | KBackground => 26
  | KBackgroundAttachment => 27
  | KBackgroundBlendMode => 28
  | KBackgroundClip => 29
  | KBackgroundColor => 30
  | KBackgroundImage => 31
  | KBackgroundOrigin => 32
  | KBackgroundPosition => 33
  | KBackgroundPositionX => 34
  | KBackgroundPositionY => 35
  | KBackgroundRepeat => 36
  | KBackgroundSize => 37
  | KBaselineShift => 38
  | KBaselineSource => 39
  | KBlockEllipsis => 40
  | KBlockSize => 41
  | KBlockStep => 42
  | KBlockStepAlign => 43
  | KBlockStepInsert => 44
  | KBlockStepRound => 45
  | KBlockStepSize => 46
  | KBookmarkLabel => 47
  | KBookmarkLevel => 48
  | KBookmarkState => 49
  | KBorder => 50
  | KBorderBlock => 51
  | KBorderBlockColor => 52
  | KBorderBlockEnd => 53
  | KBorderBlockEndColor => 54
  | KBorderBlockEndStyle => 55
  | KBorderBlockEndWidth => 56
  | KBorderBlockStart => 57
  | KBorderBlockStartColor => 58
  | KBorderBlockStartStyle => 59
  | KBorderBlockStartWidth => 60
  | KBorderBlockStyle => 61
  | KBorderBlockWidth => 62
  | KBorderBottom => 63
  | KBorderBottomColor => 64
  | KBorderBottomLeftRadius => 65
  | KBorderBottomRightRadius => 66
  | KBorderBottomStyle => 67
  | KBorderBottomWidth => 68
  | KBorderBoundary => 69
  | KBorderCollapse => 70
  | KBorderColor => 71
  | KBorderEndEndRadius => 72
  | KBorderEndStartRadius => 73
  | KBorderImage => 74
  | KBorderImageOutset => 75
  | KBorderImageRepeat => 76
  | KBorderImageSlice => 77
  | KBorderImageSource => 78
  | KBorderImageWidth => 79
  | KBorderInline => 80
  | KBorderInlineColor => 81
  | KBorderInlineEnd => 82
  | KBorderInlineEndColor => 83
  | KBorderInlineEndStyle => 84
  | KBorderInlineEndWidth => 85
  | KBorderInlineStart => 86
  | KBorderInlineStartColor => 87
  | KBorderInlineStartStyle => 88
  | KBorderInlineStartWidth => 89
  | KBorderInlineStyle => 90
  | KBorderInlineWidth => 91
  | KBorderLeft => 92
  | KBorderLeftColor => 93
  | KBorderLeftStyle => 94
  | KBorderLeftWidth => 95
  | KBorderRadius => 96
  | KBorderRight => 97
  | KBorderRightColor => 98
  | KBorderRightStyle => 99
  | KBorderRightWidth => 100
  | KBorderSpacing => 101
  | KBorderStartEndRadius => 102
  | KBorderStartStartRadius => 103
  | KBorderStyle => 104
  | KBorderTop => 105
  | KBorderTopColor => 106
  | KBorderTopLeftRadius => 107
  | KBorderTopRightRadius => 108
  | KBorderTopStyle => 109
  | KBorderTopWidth => 110
  | KBorderWidth => 111
  | KBottom => 112
  | KBoxDecorationBreak => 113
  | KBoxShadow => 114
  | KBoxSizing => 115
  | KBoxSnap => 116
  | KBreakAfter => 117
  | KBreakBefore => 118
  | KBreakInside => 119
  | KCaptionSide => 120
  | KCaret => 121
  | KCaretAnimation => 122
  | KCaretColor => 123
  | KCaretShape => 124
  | KChains => 125
  | KClear => 126
  | KClip => 127
  | KClipPath => 128
  | KClipRule => 129
  | KColor => 130
  | KColorAdjust => 131
  | KColorInterpolationFilters => 132
  | KColorScheme => 133
  | KColumnCount => 134
  | KColumnFill => 135
  | KColumnGap => 136
  | KColumnRule => 137
  | KColumnRuleColor => 138
  | KColumnRuleStyle => 139
  | KColumnRuleWidth => 140
  | KColumnSpan => 141
  | KColumnWidth => 142
  | KColumns => 143
  | KContain => 144
  | KContainIntrinsicBlockSize => 145
  | KContainIntrinsicHeight => 146
  | KContainIntrinsicInlineSize => 147
  | KContainIntrinsicSize => 148
  | KContainIntrinsicWidth => 149
  | KContainer => 150
  | KContainerName => 151
  | KContainerType => 152
  | KContent => 153
  | KContentVisibility => 154
  | KContinue => 155
  | KCounterIncrement => 156
  | KCounterReset => 157
  | KCounterSet => 158
  | KCue => 159
  | KCueAfter => 160
  | KCueBefore => 161
  | KCursor => 162
  | KDirection => 163
  | KDisplay => 164
  | KDominantBaseline => 165
  | KElevation => 166
  | KEmptyCells => 167
  | KFieldSizing => 168
  | KFill => 169
  | KFillBreak => 170
  | KFillColor => 171
  | KFillImage => 172
  | KFillOpacity => 173
  | KFillOrigin => 174
  | KFillPosition => 175
  | KFillRepeat => 176
  | KFillRule => 177
  | KFillSize => 178
  | KFilter => 179
  | KFlex => 180
  | KFlexBasis => 181
  | KFlexDirection => 182
  | KFlexFlow => 183
  | KFlexGrow => 184
  | KFlexShrink => 185
  | KFlexWrap => 186
  | KFloat => 187
  | KFloatDefer => 188
  | KFloatOffset => 189
  | KFloatReference => 190
  | KFloodColor => 191
  | KFloodOpacity => 192
  | KFlow => 193
  | KFlowFrom => 194
  | KFlowInto => 195
  | KFont => 196
  | KFontFamily => 197
  | KFontFeatureSettings => 198
  | KFontKerning => 199
  | KFontLanguageOverride => 200
  | KFontOpticalSizing => 201
  | KFontPalette => 202
  | KFontSize => 203
  | KFontSizeAdjust => 204
  | KFontStretch => 205
  | KFontStyle => 206
  | KFontSynthesis => 207
  | KFontSynthesisPosition => 208
  | KFontSynthesisSmallCaps => 209
  | KFontSynthesisStyle => 210
  | KFontSynthesisWeight => 211
  | KFontVariant => 212
  | KFontVariantAlternates => 213
  | KFontVariantCaps => 214
  | KFontVariantEastAsian => 215
  | KFontVariantEmoji => 216
  | KFontVariantLigatures => 217
  | KFontVariantNumeric => 218
  | KFontVariantPosition => 219
  | KFontVariationSettings => 220
  | KFontWeight => 221
  | KFontWidth => 222
  | KFootnoteDisplay => 223
  | KFootnotePolicy => 224
  | KForcedColorAdjust => 225
  | KGap => 226
  | KGlyphOrientationVertical => 227
  | KGrid => 228
  | KGridArea => 229
  | KGridAutoColumns => 230
  | KGridAutoFlow => 231
  | KGridAutoRows => 232
  | KGridColumn => 233
  | KGridColumnEnd => 234
  | KGridColumnStart => 235
  | KGridRow => 236
  | KGridRowEnd => 237
  | KGridRowStart => 238
  | KGridTemplate => 239
  | KGridTemplateAreas => 240
  | KGridTemplateColumns => 241
  | KGridTemplateRows => 242
  | KHangingPunctuation => 243
  | KHeight => 244
  | KHyphenateCharacter => 245
  | KHyphenateLimitChars => 246
  | KHyphenateLimitLast => 247
  | KHyphenateLimitLines => 248
  | KHyphenateLimitZone => 249
  | KHyphens => 250
  | KImageOrientation => 251
  | KImageRendering => 252
  | KImageResolution => 253
  | KInitialLetter => 254
  | KInitialLetterAlign => 255
  | KInitialLetterWrap => 256
  | KInlineSize => 257
  | KInlineSizing => 258
  | KInputSecurity => 259
  | KInset => 260
  | KInsetArea => 261
  | KInsetBlock => 262
  | KInsetBlockEnd => 263
  | KInsetBlockStart => 264
  | KInsetInline => 265
  | KInsetInlineEnd => 266
  | KInsetInlineStart => 267
  | KIsolation => 268
  | KJustifyContent => 269
  | KJustifyItems => 270
  | KJustifySelf => 271
  | KLeft => 272
  | KLetterSpacing => 273
  | KLightingColor => 274
  | KLineBreak => 275
  | KLineClamp => 276
  | KLineFitEdge => 277
  | KLineGrid => 278
  | KLineHeight => 279
  | KLineHeightStep => 280
  | KLinePadding => 281
  | KLineSnap => 282
  | KListStyle => 283
  | KListStyleImage => 284
  | KListStylePosition => 285
  | KListStyleType => 286
  | KMargin => 287
  | KMarginBlock => 288
  | KMarginBlockEnd => 289
  | KMarginBlockStart => 290
  | KMarginBottom => 291
  | KMarginBreak => 292
  | KMarginInline => 293
  | KMarginInlineEnd => 294
  | KMarginInlineStart => 295
  | KMarginLeft => 296
  | KMarginRight => 297
  | KMarginTop => 298
  | KMarginTrim => 299
  | KMarker => 300
  | KMarkerEnd => 301
  | KMarkerKnockoutLeft => 302
  | KMarkerKnockoutRight => 303
  | KMarkerMid => 304
  | KMarkerPattern => 305
  | KMarkerSegment => 306
  | KMarkerSide => 307
  | KMarkerStart => 308
  | KMask => 309
  | KMaskBorder => 310
  | KMaskBorderMode => 311
  | KMaskBorderOutset => 312
  | KMaskBorderRepeat => 313
  | KMaskBorderSlice => 314
  | KMaskBorderSource => 315
  | KMaskBorderWidth => 316
  | KMaskClip => 317
  | KMaskComposite => 318
  | KMaskImage => 319
  | KMaskMode => 320
  | KMaskOrigin => 321
  | KMaskPosition => 322
  | KMaskRepeat => 323
  | KMaskSize => 324
  | KMaskType => 325
  | KMaxBlockSize => 326
  | KMaxHeight => 327
  | KMaxInlineSize => 328
  | KMaxLines => 329
  | KMaxWidth => 330
  | KMinBlockSize => 331
  | KMinHeight => 332
  | KMinInlineSize => 333
  | KMinIntrinsicSizing => 334
  | KMinWidth => 335
  | KMixBlendMode => 336
  | KNavDown => 337
  | KNavLeft => 338
  | KNavRight => 339
  | KNavUp => 340
  | KObjectFit => 341
  | KObjectPosition => 342
  | KOffset => 343
  | KOffsetAnchor => 344
  | KOffsetDistance => 345
  | KOffsetPath => 346
  | KOffsetPosition => 347
  | KOffsetRotate => 348
  | KOpacity => 349
  | KOrder => 350
  | KOrphans => 351
  | KOutline => 352
  | KOutlineColor => 353
  | KOutlineOffset => 354
  | KOutlineStyle => 355
  | KOutlineWidth => 356
  | KOverflow => 357
  | KOverflowAnchor => 358
  | KOverflowBlock => 359
  | KOverflowClipMargin => 360
  | KOverflowClipMarginBlock => 361
  | KOverflowClipMarginBlockEnd => 362
  | KOverflowClipMarginBlockStart => 363
  | KOverflowClipMarginBottom => 364
  | KOverflowClipMarginInline => 365
  | KOverflowClipMarginInlineEnd => 366
  | KOverflowClipMarginInlineStart => 367
  | KOverflowClipMarginLeft => 368
  | KOverflowClipMarginRight => 369
  | KOverflowClipMarginTop => 370
  | KOverflowInline => 371
  | KOverflowWrap => 372
  | KOverflowX => 373
  | KOverflowY => 374
  | KOverscrollBehavior => 375
  | KOverscrollBehaviorBlock => 376
  | KOverscrollBehaviorInline => 377
  | KOverscrollBehaviorX => 378
  | KOverscrollBehaviorY => 379
  | KPadding => 380
  | KPaddingBlock => 381
  | KPaddingBlockEnd => 382
  | KPaddingBlockStart => 383
  | KPaddingBottom => 384
  | KPaddingInline => 385
  | KPaddingInlineEnd => 386
  | KPaddingInlineStart => 387
  | KPaddingLeft => 388
  | KPaddingRight => 389
  | KPaddingTop => 390
  | KPage => 391
  | KPageBreakAfter => 392
  | KPageBreakBefore => 393
  | KPageBreakInside => 394
  | KPause => 395
  | KPauseAfter => 396
  | KPauseBefore => 397
  | KPerspective => 398
  | KPerspectiveOrigin => 399
  | KPitch => 400
  | KPitchRange => 401
  | KPlaceContent => 402
  | KPlaceItems => 403
  | KPlaceSelf => 404
  | KPlayDuring => 405
  | KPointerEvents => 406
  | KPosition => 407
  | KPositionAnchor => 408
  | KPositionArea => 409
  | KPositionTry => 410
  | KPositionTryFallbacks => 411
  | KPositionTryOptions => 412
  | KPositionTryOrder => 413
  | KPositionVisibility => 414
  | KPrintColorAdjust => 415
  | KPropertyName => 416
  | KQuotes => 417
  | KRegionFragment => 418
  | KResize => 419
  | KRest => 420
  | KRestAfter => 421
  | KRestBefore => 422
  | KRichness => 423
  | KRight => 424
  | KRotate => 425
  | KRowGap => 426
  | KRubyAlign => 427
  | KRubyMerge => 428
  | KRubyOverhang => 429
  | KRubyPosition => 430
  | KRunning => 431
  | KScale => 432
  | KScrollBehavior => 433
  | KScrollMargin => 434
  | KScrollMarginBlock => 435
  | KScrollMarginBlockEnd => 436
  | KScrollMarginBlockStart => 437
  | KScrollMarginBottom => 438
  | KScrollMarginInline => 439
  | KScrollMarginInlineEnd => 440
  | KScrollMarginInlineStart => 441
  | KScrollMarginLeft => 442
  | KScrollMarginRight => 443
  | KScrollMarginTop => 444
  | KScrollPadding => 445
  | KScrollPaddingBlock => 446
  | KScrollPaddingBlockEnd => 447
  | KScrollPaddingBlockStart => 448
  | KScrollPaddingBottom => 449
  | KScrollPaddingInline => 450
  | KScrollPaddingInlineEnd => 451
  | KScrollPaddingInlineStart => 452
  | KScrollPaddingLeft => 453
  | KScrollPaddingRight => 454
  | KScrollPaddingTop => 455
  | KScrollSnapAlign => 456
  | KScrollSnapStop => 457
  | KScrollSnapType => 458
  | KScrollStartTarget => 459
  | KScrollTimeline => 460
  | KScrollTimelineAxis => 461
  | KScrollTimelineName => 462
  | KScrollbarColor => 463
  | KScrollbarGutter => 464
  | KScrollbarWidth => 465
  | KShapeImageThreshold => 466
  | KShapeInside => 467
  | KShapeMargin => 468
  | KShapeOutside => 469
  | KSpatialNavigationAction => 470
  | KSpatialNavigationContain => 471
  | KSpatialNavigationFunction => 472
  | KSpeak => 473
  | KSpeakAs => 474
  | KSpeakHeader => 475
  | KSpeakNumeral => 476
  | KSpeakPunctuation => 477
  | KSpeechRate => 478
  | KStress => 479
  | KStringSet => 480
  | KStroke => 481
  | KStrokeAlign => 482
  | KStrokeAlignment => 483
  | KStrokeBreak => 484
  | KStrokeColor => 485
  | KStrokeDashCorner => 486
  | KStrokeDashJustify => 487
  | KStrokeDashadjust => 488
  | KStrokeDasharray => 489
  | KStrokeDashcorner => 490
  | KStrokeDashoffset => 491
  | KStrokeImage => 492
  | KStrokeLinecap => 493
  | KStrokeLinejoin => 494
  | KStrokeMiterlimit => 495
  | KStrokeOpacity => 496
  | KStrokeOrigin => 497
  | KStrokePosition => 498
  | KStrokeRepeat => 499
  | KStrokeSize => 500
  | KStrokeWidth => 501
  | KTabSize => 502
  | KTableLayout => 503
  | KTextAlign => 504
  | KTextAlignAll => 505
  | KTextAlignLast => 506
  | KTextAutospace => 507
  | KTextBox => 508
  | KTextBoxEdge => 509
  | KTextBoxTrim => 510
  | KTextCombineUpright => 511
  | KTextDecoration => 512
  | KTextDecorationColor => 513
  | KTextDecorationLine => 514
  | KTextDecorationSkip => 515
  | KTextDecorationSkipBox => 516
  | KTextDecorationSkipInk => 517
  | KTextDecorationSkipInset => 518
  | KTextDecorationSkipSelf => 519
  | KTextDecorationSkipSpaces => 520
  | KTextDecorationStyle => 521
  | KTextDecorationThickness => 522
  | KTextDecorationTrim => 523
  | KTextEmphasis => 524
  | KTextEmphasisColor => 525
  | KTextEmphasisPosition => 526
  | KTextEmphasisSkip => 527
  | KTextEmphasisStyle => 528
  | KTextGroupAlign => 529
  | KTextIndent => 530
  | KTextJustify => 531
  | KTextOrientation => 532
  | KTextOverflow => 533
  | KTextShadow => 534
  | KTextSpacing => 535
  | KTextSpacingTrim => 536
  | KTextTransform => 537
  | KTextUnderlineOffset => 538
  | KTextUnderlinePosition => 539
  | KTextWrap => 540
  | KTextWrapMode => 541
  | KTextWrapStyle => 542
  | KTimelineScope => 543
  | KTop => 544
  | KTransform => 545
  | KTransformBox => 546
  | KTransformOrigin => 547
  | KTransformStyle => 548
  | KTransition => 549
  | KTransitionBehavior => 550
  | KTransitionDelay => 551
  | KTransitionDuration => 552
  | KTransitionProperty => 553
  | KTransitionTimingFunction => 554
  | KTranslate => 555
  | KUnicodeBidi => 556
  | KUserSelect => 557
  | KVerticalAlign => 558
  | KViewTimeline => 559
  | KViewTimelineAxis => 560
  | KViewTimelineInset => 561
  | KViewTimelineName => 562
  | KViewTransitionClass => 563
  | KViewTransitionName => 564
  | KVisibility => 565
  | KVoiceBalance => 566
  | KVoiceDuration => 567
  | KVoiceFamily => 568
  | KVoicePitch => 569
  | KVoiceRange => 570
  | KVoiceRate => 571
  | KVoiceStress => 572
  | KVoiceVolume => 573
  | KVolume => 574
  | KWhiteSpace => 575
  | KWhiteSpaceCollapse => 576
  | KWhiteSpaceTrim => 577
  | KWidows => 578
  | KWidth => 579
  | KWillChange => 580
  | KWordBreak => 581
  | KWordSpaceTransform => 582
  | KWordSpacing => 583
  | KWordWrap => 584
  | KWrapAfter => 585
  | KWrapBefore => 586
  | KWrapFlow => 587
  | KWrapInside => 588
  | KWrapThrough => 589
  | KWritingMode => 590
  | KZIndex => 591
  | KZoom => 592
  end.

Definition all_keys : list PropertyKey :=
  [KAccentColor; KAlignContent; KAlignItems; KAlignSelf; KAlignmentBaseline; KAll; KAnchorName; KAnchorScope; KAnimation; KAnimationComposition; KAnimationDelay; KAnimationDirection; KAnimationDuration; KAnimationFillMode; KAnimationIterationCount; KAnimationName; KAnimationPlayState; KAnimationRange; KAnimationRangeEnd; KAnimationRangeStart; KAnimationTimeline; KAnimationTimingFunction; KAppearance; KAspectRatio; KAzimuth; KBackfaceVisibility; KBackground; KBackgroundAttachment; KBackgroundBlendMode; KBackgroundClip; KBackgroundColor; KBackgroundImage; KBackgroundOrigin; KBackgroundPosition; KBackgroundPositionX; KBackgroundPositionY; KBackgroundRepeat; KBackgroundSize; KBaselineShift; KBaselineSource; KBlockEllipsis; KBlockSize; KBlockStep; KBlockStepAlign; KBlockStepInsert; KBlockStepRound; KBlockStepSize; KBookmarkLabel; KBookmarkLevel; KBookmarkState; KBorder; KBorderBlock; KBorderBlockColor; KBorderBlockEnd; KBorderBlockEndColor; KBorderBlockEndStyle; KBorderBlockEndWidth; KBorderBlockStart; KBorderBlockStartColor; KBorderBlockStartStyle; KBorderBlockStartWidth; KBorderBlockStyle; KBorderBlockWidth; KBorderBottom; KBorderBottomColor; KBorderBottomLeftRadius; KBorderBottomRightRadius; KBorderBottomStyle; KBorderBottomWidth; KBorderBoundary; KBorderCollapse; KBorderColor; KBorderEndEndRadius; KBorderEndStartRadius; KBorderImage; KBorderImageOutset; KBorderImageRepeat; KBorderImageSlice; KBorderImageSource; KBorderImageWidth; KBorderInline; KBorderInlineColor; KBorderInlineEnd; KBorderInlineEndColor; KBorderInlineEndStyle; KBorderInlineEndWidth; KBorderInlineStart; KBorderInlineStartColor; KBorderInlineStartStyle; KBorderInlineStartWidth; KBorderInlineStyle; KBorderInlineWidth; KBorderLeft; KBorderLeftColor; KBorderLeftStyle; KBorderLeftWidth; KBorderRadius; KBorderRight; KBorderRightColor; KBorderRightStyle; KBorderRightWidth; KBorderSpacing; KBorderStartEndRadius; KBorderStartStartRadius; KBorderStyle; KBorderTop; KBorderTopColor; KBorderTopLeftRadius; KBorderTopRightRadius; KBorderTopStyle; KBorderTopWidth; KBorderWidth; KBottom; KBoxDecorationBreak; KBoxShadow; KBoxSizing; KBoxSnap; KBreakAfter; KBreakBefore; KBreakInside; KCaptionSide; KCaret; KCaretAnimation; KCaretColor; KCaretShape; KChains; KClear; KClip; KClipPath; KClipRule; KColor; KColorAdjust; KColorInterpolationFilters; KColorScheme; KColumnCount; KColumnFill; KColumnGap; KColumnRule; KColumnRuleColor; KColumnRuleStyle; KColumnRuleWidth; KColumnSpan; KColumnWidth; KColumns; KContain; KContainIntrinsicBlockSize; KContainIntrinsicHeight; KContainIntrinsicInlineSize; KContainIntrinsicSize; KContainIntrinsicWidth; KContainer; KContainerName; KContainerType; KContent; KContentVisibility; KContinue; KCounterIncrement; KCounterReset; KCounterSet; KCue; KCueAfter; KCueBefore; KCursor; KDirection; KDisplay; KDominantBaseline; KElevation; KEmptyCells; KFieldSizing; KFill; KFillBreak; KFillColor; KFillImage; KFillOpacity; KFillOrigin; KFillPosition; KFillRepeat; KFillRule; KFillSize; KFilter; KFlex; KFlexBasis; KFlexDirection; KFlexFlow; KFlexGrow; KFlexShrink; KFlexWrap; KFloat; KFloatDefer; KFloatOffset; KFloatReference; KFloodColor; KFloodOpacity; KFlow; KFlowFrom; KFlowInto; KFont; KFontFamily; KFontFeatureSettings; KFontKerning; KFontLanguageOverride; KFontOpticalSizing; KFontPalette; KFontSize; KFontSizeAdjust; KFontStretch; KFontStyle; KFontSynthesis; KFontSynthesisPosition; KFontSynthesisSmallCaps; KFontSynthesisStyle; KFontSynthesisWeight; KFontVariant; KFontVariantAlternates; KFontVariantCaps; KFontVariantEastAsian; KFontVariantEmoji; KFontVariantLigatures; KFontVariantNumeric; KFontVariantPosition; KFontVariationSettings; KFontWeight; KFontWidth; KFootnoteDisplay; KFootnotePolicy; KForcedColorAdjust; KGap; KGlyphOrientationVertical; KGrid; KGridArea; KGridAutoColumns; KGridAutoFlow; KGridAutoRows; KGridColumn; KGridColumnEnd; KGridColumnStart; KGridRow; KGridRowEnd; KGridRowStart; KGridTemplate; KGridTemplateAreas; KGridTemplateColumns; KGridTemplateRows; KHangingPunctuation; KHeight; KHyphenateCharacter; KHyphenateLimitChars; KHyphenateLimitLast; KHyphenateLimitLines; KHyphenateLimitZone; KHyphens; KImageOrientation; KImageRendering; KImageResolution; KInitialLetter; KInitialLetterAlign; KInitialLetterWrap; KInlineSize; KInlineSizing; KInputSecurity; KInset; KInsetArea; KInsetBlock; KInsetBlockEnd; KInsetBlockStart; KInsetInline; KInsetInlineEnd; KInsetInlineStart; KIsolation; KJustifyContent; KJustifyItems; KJustifySelf; KLeft; KLetterSpacing; KLightingColor; KLineBreak; KLineClamp; KLineFitEdge; KLineGrid; KLineHeight; KLineHeightStep; KLinePadding; KLineSnap; KListStyle; KListStyleImage; KListStylePosition; KListStyleType; KMargin; KMarginBlock; KMarginBlockEnd; KMarginBlockStart; KMarginBottom; KMarginBreak; KMarginInline; KMarginInlineEnd; KMarginInlineStart; KMarginLeft; KMarginRight; KMarginTop; KMarginTrim; KMarker; KMarkerEnd; KMarkerKnockoutLeft; KMarkerKnockoutRight; KMarkerMid; KMarkerPattern; KMarkerSegment; KMarkerSide; KMarkerStart; KMask; KMaskBorder; KMaskBorderMode; KMaskBorderOutset; KMaskBorderRepeat; KMaskBorderSlice; KMaskBorderSource; KMaskBorderWidth; KMaskClip; KMaskComposite; KMaskImage; KMaskMode; KMaskOrigin; KMaskPosition; KMaskRepeat; KMaskSize; KMaskType; KMaxBlockSize; KMaxHeight; KMaxInlineSize; KMaxLines; KMaxWidth; KMinBlockSize; KMinHeight; KMinInlineSize; KMinIntrinsicSizing; KMinWidth; KMixBlendMode; KNavDown; KNavLeft; KNavRight; KNavUp; KObjectFit; KObjectPosition; KOffset; KOffsetAnchor; KOffsetDistance; KOffsetPath; KOffsetPosition; KOffsetRotate; KOpacity; KOrder; KOrphans; KOutline; KOutlineColor; KOutlineOffset; KOutlineStyle; KOutlineWidth; KOverflow; KOverflowAnchor; KOverflowBlock; KOverflowClipMargin; KOverflowClipMarginBlock; KOverflowClipMarginBlockEnd; KOverflowClipMarginBlockStart; KOverflowClipMarginBottom; KOverflowClipMarginInline; KOverflowClipMarginInlineEnd; KOverflowClipMarginInlineStart; KOverflowClipMarginLeft; KOverflowClipMarginRight; KOverflowClipMarginTop; KOverflowInline; KOverflowWrap; KOverflowX; KOverflowY; KOverscrollBehavior; KOverscrollBehaviorBlock; KOverscrollBehaviorInline; KOverscrollBehaviorX; KOverscrollBehaviorY; KPadding; KPaddingBlock; KPaddingBlockEnd; KPaddingBlockStart; KPaddingBottom; KPaddingInline; KPaddingInlineEnd; KPaddingInlineStart; KPaddingLeft; KPaddingRight; KPaddingTop; KPage; KPageBreakAfter; KPageBreakBefore; KPageBreakInside; KPause; KPauseAfter; KPauseBefore; KPerspective; KPerspectiveOrigin; KPitch; KPitchRange; KPlaceContent; KPlaceItems; KPlaceSelf; KPlayDuring; KPointerEvents; KPosition; KPositionAnchor; KPositionArea; KPositionTry; KPositionTryFallbacks; KPositionTryOptions; KPositionTryOrder; KPositionVisibility; KPrintColorAdjust; KPropertyName; KQuotes; KRegionFragment; KResize; KRest; KRestAfter; KRestBefore; KRichness; KRight; KRotate; KRowGap; KRubyAlign; KRubyMerge; KRubyOverhang; KRubyPosition; KRunning; KScale; KScrollBehavior; KScrollMargin; KScrollMarginBlock; KScrollMarginBlockEnd; KScrollMarginBlockStart; KScrollMarginBottom; KScrollMarginInline; KScrollMarginInlineEnd; KScrollMarginInlineStart; KScrollMarginLeft; KScrollMarginRight; KScrollMarginTop; KScrollPadding; KScrollPaddingBlock; KScrollPaddingBlockEnd; KScrollPaddingBlockStart; KScrollPaddingBottom; KScrollPaddingInline; KScrollPaddingInlineEnd; KScrollPaddingInlineStart; KScrollPaddingLeft; KScrollPaddingRight; KScrollPaddingTop; KScrollSnapAlign; KScrollSnapStop; KScrollSnapType; KScrollStartTarget; KScrollTimeline; KScrollTimelineAxis; KScrollTimelineName; KScrollbarColor; KScrollbarGutter; KScrollbarWidth; KShapeImageThreshold; KShapeInside; KShapeMargin; KShapeOutside; KSpatialNavigationAction; KSpatialNavigationContain; KSpatialNavigationFunction; KSpeak; KSpeakAs; KSpeakHeader; KSpeakNumeral; KSpeakPunctuation; KSpeechRate; KStress; KStringSet; KStroke; KStrokeAlign; KStrokeAlignment; KStrokeBreak; KStrokeColor; KStrokeDashCorner; KStrokeDashJustify; KStrokeDashadjust; KStrokeDasharray; KStrokeDashcorner; KStrokeDashoffset; KStrokeImage; KStrokeLinecap; KStrokeLinejoin; KStrokeMiterlimit; KStrokeOpacity; KStrokeOrigin; KStrokePosition; KStrokeRepeat; KStrokeSize; KStrokeWidth; KTabSize; KTableLayout; KTextAlign; KTextAlignAll; KTextAlignLast; KTextAutospace; KTextBox; KTextBoxEdge; KTextBoxTrim; KTextCombineUpright; KTextDecoration; KTextDecorationColor; KTextDecorationLine; KTextDecorationSkip; KTextDecorationSkipBox; KTextDecorationSkipInk; KTextDecorationSkipInset; KTextDecorationSkipSelf; KTextDecorationSkipSpaces; KTextDecorationStyle; KTextDecorationThickness; KTextDecorationTrim; KTextEmphasis; KTextEmphasisColor; KTextEmphasisPosition; KTextEmphasisSkip; KTextEmphasisStyle; KTextGroupAlign; KTextIndent; KTextJustify; KTextOrientation; KTextOverflow; KTextShadow; KTextSpacing; KTextSpacingTrim; KTextTransform; KTextUnderlineOffset; KTextUnderlinePosition; KTextWrap; KTextWrapMode; KTextWrapStyle; KTimelineScope; KTop; KTransform; KTransformBox; KTransformOrigin; KTransformStyle; KTransition; KTransitionBehavior; KTransitionDelay; KTransitionDuration; KTransitionProperty; KTransitionTimingFunction; KTranslate; KUnicodeBidi; KUserSelect; KVerticalAlign; KViewTimeline; KViewTimelineAxis; KViewTimelineInset; KViewTimelineName; KViewTransitionClass; KViewTransitionName; KVisibility; KVoiceBalance; KVoiceDuration; KVoiceFamily; KVoicePitch; KVoiceRange; KVoiceRate; KVoiceStress; KVoiceVolume; KVolume; KWhiteSpace; KWhiteSpaceCollapse; KWhiteSpaceTrim; KWidows; KWidth; KWillChange; KWordBreak; KWordSpaceTransform; KWordSpacing; KWordWrap; KWrapAfter; KWrapBefore; KWrapFlow; KWrapInside; KWrapThrough; KWritingMode; KZIndex; KZoom].

Lemma all_keys_lookup k : all_keys !! prop_index k = Some k.
Proof. destruct k; reflexivity. Qed.

Lemma prop_index_inj a b : prop_index a = prop_index b -> a = b.
Proof.
  intros H. pose proof (all_keys_lookup a) as Ha. rewrite H, all_keys_lookup in Ha. congruence.
Qed.

Lemma all_keys_complete k : In k all_keys.
Proof. apply elem_of_list_In, (elem_of_list_lookup_2 _ _ _ (all_keys_lookup k)). Qed.

(** Derived [PartialEq]/[Hash] of the enum. *)
Definition key_eqb (a b : PropertyKey) : bool := Nat.eqb (prop_index a) (prop_index b).

Lemma key_eqb_spec a b : key_eqb a b = true <-> a = b.
Proof.
  unfold key_eqb. rewrite Nat.eqb_eq. split; [apply prop_index_inj | now intros ->].
Qed.

#[global] Instance PropertyKey_eq_dec : EqDecision PropertyKey.
Proof.
  intros a b. destruct (Nat.eq_dec (prop_index a) (prop_index b)) as [H|H].
  - left. now apply prop_index_inj.
  - right. now intros ->.
Defined.

#[global] Instance PropertyKey_countable : Countable PropertyKey :=
  inj_countable prop_index (fun n => all_keys !! n) all_keys_lookup.

(** src/css/model.rs:811-1401: the arms of [PropertyKey::parse] in source order. *)
Definition parse_table : list (string * PropertyKey) :=
  [ ("accent-color", KAccentColor)
  ; ("align-content", KAlignContent)
  ; ("align-items", KAlignItems)
  ; ("align-self", KAlignSelf)
  ; ("alignment-baseline", KAlignmentBaseline)
  ; ("all", KAll)
  ; ("anchor-name", KAnchorName)
  ; ("anchor-scope", KAnchorScope)
  ; ("animation", KAnimation)
  ; ("animation-composition", KAnimationComposition)
  ; ("animation-delay", KAnimationDelay)
  ; ("animation-direction", KAnimationDirection)
  ; ("animation-duration", KAnimationDuration)
  ; ("animation-fill-mode", KAnimationFillMode)
  ; ("animation-iteration-count", KAnimationIterationCount)
  ; ("animation-name", KAnimationName)
  ; ("animation-play-state", KAnimationPlayState)
  ; ("animation-range", KAnimationRange)
  ; ("animation-range-end", KAnimationRangeEnd)
  ; ("animation-range-start", KAnimationRangeStart)
  ; ("animation-timeline", KAnimationTimeline)
  ; ("animation-timing-function", KAnimationTimingFunction)
  ; ("appearance", KAppearance)
  ; ("aspect-ratio", KAspectRatio)
  ; ("azimuth", KAzimuth)
  ; ("backface-visibility", KBackfaceVisibility)
  ; ("background", KBackground)
  ; ("background-attachment", KBackgroundAttachment)
  ; ("background-blend-mode", KBackgroundBlendMode)
  ; ("background-clip", KBackgroundClip)
  ; ("background-color", KBackgroundColor)
  ; ("background-image", KBackgroundImage)
  ; ("background-origin", KBackgroundOrigin)
  ; ("background-position", KBackgroundPosition)
  ; ("background-repeat", KBackgroundRepeat)
  ; ("background-size", KBackgroundSize)
  ; ("baseline-shift", KBaselineShift)
  ; ("baseline-source", KBaselineSource)
  ; ("block-ellipsis", KBlockEllipsis)
  ; ("block-size", KBlockSize)
  ; ("block-step", KBlockStep)
  ; ("block-step-align", KBlockStepAlign)
  ; ("block-step-insert", KBlockStepInsert)
  ; ("block-step-round", KBlockStepRound)
  ; ("block-step-size", KBlockStepSize)
  ; ("bookmark-label", KBookmarkLabel)
  ; ("bookmark-level", KBookmarkLevel)
  ; ("bookmark-state", KBookmarkState)
  ; ("border", KBorder)
  ; ("border-block", KBorderBlock)
  ; ("border-block-color", KBorderBlockColor)
  ; ("border-block-end", KBorderBlockEnd)
  ; ("border-block-end-color", KBorderBlockEndColor)
  ; ("border-block-end-styles", KBorderBlockEndStyle)
  ; ("border-block-end-width", KBorderBlockEndWidth)
  ; ("border-block-start", KBorderBlockStart)
  ; ("border-block-start-color", KBorderBlockStartColor)
  ; ("border-block-start-styles", KBorderBlockStartStyle)
  ; ("border-block-start-width", KBorderBlockStartWidth)
  ; ("border-block-styles", KBorderBlockStyle)
  ; ("border-block-width", KBorderBlockWidth)
  ; ("border-bottom", KBorderBottom)
  ; ("border-bottom-color", KBorderBottomColor)
  ; ("border-bottom-left-radius", KBorderBottomLeftRadius)
  ; ("border-bottom-right-radius", KBorderBottomRightRadius)
  ; ("border-bottom-styles", KBorderBottomStyle)
  ; ("border-bottom-width", KBorderBottomWidth)
  ; ("border-boundary", KBorderBoundary)
  ; ("border-collapse", KBorderCollapse)
  ; ("border-color", KBorderColor)
  ; ("border-end-end-radius", KBorderEndEndRadius)
  ; ("border-end-start-radius", KBorderEndStartRadius)
  ; ("border-image", KBorderImage)
  ; ("border-image-outset", KBorderImageOutset)
  ; ("border-image-repeat", KBorderImageRepeat)
  ; ("border-image-slice", KBorderImageSlice)
  ; ("border-image-source", KBorderImageSource)
  ; ("border-image-width", KBorderImageWidth)
  ; ("border-inline", KBorderInline)
  ; ("border-inline-color", KBorderInlineColor)
  ; ("border-inline-end", KBorderInlineEnd)
  ; ("border-inline-end-color", KBorderInlineEndColor)
  ; ("border-inline-end-styles", KBorderInlineEndStyle)
  ; ("border-inline-end-width", KBorderInlineEndWidth)
  ; ("border-inline-start", KBorderInlineStart)
  ; ("border-inline-start-color", KBorderInlineStartColor)
  ; ("border-inline-start-styles", KBorderInlineStartStyle)
  ; ("border-inline-start-width", KBorderInlineStartWidth)
  ; ("border-inline-styles", KBorderInlineStyle)
  ; ("border-inline-width", KBorderInlineWidth)
  ; ("border-left", KBorderLeft)
  ; ("border-left-color", KBorderLeftColor)
  ; ("border-left-styles", KBorderLeftStyle)
  ; ("border-left-width", KBorderLeftWidth)
  ; ("border-radius", KBorderRadius)
  ; ("border-right", KBorderRight)
  ; ("border-right-color", KBorderRightColor)
  ; ("border-right-styles", KBorderRightStyle)
  ; ("border-right-width", KBorderRightWidth)
  ; ("border-spacing", KBorderSpacing)
  ; ("border-start-end-radius", KBorderStartEndRadius)
  ; ("border-start-start-radius", KBorderStartStartRadius)
  ; ("border-styles", KBorderStyle)
  ; ("border-top", KBorderTop)
  ; ("border-top-color", KBorderTopColor)
  ; ("border-top-left-radius", KBorderTopLeftRadius)
  ; ("border-top-right-radius", KBorderTopRightRadius)
  ; ("border-top-styles", KBorderTopStyle)
  ; ("border-top-width", KBorderTopWidth)
  ; ("border-width", KBorderWidth)
  ; ("bottom", KBottom)
  ; ("box-decoration-break", KBoxDecorationBreak)
  ; ("box-shadow", KBoxShadow)
  ; ("box-sizing", KBoxSizing)
  ; ("box-snap", KBoxSnap)
  ; ("break-after", KBreakAfter)
  ; ("break-before", KBreakBefore)
  ; ("break-inside", KBreakInside)
  ; ("caption-side", KCaptionSide)
  ; ("caret", KCaret)
  ; ("caret-animation", KCaretAnimation)
  ; ("caret-color", KCaretColor)
  ; ("caret-shape", KCaretShape)
  ; ("chains", KChains)
  ; ("clear", KClear)
  ; ("clip", KClip)
  ; ("clip-path", KClipPath)
  ; ("clip-rule", KClipRule)
  ; ("color", KColor)
  ; ("color-adjust", KColorAdjust)
  ; ("color-interpolation-filters", KColorInterpolationFilters)
  ; ("color-scheme", KColorScheme)
  ; ("column-count", KColumnCount)
  ; ("column-fill", KColumnFill)
  ; ("column-gap", KColumnGap)
  ; ("column-rule", KColumnRule)
  ; ("column-rule-color", KColumnRuleColor)
  ; ("column-rule-styles", KColumnRuleStyle)
  ; ("column-rule-width", KColumnRuleWidth)
  ; ("column-span", KColumnSpan)
  ; ("column-width", KColumnWidth)
  ; ("columns", KColumns)
  ; ("contain", KContain)
  ; ("contain-intrinsic-block-size", KContainIntrinsicBlockSize)
  ; ("contain-intrinsic-height", KContainIntrinsicHeight)
  ; ("contain-intrinsic-inline-size", KContainIntrinsicInlineSize)
  ; ("contain-intrinsic-size", KContainIntrinsicSize)
  ; ("contain-intrinsic-width", KContainIntrinsicWidth)
  ; ("container", KContainer)
  ; ("container-name", KContainerName)
  ; ("container-type", KContainerType)
  ; ("content", KContent)
  ; ("content-visibility", KContentVisibility)
  ; ("continue", KContinue)
  ; ("counter-increment", KCounterIncrement)
  ; ("counter-reset", KCounterReset)
  ; ("counter-set", KCounterSet)
  ; ("cue", KCue)
  ; ("cue-after", KCueAfter)
  ; ("cue-before", KCueBefore)
  ; ("cursor", KCursor)
  ; ("direction", KDirection)
  ; ("display", KDisplay)
  ; ("dominant-baseline", KDominantBaseline)
  ; ("elevation", KElevation)
  ; ("empty-cells", KEmptyCells)
  ; ("field-sizing", KFieldSizing)
  ; ("fill", KFill)
  ; ("fill-break", KFillBreak)
  ; ("fill-color", KFillColor)
  ; ("fill-image", KFillImage)
  ; ("fill-opacity", KFillOpacity)
  ; ("fill-origin", KFillOrigin)
  ; ("fill-position", KFillPosition)
  ; ("fill-repeat", KFillRepeat)
  ; ("fill-rule", KFillRule)
  ; ("fill-size", KFillSize)
  ; ("filter", KFilter)
  ; ("flex", KFlex)
  ; ("flex-basis", KFlexBasis)
  ; ("flex-direction", KFlexDirection)
  ; ("flex-flow", KFlexFlow)
  ; ("flex-grow", KFlexGrow)
  ; ("flex-shrink", KFlexShrink)
  ; ("flex-wrap", KFlexWrap)
  ; ("float", KFloat)
  ; ("float-defer", KFloatDefer)
  ; ("float-offset", KFloatOffset)
  ; ("float-reference", KFloatReference)
  ; ("flood-color", KFloodColor)
  ; ("flood-opacity", KFloodOpacity)
  ; ("flow", KFlow)
  ; ("flow-from", KFlowFrom)
  ; ("flow-into", KFlowInto)
  ; ("font", KFont)
  ; ("font-family", KFontFamily)
  ; ("font-feature-settings", KFontFeatureSettings)
  ; ("font-kerning", KFontKerning)
  ; ("font-language-override", KFontLanguageOverride)
  ; ("font-optical-sizing", KFontOpticalSizing)
  ; ("font-palette", KFontPalette)
  ; ("font-size", KFontSize)
  ; ("font-size-adjust", KFontSizeAdjust)
  ; ("font-stretch", KFontStretch)
  ; ("font-style", KFontStyle)
  ; ("font-synthesis", KFontSynthesis)
  ; ("font-synthesis-position", KFontSynthesisPosition)
  ; ("font-synthesis-small-caps", KFontSynthesisSmallCaps)
  ; ("font-synthesis-styles", KFontSynthesisStyle)
  ; ("font-synthesis-weight", KFontSynthesisWeight)
  ; ("font-variant", KFontVariant)
  ; ("font-variant-alternates", KFontVariantAlternates)
  ; ("font-variant-caps", KFontVariantCaps)
  ; ("font-variant-east-asian", KFontVariantEastAsian)
  ; ("font-variant-emoji", KFontVariantEmoji)
  ; ("font-variant-ligatures", KFontVariantLigatures)
  ; ("font-variant-numeric", KFontVariantNumeric)
  ; ("font-variant-position", KFontVariantPosition)
  ; ("font-variation-settings", KFontVariationSettings)
  ; ("font-weight", KFontWeight)
  ; ("font-width", KFontWidth)
  ; ("footnote-display", KFootnoteDisplay)
  ; ("footnote-policy", KFootnotePolicy)
  ; ("forced-color-adjust", KForcedColorAdjust)
  ; ("gap", KGap)
  ; ("glyph-orientation-vertical", KGlyphOrientationVertical)
  ; ("grid", KGrid)
  ; ("grid-area", KGridArea)
  ; ("grid-auto-columns", KGridAutoColumns)
  ; ("grid-auto-flow", KGridAutoFlow)
  ; ("grid-auto-rows", KGridAutoRows)
  ; ("grid-column", KGridColumn)
  ; ("grid-column-end", KGridColumnEnd)
  ; ("grid-column-start", KGridColumnStart)
  ; ("grid-row", KGridRow)
  ; ("grid-row-end", KGridRowEnd)
  ; ("grid-row-start", KGridRowStart)
  ; ("grid-template", KGridTemplate)
  ; ("grid-template-areas", KGridTemplateAreas)
  ; ("grid-template-columns", KGridTemplateColumns)
  ; ("grid-template-rows", KGridTemplateRows)
  ; ("hanging-punctuation", KHangingPunctuation)
  ; ("height", KHeight)
  ; ("hyphenate-character", KHyphenateCharacter)
  ; ("hyphenate-limit-chars", KHyphenateLimitChars)
  ; ("hyphenate-limit-last", KHyphenateLimitLast)
  ; ("hyphenate-limit-lines", KHyphenateLimitLines)
  ; ("hyphenate-limit-zone", KHyphenateLimitZone)
  ; ("hyphens", KHyphens)
  ; ("image-orientation", KImageOrientation)
  ; ("image-rendering", KImageRendering)
  ; ("image-resolution", KImageResolution)
  ; ("initial-letter", KInitialLetter)
  ; ("initial-letter-align", KInitialLetterAlign)
  ; ("initial-letter-wrap", KInitialLetterWrap)
  ; ("inline-size", KInlineSize)
  ; ("inline-sizing", KInlineSizing)
  ; ("input-security", KInputSecurity)
  ; ("inset", KInset)
  ; ("inset-area", KInsetArea)
  ; ("inset-block", KInsetBlock)
  ; ("inset-block-end", KInsetBlockEnd)
  ; ("inset-block-start", KInsetBlockStart)
  ; ("inset-inline", KInsetInline)
  ; ("inset-inline-end", KInsetInlineEnd)
  ; ("inset-inline-start", KInsetInlineStart)
  ; ("isolation", KIsolation)
  ; ("justify-content", KJustifyContent)
  ; ("justify-items", KJustifyItems)
  ; ("justify-self", KJustifySelf)
  ; ("left", KLeft)
  ; ("letter-spacing", KLetterSpacing)
  ; ("lighting-color", KLightingColor)
  ; ("line-break", KLineBreak)
  ; ("line-clamp", KLineClamp)
  ; ("line-fit-edge", KLineFitEdge)
  ; ("line-grid", KLineGrid)
  ; ("line-height", KLineHeight)
  ; ("line-height-step", KLineHeightStep)
  ; ("line-padding", KLinePadding)
  ; ("line-snap", KLineSnap)
  ; ("list-styles", KListStyle)
  ; ("list-styles-image", KListStyleImage)
  ; ("list-styles-position", KListStylePosition)
  ; ("list-styles-type", KListStyleType)
  ; ("margin", KMargin)
  ; ("margin-block", KMarginBlock)
  ; ("margin-block-end", KMarginBlockEnd)
  ; ("margin-block-start", KMarginBlockStart)
  ; ("margin-bottom", KMarginBottom)
  ; ("margin-break", KMarginBreak)
  ; ("margin-inline", KMarginInline)
  ; ("margin-inline-end", KMarginInlineEnd)
  ; ("margin-inline-start", KMarginInlineStart)
  ; ("margin-left", KMarginLeft)
  ; ("margin-right", KMarginRight)
  ; ("margin-top", KMarginTop)
  ; ("margin-trim", KMarginTrim)
  ; ("marker", KMarker)
  ; ("marker-end", KMarkerEnd)
  ; ("marker-knockout-left", KMarkerKnockoutLeft)
  ; ("marker-knockout-right", KMarkerKnockoutRight)
  ; ("marker-mid", KMarkerMid)
  ; ("marker-pattern", KMarkerPattern)
  ; ("marker-segment", KMarkerSegment)
  ; ("marker-side", KMarkerSide)
  ; ("marker-start", KMarkerStart)
  ; ("mask", KMask)
  ; ("mask-border", KMaskBorder)
  ; ("mask-border-mode", KMaskBorderMode)
  ; ("mask-border-outset", KMaskBorderOutset)
  ; ("mask-border-repeat", KMaskBorderRepeat)
  ; ("mask-border-slice", KMaskBorderSlice)
  ; ("mask-border-source", KMaskBorderSource)
  ; ("mask-border-width", KMaskBorderWidth)
  ; ("mask-clip", KMaskClip)
  ; ("mask-composite", KMaskComposite)
  ; ("mask-image", KMaskImage)
  ; ("mask-mode", KMaskMode)
  ; ("mask-origin", KMaskOrigin)
  ; ("mask-position", KMaskPosition)
  ; ("mask-repeat", KMaskRepeat)
  ; ("mask-size", KMaskSize)
  ; ("mask-type", KMaskType)
  ; ("max-block-size", KMaxBlockSize)
  ; ("max-height", KMaxHeight)
  ; ("max-inline-size", KMaxInlineSize)
  ; ("max-lines", KMaxLines)
  ; ("max-width", KMaxWidth)
  ; ("min-block-size", KMinBlockSize)
  ; ("min-height", KMinHeight)
  ; ("min-inline-size", KMinInlineSize)
  ; ("min-intrinsic-sizing", KMinIntrinsicSizing)
  ; ("min-width", KMinWidth)
  ; ("mix-blend-mode", KMixBlendMode)
  ; ("nav-down", KNavDown)
  ; ("nav-left", KNavLeft)
  ; ("nav-right", KNavRight)
  ; ("nav-up", KNavUp)
  ; ("object-fit", KObjectFit)
  ; ("object-position", KObjectPosition)
  ; ("offset", KOffset)
  ; ("offset-anchor", KOffsetAnchor)
  ; ("offset-distance", KOffsetDistance)
  ; ("offset-path", KOffsetPath)
  ; ("offset-position", KOffsetPosition)
  ; ("offset-rotate", KOffsetRotate)
  ; ("opacity", KOpacity)
  ; ("order", KOrder)
  ; ("orphans", KOrphans)
  ; ("outline", KOutline)
  ; ("outline-color", KOutlineColor)
  ; ("outline-offset", KOutlineOffset)
  ; ("outline-styles", KOutlineStyle)
  ; ("outline-width", KOutlineWidth)
  ; ("overflow", KOverflow)
  ; ("overflow-anchor", KOverflowAnchor)
  ; ("overflow-block", KOverflowBlock)
  ; ("overflow-clip-margin", KOverflowClipMargin)
  ; ("overflow-clip-margin-block", KOverflowClipMarginBlock)
  ; ("overflow-clip-margin-block-end", KOverflowClipMarginBlockEnd)
  ; ("overflow-clip-margin-block-start", KOverflowClipMarginBlockStart)
  ; ("overflow-clip-margin-bottom", KOverflowClipMarginBottom)
  ; ("overflow-clip-margin-inline", KOverflowClipMarginInline)
  ; ("overflow-clip-margin-inline-end", KOverflowClipMarginInlineEnd)
  ; ("overflow-clip-margin-inline-start", KOverflowClipMarginInlineStart)
  ; ("overflow-clip-margin-left", KOverflowClipMarginLeft)
  ; ("overflow-clip-margin-right", KOverflowClipMarginRight)
  ; ("overflow-clip-margin-top", KOverflowClipMarginTop)
  ; ("overflow-inline", KOverflowInline)
  ; ("overflow-wrap", KOverflowWrap)
  ; ("overflow-x", KOverflowX)
  ; ("overflow-y", KOverflowY)
  ; ("overscroll-behavior", KOverscrollBehavior)
  ; ("overscroll-behavior-block", KOverscrollBehaviorBlock)
  ; ("overscroll-behavior-inline", KOverscrollBehaviorInline)
  ; ("overscroll-behavior-x", KOverscrollBehaviorX)
  ; ("overscroll-behavior-y", KOverscrollBehaviorY)
  ; ("padding", KPadding)
  ; ("padding-block", KPaddingBlock)
  ; ("padding-block-end", KPaddingBlockEnd)
  ; ("padding-block-start", KPaddingBlockStart)
  ; ("padding-bottom", KPaddingBottom)
  ; ("padding-inline", KPaddingInline)
  ; ("padding-inline-end", KPaddingInlineEnd)
  ; ("padding-inline-start", KPaddingInlineStart)
  ; ("padding-left", KPaddingLeft)
  ; ("padding-right", KPaddingRight)
  ; ("padding-top", KPaddingTop)
  ; ("page", KPage)
  ; ("page-break-after", KPageBreakAfter)
  ; ("page-break-before", KPageBreakBefore)
  ; ("page-break-inside", KPageBreakInside)
  ; ("pause", KPause)
  ; ("pause-after", KPauseAfter)
  ; ("pause-before", KPauseBefore)
  ; ("perspective", KPerspective)
  ; ("perspective-origin", KPerspectiveOrigin)
  ; ("pitch", KPitch)
  ; ("pitch-range", KPitchRange)
  ; ("place-content", KPlaceContent)
  ; ("place-items", KPlaceItems)
  ; ("place-self", KPlaceSelf)
  ; ("play-during", KPlayDuring)
  ; ("pointer-events", KPointerEvents)
  ; ("position", KPosition)
  ; ("position-anchor", KPositionAnchor)
  ; ("position-area", KPositionArea)
  ; ("position-try", KPositionTry)
  ; ("position-try-fallbacks", KPositionTryFallbacks)
  ; ("position-try-options", KPositionTryOptions)
  ; ("position-try-order", KPositionTryOrder)
  ; ("position-visibility", KPositionVisibility)
  ; ("print-color-adjust", KPrintColorAdjust)
  ; ("property-name", KPropertyName)
  ; ("quotes", KQuotes)
  ; ("region-fragment", KRegionFragment)
  ; ("resize", KResize)
  ; ("rest", KRest)
  ; ("rest-after", KRestAfter)
  ; ("rest-before", KRestBefore)
  ; ("richness", KRichness)
  ; ("right", KRight)
  ; ("rotate", KRotate)
  ; ("row-gap", KRowGap)
  ; ("ruby-align", KRubyAlign)
  ; ("ruby-merge", KRubyMerge)
  ; ("ruby-overhang", KRubyOverhang)
  ; ("ruby-position", KRubyPosition)
  ; ("running", KRunning)
  ; ("scale", KScale)
  ; ("scroll-behavior", KScrollBehavior)
  ; ("scroll-margin", KScrollMargin)
  ; ("scroll-margin-block", KScrollMarginBlock)
  ; ("scroll-margin-block-end", KScrollMarginBlockEnd)
  ; ("scroll-margin-block-start", KScrollMarginBlockStart)
  ; ("scroll-margin-bottom", KScrollMarginBottom)
  ; ("scroll-margin-inline", KScrollMarginInline)
  ; ("scroll-margin-inline-end", KScrollMarginInlineEnd)
  ; ("scroll-margin-inline-start", KScrollMarginInlineStart)
  ; ("scroll-margin-left", KScrollMarginLeft)
  ; ("scroll-margin-right", KScrollMarginRight)
  ; ("scroll-margin-top", KScrollMarginTop)
  ; ("scroll-padding", KScrollPadding)
  ; ("scroll-padding-block", KScrollPaddingBlock)
  ; ("scroll-padding-block-end", KScrollPaddingBlockEnd)
  ; ("scroll-padding-block-start", KScrollPaddingBlockStart)
  ; ("scroll-padding-bottom", KScrollPaddingBottom)
  ; ("scroll-padding-inline", KScrollPaddingInline)
  ; ("scroll-padding-inline-end", KScrollPaddingInlineEnd)
  ; ("scroll-padding-inline-start", KScrollPaddingInlineStart)
  ; ("scroll-padding-left", KScrollPaddingLeft)
  ; ("scroll-padding-right", KScrollPaddingRight)
  ; ("scroll-padding-top", KScrollPaddingTop)
  ; ("scroll-snap-align", KScrollSnapAlign)
  ; ("scroll-snap-stop", KScrollSnapStop)
  ; ("scroll-snap-type", KScrollSnapType)
  ; ("scroll-start-target", KScrollStartTarget)
  ; ("scroll-timeline", KScrollTimeline)
  ; ("scroll-timeline-axis", KScrollTimelineAxis)
  ; ("scroll-timeline-name", KScrollTimelineName)
  ; ("scrollbar-color", KScrollbarColor)
  ; ("scrollbar-gutter", KScrollbarGutter)
  ; ("scrollbar-width", KScrollbarWidth)
  ; ("shape-image-threshold", KShapeImageThreshold)
  ; ("shape-inside", KShapeInside)
  ; ("shape-margin", KShapeMargin)
  ; ("shape-outside", KShapeOutside)
  ; ("spatial-navigation-action", KSpatialNavigationAction)
  ; ("spatial-navigation-contain", KSpatialNavigationContain)
  ; ("spatial-navigation-function", KSpatialNavigationFunction)
  ; ("speak", KSpeak)
  ; ("speak-as", KSpeakAs)
  ; ("speak-header", KSpeakHeader)
  ; ("speak-numeral", KSpeakNumeral)
  ; ("speak-punctuation", KSpeakPunctuation)
  ; ("speech-rate", KSpeechRate)
  ; ("stress", KStress)
  ; ("string-set", KStringSet)
  ; ("stroke", KStroke)
  ; ("stroke-align", KStrokeAlign)
  ; ("stroke-alignment", KStrokeAlignment)
  ; ("stroke-break", KStrokeBreak)
  ; ("stroke-color", KStrokeColor)
  ; ("stroke-dash-corner", KStrokeDashCorner)
  ; ("stroke-dash-justify", KStrokeDashJustify)
  ; ("stroke-dashadjust", KStrokeDashadjust)
  ; ("stroke-dasharray", KStrokeDasharray)
  ; ("stroke-dashcorner", KStrokeDashcorner)
  ; ("stroke-dashoffset", KStrokeDashoffset)
  ; ("stroke-image", KStrokeImage)
  ; ("stroke-linecap", KStrokeLinecap)
  ; ("stroke-linejoin", KStrokeLinejoin)
  ; ("stroke-miterlimit", KStrokeMiterlimit)
  ; ("stroke-opacity", KStrokeOpacity)
  ; ("stroke-origin", KStrokeOrigin)
  ; ("stroke-position", KStrokePosition)
  ; ("stroke-repeat", KStrokeRepeat)
  ; ("stroke-size", KStrokeSize)
  ; ("stroke-width", KStrokeWidth)
  ; ("tab-size", KTabSize)
  ; ("table-layout", KTableLayout)
  ; ("text-align", KTextAlign)
  ; ("text-align-all", KTextAlignAll)
  ; ("text-align-last", KTextAlignLast)
  ; ("text-autospace", KTextAutospace)
  ; ("text-box", KTextBox)
  ; ("text-box-edge", KTextBoxEdge)
  ; ("text-box-trim", KTextBoxTrim)
  ; ("text-combine-upright", KTextCombineUpright)
  ; ("text-decoration", KTextDecoration)
  ; ("text-decoration-color", KTextDecorationColor)
  ; ("text-decoration-line", KTextDecorationLine)
  ; ("text-decoration-skip", KTextDecorationSkip)
  ; ("text-decoration-skip-box", KTextDecorationSkipBox)
  ; ("text-decoration-skip-ink", KTextDecorationSkipInk)
  ; ("text-decoration-skip-inset", KTextDecorationSkipInset)
  ; ("text-decoration-skip-self", KTextDecorationSkipSelf)
  ; ("text-decoration-skip-spaces", KTextDecorationSkipSpaces)
  ; ("text-decoration-styles", KTextDecorationStyle)
  ; ("text-decoration-thickness", KTextDecorationThickness)
  ; ("text-decoration-trim", KTextDecorationTrim)
  ; ("text-emphasis", KTextEmphasis)
  ; ("text-emphasis-color", KTextEmphasisColor)
  ; ("text-emphasis-position", KTextEmphasisPosition)
  ; ("text-emphasis-skip", KTextEmphasisSkip)
  ; ("text-emphasis-styles", KTextEmphasisStyle)
  ; ("text-group-align", KTextGroupAlign)
  ; ("text-indent", KTextIndent)
  ; ("text-justify", KTextJustify)
  ; ("text-orientation", KTextOrientation)
  ; ("text-overflow", KTextOverflow)
  ; ("text-shadow", KTextShadow)
  ; ("text-spacing", KTextSpacing)
  ; ("text-spacing-trim", KTextSpacingTrim)
  ; ("text-transform", KTextTransform)
  ; ("text-underline-offset", KTextUnderlineOffset)
  ; ("text-underline-position", KTextUnderlinePosition)
  ; ("text-wrap", KTextWrap)
  ; ("text-wrap-mode", KTextWrapMode)
  ; ("text-wrap-styles", KTextWrapStyle)
  ; ("timeline-scope", KTimelineScope)
  ; ("top", KTop)
  ; ("transform", KTransform)
  ; ("transform-box", KTransformBox)
  ; ("transform-origin", KTransformOrigin)
  ; ("transform-styles", KTransformStyle)
  ; ("transition", KTransition)
  ; ("transition-behavior", KTransitionBehavior)
  ; ("transition-delay", KTransitionDelay)
  ; ("transition-duration", KTransitionDuration)
  ; ("transition-property", KTransitionProperty)
  ; ("transition-timing-function", KTransitionTimingFunction)
  ; ("translate", KTranslate)
  ; ("unicode-bidi", KUnicodeBidi)
  ; ("user-select", KUserSelect)
  ; ("vertical-align", KVerticalAlign)
  ; ("view-timeline", KViewTimeline)
  ; ("view-timeline-axis", KViewTimelineAxis)
  ; ("view-timeline-inset", KViewTimelineInset)
  ; ("view-timeline-name", KViewTimelineName)
  ; ("view-transition-class", KViewTransitionClass)
  ; ("view-transition-name", KViewTransitionName)
  ; ("visibility", KVisibility)
  ; ("voice-balance", KVoiceBalance)
  ; ("voice-duration", KVoiceDuration)
  ; ("voice-family", KVoiceFamily)
  ; ("voice-pitch", KVoicePitch)
  ; ("voice-range", KVoiceRange)
  ; ("voice-rate", KVoiceRate)
  ; ("voice-stress", KVoiceStress)
  ; ("voice-volume", KVoiceVolume)
  ; ("volume", KVolume)
  ; ("white-space", KWhiteSpace)
  ; ("white-space-collapse", KWhiteSpaceCollapse)
  ; ("white-space-trim", KWhiteSpaceTrim)
  ; ("widows", KWidows)
  ; ("width", KWidth)
  ; ("will-change", KWillChange)
  ; ("word-break", KWordBreak)
  ; ("word-space-transform", KWordSpaceTransform)
  ; ("word-spacing", KWordSpacing)
  ; ("word-wrap", KWordWrap)
  ; ("wrap-after", KWrapAfter)
  ; ("wrap-before", KWrapBefore)
  ; ("wrap-flow", KWrapFlow)
  ; ("wrap-inside", KWrapInside)
  ; ("wrap-through", KWrapThrough)
  ; ("writing-mode", KWritingMode)
  ; ("z-index", KZIndex)
  ; ("zoom", KZoom) ].

Fixpoint table_get (name : string) (t : list (string * PropertyKey)) : option PropertyKey :=
  match t with
  | [] => None
  | (n, k) :: t' => if String.eqb name n then Some k else table_get name t'
  end.

(** src/css/model.rs:808: [PropertyKey::parse], a [match] on the name: the first arm that fits. *)
Definition parse_key (name : string) : option PropertyKey := table_get name parse_table.
