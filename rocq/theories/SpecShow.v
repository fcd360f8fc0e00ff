(** * What each property shows (C31, C34, C57, C58). *)
From stdpp Require Import gmap.
From RecordUpdate Require Import RecordUpdate.
From Verif Require Import Str F32 Res PropKey Css Element Tree Matching Cascade Apply SpecStyle.

(** a value as an element or its layout style holds it *)
Inductive shown_value :=
| VColor (c : Rgba) | VNumber (f : f32) | VWeight (z : Z) | VText (s : string) | VImage (s : option string)
| VTextAlign (a : TextAlign) | VPointerEvents (p : PointerEvents) | VPointer (p : Pointer) | VFlag (b : bool)
| VRadius (l : Length) | VBorder (width : f32) (layout : LP) | VBoxSizing (b : BoxSizing)
| VLPA (l : LPA) | VLP (l : LP) | VDisplay (d : Display) | VOverflow (o : Overflow) | VPosition (p : Position)
| VDimension (d : Dimension) | VAlignContent (a : option AlignContent) | VAlignItems (a : option AlignItems)
| VFlexDirection (d : FlexDirection) | VFlexWrap (w : FlexWrap)
| VKey (k : option PropertyKey) | VTiming (t : TimingFunction) | VDirection (d : AnimationDirection)
| VFillMode (f : AnimationFillMode) | VIterations (i : AnimationIterations).

(** what the layout style and the element show for entry [i] of a property; list
    entries that are not there count as the default *)
Definition background_at (i : nat) (e : Element) : Background := default background_default (e_backgrounds e !! i).
Definition transition_at (i : nat) (e : Element) : Transition := default transition_default (e_transitions e !! i).
Definition animator_at (i : nat) (e : Element) : Animator := default animator_default (e_animators e !! i).
Definition look (key : PropertyKey) (i : nat) (st : LE) : option shown_value :=
  let '(l, e) := st in
  match key with
  | KOpacity => Some (VNumber (e_self_opacity e))
  | KBackgroundColor => Some (VColor (bg_color (background_at i e)))
  | KBackgroundImage => Some (VImage (bg_image (background_at i e)))
  | KBackgroundPositionX => Some (VNumber (bg_src_x (background_at i e)))
  | KBackgroundPositionY => Some (VNumber (bg_src_y (background_at i e)))
  | KColor => Some (VColor (e_color e))
  | KFontSize => Some (VNumber (f_size (e_font e)))
  | KFontWeight => Some (VWeight (f_weight (e_font e)))
  | KFontFamily => Some (VText (f_family (e_font e)))
  | KFontStyle => Some (VText (f_style (e_font e)))
  | KTextAlign => Some (VTextAlign (f_align (e_font e)))
  | KPointerEvents => Some (VPointerEvents (e_pointer_events e))
  | KCursor => Some (VPointer (e_pointer e))
  | KVisibility => Some (VFlag (e_visible e))
  | KBorderTopWidth => Some (VBorder (bw (b_top (e_borders e))) (r_top (ts_border l)))
  | KBorderRightWidth => Some (VBorder (bw (b_right (e_borders e))) (r_right (ts_border l)))
  | KBorderBottomWidth => Some (VBorder (bw (b_bottom (e_borders e))) (r_bottom (ts_border l)))
  | KBorderLeftWidth => Some (VBorder (bw (b_left (e_borders e))) (r_left (ts_border l)))
  | KBorderTopColor => Some (VColor (bc (b_top (e_borders e))))
  | KBorderRightColor => Some (VColor (bc (b_right (e_borders e))))
  | KBorderBottomColor => Some (VColor (bc (b_bottom (e_borders e))))
  | KBorderLeftColor => Some (VColor (bc (b_left (e_borders e))))
  | KBorderTopLeftRadius => Some (VRadius (b_radius0 (e_borders e)))
  | KBorderTopRightRadius => Some (VRadius (b_radius1 (e_borders e)))
  | KBorderBottomRightRadius => Some (VRadius (b_radius2 (e_borders e)))
  | KBorderBottomLeftRadius => Some (VRadius (b_radius3 (e_borders e)))
  | KBoxSizing => Some (VBoxSizing (ts_box_sizing l))
  | KMarginTop => Some (VLPA (r_top (ts_margin l)))
  | KMarginRight => Some (VLPA (r_right (ts_margin l)))
  | KMarginBottom => Some (VLPA (r_bottom (ts_margin l)))
  | KMarginLeft => Some (VLPA (r_left (ts_margin l)))
  | KPaddingTop => Some (VLP (r_top (ts_padding l)))
  | KPaddingRight => Some (VLP (r_right (ts_padding l)))
  | KPaddingBottom => Some (VLP (r_bottom (ts_padding l)))
  | KPaddingLeft => Some (VLP (r_left (ts_padding l)))
  | KDisplay => Some (VDisplay (ts_display l))
  | KOverflowX => Some (VOverflow (ts_overflow_x l))
  | KOverflowY => Some (VOverflow (ts_overflow_y l))
  | KPosition => Some (VPosition (ts_position l))
  | KTop => Some (VLPA (r_top (ts_inset l)))
  | KRight => Some (VLPA (r_right (ts_inset l)))
  | KBottom => Some (VLPA (r_bottom (ts_inset l)))
  | KLeft => Some (VLPA (r_left (ts_inset l)))
  | KWidth => Some (VDimension (sz_width (ts_size l)))
  | KHeight => Some (VDimension (sz_height (ts_size l)))
  | KMinWidth => Some (VDimension (sz_width (ts_min_size l)))
  | KMinHeight => Some (VDimension (sz_height (ts_min_size l)))
  | KMaxWidth => Some (VDimension (sz_width (ts_max_size l)))
  | KMaxHeight => Some (VDimension (sz_height (ts_max_size l)))
  | KAlignContent => Some (VAlignContent (ts_align_content l))
  | KAlignItems => Some (VAlignItems (ts_align_items l))
  | KAlignSelf => Some (VAlignItems (ts_align_self l))
  | KJustifyContent => Some (VAlignContent (ts_justify_content l))
  | KJustifyItems => Some (VAlignItems (ts_justify_items l))
  | KJustifySelf => Some (VAlignItems (ts_justify_self l))
  | KFlexDirection => Some (VFlexDirection (ts_flex_direction l))
  | KFlexWrap => Some (VFlexWrap (ts_flex_wrap l))
  | KFlexBasis => Some (VDimension (ts_flex_basis l))
  | KFlexGrow => Some (VNumber (ts_flex_grow l))
  | KFlexShrink => Some (VNumber (ts_flex_shrink l))
  | KColumnGap => Some (VLP (sz_width (ts_gap l)))
  | KRowGap => Some (VLP (sz_height (ts_gap l)))
  | KTransitionProperty => Some (VKey (t_key (transition_at i e)))
  | KTransitionDuration => Some (VNumber (a_duration (t_animator (transition_at i e))))
  | KTransitionDelay => Some (VNumber (a_delay (t_animator (transition_at i e))))
  | KTransitionTimingFunction => Some (VTiming (a_timing (t_animator (transition_at i e))))
  | KAnimationName => Some (VText (a_name (animator_at i e)))
  | KAnimationDelay => Some (VNumber (a_delay (animator_at i e)))
  | KAnimationDirection => Some (VDirection (a_direction (animator_at i e)))
  | KAnimationDuration => Some (VNumber (a_duration (animator_at i e)))
  | KAnimationFillMode => Some (VFillMode (a_fill_mode (animator_at i e)))
  | KAnimationIterationCount => Some (VIterations (a_iterations (animator_at i e)))
  | KAnimationPlayState => Some (VFlag (a_running (animator_at i e)))
  | KAnimationTimingFunction => Some (VTiming (a_timing (animator_at i e)))
  | _ => None
  end.

(** ** What a value of a property means; [None]: the property does not take it *)
(** a length in pixels: CSS Values and Units, except that 'em' is relative to the
    font size of the parent *)
Definition pixels (sizes : Sizes) (d : Dim) : f32 :=
  match d_unit d with
  | UPx => d_value d
  | UEm => fmul (parent_font_size sizes) (d_value d)
  | URem => fmul (root_font_size sizes) (d_value d)
  | UVw => fdiv (fmul (viewport_width sizes) (d_value d)) f100
  | UVh => fdiv (fmul (viewport_height sizes) (d_value d)) f100
  | UVmax => fdiv (fmul (fmax (viewport_width sizes) (viewport_height sizes)) (d_value d)) f100
  | UVmin => fdiv (fmul (fmin (viewport_width sizes) (viewport_height sizes)) (d_value d)) f100
  end.
Section meaning.
  Context (sizes : Sizes).
  (** a keyword out of a table *)
  Definition one_of (table : list (string * shown_value)) (v : ComputedValue) : option shown_value :=
    match v with
    | CKeyword k => snd <$> List.find (fun e => String.eqb k (fst e)) table
    | _ => None
    end.
  Definition first_of (a b : option shown_value) : option shown_value := match a with Some x => Some x | None => b end.

  Definition color_meaning (v : ComputedValue) : option shown_value :=
    match v with
    | CColor c => Some (VColor c)
    | _ => one_of [("black", VColor (0, 0, 0, 255)%Z); ("white", VColor (255, 255, 255, 255)%Z); ("red", VColor (255, 0, 0, 255)%Z);
                   ("blue", VColor (0, 0, 255, 255)%Z); ("green", VColor (0, 255, 0, 255)%Z); ("transparent", VColor (0, 0, 0, 0)%Z);
                   ("currentcolor", VColor (parent_color sizes)); ("currentColor", VColor (parent_color sizes))] v
    end.
  (** zero, a length, a number of pixels, a part of [base] *)
  Definition length_of (base : f32) (v : ComputedValue) : option f32 :=
    match v with
    | CZero => Some f0 | CNumber f => Some f | CDimension d => Some (pixels sizes d) | CPercentage p => Some (fmul p base) | _ => None
    end.
  Definition width_of (v : ComputedValue) : option f32 :=
    match v with CZero => Some f0 | CNumber f => Some f | CDimension d => Some (pixels sizes d) | _ => None end.
  Definition dimension_meaning (v : ComputedValue) : option shown_value :=
    match v with
    | CZero => Some (VDimension (DimLength f0))
    | CDimension d => Some (VDimension (DimLength (pixels sizes d)))
    | CPercentage p => Some (VDimension (DimPercent p))
    | _ => one_of [("auto", VDimension DimAuto)] v
    end.
  Definition radius_meaning (v : ComputedValue) : option shown_value :=
    match v with
    | CDimension d => Some (VRadius (LNumber (pixels sizes d)))
    | CPercentage p => Some (VRadius (LPercent p))
    | _ => None
    end.
  Definition padding_meaning (v : ComputedValue) : option shown_value :=
    match v with
    | CZero => Some (VLP (LPLength f0)) | CDimension d => Some (VLP (LPLength (pixels sizes d))) | CPercentage p => Some (VLP (LPPercent p)) | _ => None
    end.
  Definition margin_meaning (v : ComputedValue) : option shown_value :=
    match v with
    | CZero => Some (VLPA (LPALength f0)) | CDimension d => Some (VLPA (LPALength (pixels sizes d))) | CPercentage p => Some (VLPA (LPAPercent p))
    | _ => one_of [("auto", VLPA LPAAuto)] v
    end.
  Definition overflow_meaning : ComputedValue -> option shown_value :=
    one_of [("visible", VOverflow OVisible); ("hidden", VOverflow OHidden); ("clip", VOverflow OClip);
            ("scroll", VOverflow OScroll); ("auto", VOverflow OScroll)].
  Definition items_meaning : ComputedValue -> option shown_value :=
    one_of [("normal", VAlignItems None); ("start", VAlignItems (Some AIStart)); ("end", VAlignItems (Some AIEnd));
            ("flex-start", VAlignItems (Some AIFlexStart)); ("flex-end", VAlignItems (Some AIFlexEnd));
            ("center", VAlignItems (Some AICenter)); ("baseline", VAlignItems (Some AIBaseline)); ("stretch", VAlignItems (Some AIStretch))].
  Definition contents_meaning : ComputedValue -> option shown_value :=
    one_of [("normal", VAlignContent None); ("start", VAlignContent (Some ACStart)); ("end", VAlignContent (Some ACEnd));
            ("flex-start", VAlignContent (Some ACFlexStart)); ("flex-end", VAlignContent (Some ACFlexEnd));
            ("center", VAlignContent (Some ACCenter)); ("stretch", VAlignContent (Some ACStretch));
            ("space-between", VAlignContent (Some ACSpaceBetween)); ("space-evenly", VAlignContent (Some ACSpaceEvenly));
            ("space-around", VAlignContent (Some ACSpaceAround))].
  Definition timing_meaning : ComputedValue -> option shown_value :=
    one_of [("ease", VTiming TFEase); ("ease-in", VTiming TFEaseIn); ("ease-out", VTiming TFEaseOut); ("ease-in-out", VTiming TFEaseInOut);
            ("linear", VTiming TFLinear); ("step-start", VTiming TFStepStart); ("step-end", VTiming TFStepEnd)].
  Definition time_meaning (v : ComputedValue) : option shown_value := match v with CTime f => Some (VNumber f) | _ => None end.
  Definition number_meaning (v : ComputedValue) : option shown_value := match v with CNumber f => Some (VNumber f) | _ => None end.

  Definition meaning (key : PropertyKey) (v : ComputedValue) : option shown_value :=
    match key with
    | KOpacity => match v with CZero => Some (VNumber f0) | CNumber f | CPercentage f => Some (VNumber f) | _ => None end
    | KColor | KBackgroundColor | KBorderTopColor | KBorderRightColor | KBorderBottomColor | KBorderLeftColor => color_meaning v
    | KBackgroundImage => match v with CStr s => Some (VImage (Some s)) | _ => one_of [("none", VImage None)] v end
    | KBackgroundPositionX | KBackgroundPositionY => (fun x => VNumber (fneg x)) <$> length_of f0 v
    | KFontSize => VNumber <$> length_of (parent_font_size sizes) v
    | KFontWeight =>
        match v with
        | CNumber f => if fle f1 f && fle f (f32_of_Z 1000) then Some (VWeight (f32_as_u16 f)) else None
        | _ => one_of [("normal", VWeight 400); ("bold", VWeight 700)] v
        end
    | KFontFamily => match v with CStr s => Some (VText s) | _ => None end
    | KFontStyle => one_of [("normal", VText "normal"); ("italic", VText "italic"); ("oblique", VText "oblique")] v
    | KTextAlign =>
        one_of [("start", VTextAlign TAStart); ("end", VTextAlign TAEnd); ("left", VTextAlign TALeft); ("right", VTextAlign TARight);
                ("center", VTextAlign TACenter); ("justify", VTextAlign TAJustify); ("justify-all", VTextAlign TAJustifyAll);
                ("match-parent", VTextAlign TAMatchParent)] v
    | KPointerEvents => one_of [("auto", VPointerEvents PEAuto); ("none", VPointerEvents PENone)] v
    | KCursor =>
        one_of [("auto", VPointer PAuto); ("default", VPointer PDefault); ("pointer", VPointer PPointer); ("context-menu", VPointer PContextMenu);
                ("help", VPointer PHelp); ("progress", VPointer PProgress); ("wait", VPointer PWait); ("text", VPointer PText);
                ("not-allowed", VPointer PNotAllowed)] v
    | KVisibility => one_of [("visible", VFlag true); ("hidden", VFlag false)] v
    | KBorderTopWidth | KBorderRightWidth | KBorderBottomWidth | KBorderLeftWidth => (fun x => VBorder x (LPLength x)) <$> width_of v
    | KBorderTopLeftRadius | KBorderTopRightRadius | KBorderBottomRightRadius | KBorderBottomLeftRadius => radius_meaning v
    | KBoxSizing => one_of [("border-box", VBoxSizing BorderBox); ("content-box", VBoxSizing ContentBox)] v
    | KMarginTop | KMarginRight | KMarginBottom | KMarginLeft | KTop | KRight | KBottom | KLeft => margin_meaning v
    | KPaddingTop | KPaddingRight | KPaddingBottom | KPaddingLeft | KColumnGap | KRowGap => padding_meaning v
    | KDisplay => one_of [("flow", VDisplay DBlock); ("block", VDisplay DBlock); ("flex", VDisplay DFlex); ("grid", VDisplay DGrid)] v
    | KOverflowX | KOverflowY => overflow_meaning v
    | KPosition => one_of [("relative", VPosition PosRelative); ("absolute", VPosition PosAbsolute)] v
    | KWidth | KHeight | KMinWidth | KMinHeight | KMaxWidth | KMaxHeight | KFlexBasis => dimension_meaning v
    | KAlignContent | KJustifyContent => contents_meaning v
    | KAlignItems | KAlignSelf | KJustifyItems | KJustifySelf => items_meaning v
    | KFlexDirection =>
        one_of [("row", VFlexDirection FDRow); ("row-reverse", VFlexDirection FDRowReverse); ("column", VFlexDirection FDColumn);
                ("column-reverse", VFlexDirection FDColumnReverse)] v
    | KFlexWrap => one_of [("wrap", VFlexWrap FWWrap); ("nowrap", VFlexWrap FWNoWrap); ("wrap-reverse", VFlexWrap FWWrapReverse)] v
    | KFlexGrow | KFlexShrink => number_meaning v
    | KTransitionProperty => match v with CKeyword k => (fun x => VKey (Some x)) <$> parse_key k | _ => None end
    | KTransitionDuration | KTransitionDelay | KAnimationDuration | KAnimationDelay => time_meaning v
    | KTransitionTimingFunction | KAnimationTimingFunction => timing_meaning v
    | KAnimationName => match v with CKeyword k => Some (VText k) | _ => None end
    | KAnimationDirection =>
        one_of [("normal", VDirection ADNormal); ("reverse", VDirection ADReverse); ("alternate", VDirection ADAlternate);
                ("alternate-reverse", VDirection ADAlternateReverse)] v
    | KAnimationFillMode =>
        one_of [("none", VFillMode AFNone); ("forwards", VFillMode AFForwards); ("backwards", VFillMode AFBackwards); ("both", VFillMode AFBoth)] v
    | KAnimationIterationCount => match v with CNumber n => Some (VIterations (AINumber n)) | _ => one_of [("infinite", VIterations AIInfinite)] v end
    | KAnimationPlayState => one_of [("running", VFlag true); ("paused", VFlag false)] v
    | _ => None
    end.
End meaning.
