(** * Applying computed values to elements: src/styles/apply.rs, default.rs, inherit.rs. *)
From stdpp Require Import gmap.
From RecordUpdate Require Import RecordUpdate.
From Verif Require Import Str F32 Res PropKey Css Element Cascade.

(** src/styles/mod.rs:182-188 *)
Record Sizes := mkSizes {
  root_font_size : f32;
  parent_font_size : f32;
  parent_color : Rgba;
  viewport_width : f32;
  viewport_height : f32
}.
#[global] Instance eta_Sizes : Settable _ :=
  settable! mkSizes <root_font_size; parent_font_size; parent_color; viewport_width; viewport_height>.

(** a [match keyword { "a" => x, ..., _ => return Err }] *)
Fixpoint kw {A} (table : list (string * A)) (keyword : string) : option A :=
  match table with
  | [] => None
  | (k, v) :: t => if String.eqb keyword k then Some v else kw t keyword
  end.

Section resolve.
  Context (sizes : Sizes).

  (** src/styles/apply.rs:313-324 *)
  Definition resolve_font_weight (v : ComputedValue) : option Z :=
    match v with
    | CNumber f => if fge f f1 && fle f (f32_of_Z 1000) then Some (f32_as_u16 f) else None
    | CKeyword k => kw [("normal", 400%Z); ("bold", 700%Z)] k
    | _ => None
    end.

  (** src/styles/apply.rs:326-344 *)
  Definition resolve_color (v : ComputedValue) : option Rgba :=
    match v with
    | CColor c => Some c
    | CKeyword k =>
        kw [("black", (0, 0, 0, 255)%Z); ("white", (255, 255, 255, 255)%Z); ("red", (255, 0, 0, 255)%Z);
            ("blue", (0, 0, 255, 255)%Z); ("green", (0, 255, 0, 255)%Z); ("transparent", (0, 0, 0, 0)%Z);
            ("currentcolor", parent_color sizes); ("currentColor", parent_color sizes)] k
    | _ => None
    end.

  (** src/styles/apply.rs:346-365 *)
  Definition resolve_timing (v : ComputedValue) : option TimingFunction :=
    match v with
    | CKeyword k =>
        kw [("ease", TFEase); ("ease-in", TFEaseIn); ("ease-out", TFEaseOut); ("ease-in-out", TFEaseInOut);
            ("linear", TFLinear); ("step-start", TFStepStart); ("step-end", TFStepEnd)] k
    | _ => None
    end.

  (** src/styles/apply.rs:415-428 *)
  Definition resolve_iterations (v : ComputedValue) : option AnimationIterations :=
    match v with
    | CKeyword k => kw [("infinite", AIInfinite)] k
    | CNumber n => Some (AINumber n)
    | _ => None
    end.

  (** src/styles/apply.rs:430-436 *)
  Definition resolve_string (v : ComputedValue) : option string :=
    match v with CStr s => Some s | _ => None end.

  (** src/styles/apply.rs:438-446 *)
  Definition resolve_alpha (v : ComputedValue) : option f32 :=
    match v with
    | CZero => Some f0
    | CNumber f => Some f
    | CPercentage f => Some f
    | _ => None
    end.

  (** src/styles/apply.rs:473-486 *)
  Definition parse_dimension_length (d : Dim) : f32 :=
    let v := d_value d in
    match d_unit d with
    | UPx => v
    | UEm => fmul (parent_font_size sizes) v
    | URem => fmul (root_font_size sizes) v
    | UVw => fdiv (fmul (viewport_width sizes) v) f100
    | UVh => fdiv (fmul (viewport_height sizes) v) f100
    | UVmax => fdiv (fmul (fmax (viewport_width sizes) (viewport_height sizes)) v) f100
    | UVmin => fdiv (fmul (fmin (viewport_width sizes) (viewport_height sizes)) v) f100
    end.

  (** src/styles/apply.rs:448-461 *)
  Definition resolve_length (v : ComputedValue) (base : f32) : option f32 :=
    match v with
    | CZero => Some f0
    | CDimension d => Some (parse_dimension_length d)
    | CPercentage p => Some (fmul p base)
    | CNumber f => Some f
    | _ => None
    end.

  (** src/styles/apply.rs:463-471 *)
  Definition dimension_length (v : ComputedValue) : option f32 :=
    match v with
    | CZero => Some f0
    | CDimension d => Some (parse_dimension_length d)
    | CNumber f => Some f
    | _ => None
    end.

  (** src/styles/apply.rs:488-500 *)
  Definition dimension (v : ComputedValue) : option Dimension :=
    match v with
    | CZero => Some (DimLength f0)
    | CDimension d => Some (DimLength (parse_dimension_length d))
    | CPercentage p => Some (DimPercent p)
    | CKeyword k => if String.eqb k "auto" then Some DimAuto else None
    | _ => None
    end.

  (** src/styles/apply.rs:502-512; [Zero] is not accepted here. *)
  Definition length (v : ComputedValue) : option Length :=
    match v with
    | CDimension d => Some (LNumber (parse_dimension_length d))
    | CPercentage p => Some (LPercent p)
    | _ => None
    end.

  (** src/styles/apply.rs:514-525 *)
  Definition lengthp (v : ComputedValue) : option LP :=
    match v with
    | CZero => Some (LPLength f0)
    | CDimension d => Some (LPLength (parse_dimension_length d))
    | CPercentage p => Some (LPPercent p)
    | _ => None
    end.

  (** src/styles/apply.rs:527-542 *)
  Definition lengthp_auto (v : ComputedValue) : option LPA :=
    match v with
    | CZero => Some (LPALength f0)
    | CDimension d => Some (LPALength (parse_dimension_length d))
    | CPercentage p => Some (LPAPercent p)
    | CKeyword k => if String.eqb k "auto" then Some LPAAuto else None
    | _ => None
    end.

  (** src/styles/apply.rs:544-554 *)
  Definition resolve_overflow : string -> option Overflow :=
    kw [("visible", OVisible); ("hidden", OHidden); ("clip", OClip); ("scroll", OScroll); ("auto", OScroll)].

  (** src/styles/apply.rs:556-569 *)
  Definition map_align_items : string -> option (option AlignItems) :=
    kw [("normal", None); ("start", Some AIStart); ("end", Some AIEnd); ("flex-start", Some AIFlexStart);
        ("flex-end", Some AIFlexEnd); ("center", Some AICenter); ("baseline", Some AIBaseline);
        ("stretch", Some AIStretch)].

  (** src/styles/apply.rs:571-588 *)
  Definition map_align_content : string -> option (option AlignContent) :=
    kw [("normal", None); ("start", Some ACStart); ("end", Some ACEnd); ("flex-start", Some ACFlexStart);
        ("flex-end", Some ACFlexEnd); ("center", Some ACCenter); ("stretch", Some ACStretch);
        ("space-between", Some ACSpaceBetween); ("space-evenly", Some ACSpaceEvenly);
        ("space-around", Some ACSpaceAround)].

  (** The state one [apply] call works on. *)
  Definition LE : Type := TStyle * Element.

  (** [place = resolve(..)?]: unchanged on error. *)
  Definition assign {A} (o : option A) (f : A -> LE -> LE) (st : LE) : LE :=
    match o with Some a => f a st | None => st end.
  Definition on_e (f : Element -> Element) (st : LE) : LE := (fst st, f (snd st)).
  Definition on_l (f : TStyle -> TStyle) (st : LE) : LE := (f (fst st), snd st).
  (** [if let Keyword(k) = value] arms *)
  Definition keyword_of (v : ComputedValue) : option string :=
    match v with CKeyword k => Some k | _ => None end.
  Definition time_of (v : ComputedValue) : option f32 :=
    match v with CTime f => Some f | _ => None end.
  Definition number_of (v : ComputedValue) : option f32 :=
    match v with CNumber f => Some f | _ => None end.

  (** [let background = element.get_background_mut(index); ... ?]: the vector
      grows even when the value is rejected. *)
  Definition touch_bg (index : nat) : LE -> LE :=
    on_e (fun e => e <| e_backgrounds ::= ensure_len index background_default |>).
  Definition set_bg (index : nat) (f : Background -> Background) : LE -> LE :=
    on_e (fun e => e <| e_backgrounds ::= update_at index background_default f |>).
  Definition set_tr (index : nat) (f : Transition -> Transition) : LE -> LE :=
    on_e (fun e => e <| e_transitions ::= update_at index transition_default f |>).
  Definition set_an (index : nat) (f : Animator -> Animator) : LE -> LE :=
    on_e (fun e => e <| e_animators ::= update_at index animator_default f |>).

  (** src/styles/apply.rs:11-310.  The [Result] is only counted and logged by
      the caller, so the state after the call is all that matters. *)
  Definition apply (key : PropertyKey) (index : nat) (v : ComputedValue) (st : LE) : LE :=
    match key with
    | KOutline => st
    | KOpacity => assign (resolve_alpha v) (fun x => on_e (fun e => e <| e_self_opacity := x |>)) st
    | KBackgroundColor =>
        assign (resolve_color v) (fun c => set_bg index (fun b => b <| bg_color := c |>)) (touch_bg index st)
    | KBackgroundImage =>
        match v with
        | CKeyword k => if String.eqb k "none" then set_bg index (fun b => b <| bg_image := None |>) st else st
        | CStr s => set_bg index (fun b => b <| bg_image := Some s |>) st
        | _ => st
        end
    | KBackgroundPositionX =>
        assign (resolve_length v f0) (fun x => set_bg index (fun b => b <| bg_src_x := fneg x |>)) (touch_bg index st)
    | KBackgroundPositionY =>
        assign (resolve_length v f0) (fun x => set_bg index (fun b => b <| bg_src_y := fneg x |>)) (touch_bg index st)
    | KColor => assign (resolve_color v) (fun c => on_e (fun e => e <| e_color := c |>)) st
    | KFontSize =>
        assign (resolve_length v (parent_font_size sizes))
               (fun x => on_e (fun e => e <| e_font; f_size := x |>)) st
    | KFontWeight => assign (resolve_font_weight v) (fun x => on_e (fun e => e <| e_font; f_weight := x |>)) st
    | KFontFamily => assign (resolve_string v) (fun x => on_e (fun e => e <| e_font; f_family := x |>)) st
    | KFontStyle =>
        assign (k ← keyword_of v; kw [("normal", "normal"); ("italic", "italic"); ("oblique", "oblique")] k)
               (fun x => on_e (fun e => e <| e_font; f_style := x |>)) st
    | KTextAlign =>
        assign (k ← keyword_of v;
                kw [("start", TAStart); ("end", TAEnd); ("left", TALeft); ("right", TARight); ("center", TACenter);
                    ("justify", TAJustify); ("justify-all", TAJustifyAll); ("match-parent", TAMatchParent)] k)
               (fun x => on_e (fun e => e <| e_font; f_align := x |>)) st
    | KPointerEvents =>
        assign (k ← keyword_of v; kw [("auto", PEAuto); ("none", PENone)] k)
               (fun x => on_e (fun e => e <| e_pointer_events := x |>)) st
    | KCursor =>
        assign (k ← keyword_of v;
                kw [("auto", PAuto); ("default", PDefault); ("pointer", PPointer); ("context-menu", PContextMenu);
                    ("help", PHelp); ("progress", PProgress); ("wait", PWait); ("text", PText);
                    ("not-allowed", PNotAllowed)] k)
               (fun x => on_e (fun e => e <| e_pointer := x |>)) st
    | KVisibility =>
        assign (k ← keyword_of v; kw [("visible", true); ("hidden", false)] k)
               (fun x => on_e (fun e => e <| e_visible := x |>)) st
    | KBorderTopWidth =>
        assign (dimension_length v)
               (fun x st => on_l (fun l => l <| ts_border; r_top := LPLength x |>)
                                 (on_e (fun e => e <| e_borders; b_top; bw := x |>) st)) st
    | KBorderRightWidth =>
        assign (dimension_length v)
               (fun x st => on_l (fun l => l <| ts_border; r_right := LPLength x |>)
                                 (on_e (fun e => e <| e_borders; b_right; bw := x |>) st)) st
    | KBorderBottomWidth =>
        assign (dimension_length v)
               (fun x st => on_l (fun l => l <| ts_border; r_bottom := LPLength x |>)
                                 (on_e (fun e => e <| e_borders; b_bottom; bw := x |>) st)) st
    | KBorderLeftWidth =>
        assign (dimension_length v)
               (fun x st => on_l (fun l => l <| ts_border; r_left := LPLength x |>)
                                 (on_e (fun e => e <| e_borders; b_left; bw := x |>) st)) st
    | KBorderTopColor => assign (resolve_color v) (fun c => on_e (fun e => e <| e_borders; b_top; bc := c |>)) st
    | KBorderRightColor => assign (resolve_color v) (fun c => on_e (fun e => e <| e_borders; b_right; bc := c |>)) st
    | KBorderBottomColor => assign (resolve_color v) (fun c => on_e (fun e => e <| e_borders; b_bottom; bc := c |>)) st
    | KBorderLeftColor => assign (resolve_color v) (fun c => on_e (fun e => e <| e_borders; b_left; bc := c |>)) st
    | KBorderTopLeftRadius => assign (length v) (fun x => on_e (fun e => e <| e_borders; b_radius0 := x |>)) st
    | KBorderTopRightRadius => assign (length v) (fun x => on_e (fun e => e <| e_borders; b_radius1 := x |>)) st
    | KBorderBottomRightRadius => assign (length v) (fun x => on_e (fun e => e <| e_borders; b_radius2 := x |>)) st
    | KBorderBottomLeftRadius => assign (length v) (fun x => on_e (fun e => e <| e_borders; b_radius3 := x |>)) st
    | KBoxSizing =>
        assign (k ← keyword_of v; kw [("border-box", BorderBox); ("content-box", ContentBox)] k)
               (fun x => on_l (fun l => l <| ts_box_sizing := x |>)) st
    | KMarginTop => assign (lengthp_auto v) (fun x => on_l (fun l => l <| ts_margin; r_top := x |>)) st
    | KMarginRight => assign (lengthp_auto v) (fun x => on_l (fun l => l <| ts_margin; r_right := x |>)) st
    | KMarginBottom => assign (lengthp_auto v) (fun x => on_l (fun l => l <| ts_margin; r_bottom := x |>)) st
    | KMarginLeft => assign (lengthp_auto v) (fun x => on_l (fun l => l <| ts_margin; r_left := x |>)) st
    | KPaddingTop => assign (lengthp v) (fun x => on_l (fun l => l <| ts_padding; r_top := x |>)) st
    | KPaddingRight => assign (lengthp v) (fun x => on_l (fun l => l <| ts_padding; r_right := x |>)) st
    | KPaddingBottom => assign (lengthp v) (fun x => on_l (fun l => l <| ts_padding; r_bottom := x |>)) st
    | KPaddingLeft => assign (lengthp v) (fun x => on_l (fun l => l <| ts_padding; r_left := x |>)) st
    | KDisplay =>
        assign (k ← keyword_of v; kw [("flow", DBlock); ("block", DBlock); ("flex", DFlex); ("grid", DGrid)] k)
               (fun x => on_l (fun l => l <| ts_display := x |>)) st
    | KOverflowX =>
        assign (k ← keyword_of v; resolve_overflow k) (fun x => on_l (fun l => l <| ts_overflow_x := x |>)) st
    | KOverflowY =>
        assign (k ← keyword_of v; resolve_overflow k) (fun x => on_l (fun l => l <| ts_overflow_y := x |>)) st
    | KPosition =>
        assign (k ← keyword_of v; kw [("relative", PosRelative); ("absolute", PosAbsolute)] k)
               (fun x => on_l (fun l => l <| ts_position := x |>)) st
    | KLeft => assign (lengthp_auto v) (fun x => on_l (fun l => l <| ts_inset; r_left := x |>)) st
    | KRight => assign (lengthp_auto v) (fun x => on_l (fun l => l <| ts_inset; r_right := x |>)) st
    | KTop => assign (lengthp_auto v) (fun x => on_l (fun l => l <| ts_inset; r_top := x |>)) st
    | KBottom => assign (lengthp_auto v) (fun x => on_l (fun l => l <| ts_inset; r_bottom := x |>)) st
    | KWidth => assign (dimension v) (fun x => on_l (fun l => l <| ts_size; sz_width := x |>)) st
    | KHeight => assign (dimension v) (fun x => on_l (fun l => l <| ts_size; sz_height := x |>)) st
    | KMinWidth => assign (dimension v) (fun x => on_l (fun l => l <| ts_min_size; sz_width := x |>)) st
    | KMinHeight => assign (dimension v) (fun x => on_l (fun l => l <| ts_min_size; sz_height := x |>)) st
    | KMaxWidth => assign (dimension v) (fun x => on_l (fun l => l <| ts_max_size; sz_width := x |>)) st
    | KMaxHeight => assign (dimension v) (fun x => on_l (fun l => l <| ts_max_size; sz_height := x |>)) st
    | KAlignContent =>
        assign (k ← keyword_of v; map_align_content k) (fun x => on_l (fun l => l <| ts_align_content := x |>)) st
    | KAlignItems =>
        assign (k ← keyword_of v; map_align_items k) (fun x => on_l (fun l => l <| ts_align_items := x |>)) st
    | KAlignSelf =>
        assign (k ← keyword_of v; map_align_items k) (fun x => on_l (fun l => l <| ts_align_self := x |>)) st
    | KJustifyContent =>
        assign (k ← keyword_of v; map_align_content k) (fun x => on_l (fun l => l <| ts_justify_content := x |>)) st
    | KJustifyItems =>
        assign (k ← keyword_of v; map_align_items k) (fun x => on_l (fun l => l <| ts_justify_items := x |>)) st
    | KJustifySelf =>
        assign (k ← keyword_of v; map_align_items k) (fun x => on_l (fun l => l <| ts_justify_self := x |>)) st
    | KFlexDirection =>
        assign (k ← keyword_of v;
                kw [("row", FDRow); ("row-reverse", FDRowReverse); ("column", FDColumn);
                    ("column-reverse", FDColumnReverse)] k)
               (fun x => on_l (fun l => l <| ts_flex_direction := x |>)) st
    | KFlexWrap =>
        assign (k ← keyword_of v; kw [("wrap", FWWrap); ("nowrap", FWNoWrap); ("wrap-reverse", FWWrapReverse)] k)
               (fun x => on_l (fun l => l <| ts_flex_wrap := x |>)) st
    | KFlexBasis => assign (dimension v) (fun x => on_l (fun l => l <| ts_flex_basis := x |>)) st
    | KFlexGrow => assign (number_of v) (fun x => on_l (fun l => l <| ts_flex_grow := x |>)) st
    | KFlexShrink => assign (number_of v) (fun x => on_l (fun l => l <| ts_flex_shrink := x |>)) st
    | KColumnGap => assign (lengthp v) (fun x => on_l (fun l => l <| ts_gap; sz_width := x |>)) st
    | KRowGap => assign (lengthp v) (fun x => on_l (fun l => l <| ts_gap; sz_height := x |>)) st
    | KTransitionProperty =>
        assign (k ← keyword_of v; parse_key k) (fun x => set_tr index (fun t => t <| t_key := Some x |>)) st
    | KTransitionDuration =>
        assign (time_of v) (fun x => set_tr index (fun t => t <| t_animator; a_duration := x |>)) st
    | KTransitionDelay =>
        assign (time_of v) (fun x => set_tr index (fun t => t <| t_animator; a_delay := x |>)) st
    | KTransitionTimingFunction =>
        assign (resolve_timing v) (fun x => set_tr index (fun t => t <| t_animator; a_timing := x |>)) st
    | KAnimationName => assign (keyword_of v) (fun x => set_an index (fun a => a <| a_name := x |>)) st
    | KAnimationDelay => assign (time_of v) (fun x => set_an index (fun a => a <| a_delay := x |>)) st
    | KAnimationDirection =>
        assign (k ← keyword_of v;
                kw [("normal", ADNormal); ("reverse", ADReverse); ("alternate", ADAlternate);
                    ("alternate-reverse", ADAlternateReverse)] k)
               (fun x => set_an index (fun a => a <| a_direction := x |>)) st
    | KAnimationDuration => assign (time_of v) (fun x => set_an index (fun a => a <| a_duration := x |>)) st
    | KAnimationFillMode =>
        assign (k ← keyword_of v;
                kw [("none", AFNone); ("forwards", AFForwards); ("backwards", AFBackwards); ("both", AFBoth)] k)
               (fun x => set_an index (fun a => a <| a_fill_mode := x |>)) st
    | KAnimationIterationCount =>
        assign (resolve_iterations v) (fun x => set_an index (fun a => a <| a_iterations := x |>)) st
    | KAnimationPlayState =>
        assign (k ← keyword_of v; kw [("running", true); ("paused", false)] k)
               (fun x => set_an index (fun a => a <| a_running := x |>)) st
    | KAnimationTimingFunction =>
        assign (resolve_timing v) (fun x => set_an index (fun a => a <| a_timing := x |>)) st
    | _ => st
    end.

  (** the loop of src/styles/mod.rs:113-120, in the hash map's order [order] *)
  Definition apply_all (order : list (Descriptor * ComputedValue)) (st : LE) : LE :=
    foldl (fun st '((key, index), v) => apply key index v st) st order.
End resolve.

(** src/styles/default.rs:10-31 *)
Definition reset_element_style (e : Element) : Element :=
  e <| e_backgrounds := [] |> <| e_borders := borders_default |> <| e_color := black |>
    <| e_font := font_default |> <| e_self_opacity := f1 |>.

(** src/styles/inherit.rs:3-51 *)
Definition inherit (parent e : Element) : Element :=
  e <| e_color := e_color parent |>
    <| e_font; f_family := f_family (e_font parent) |>
    <| e_font; f_size := f_size (e_font parent) |>
    <| e_font; f_style := f_style (e_font parent) |>
    <| e_font; f_weight := f_weight (e_font parent) |>
    <| e_font; f_line_height := f_line_height (e_font parent) |>
    <| e_pointer_events := e_pointer_events parent |>.
