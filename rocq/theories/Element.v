(** * Elements: src/element.rs, the animation state of src/animation.rs and the
      parts of taffy's [Style] and [Layout] the code reads or writes. *)
From stdpp Require Import gmap.
From RecordUpdate Require Import RecordUpdate.
From Verif Require Import Str F32 Res PropKey Css.

(** ids are handed out in increasing order *)
Notation NodeId := nat (only parsing).

(** [[f32; 2]] *)
Definition vec2 : Set := f32 * f32.
Definition vzero : vec2 := (f0, f0).

(** src/element.rs:54-64 *)
Inductive HandlerArgument :=
| HAKeyword (k : string)
| HAEvent
| HABinder (path : string) (pipe : list string).
Definition Handler := list HandlerArgument.

(** src/element.rs:66-70 *)
Inductive ElementStyle :=
| EStatic (s : Style)
| EDynamic (s : Style).
Definition style_of (e : ElementStyle) : Style :=
  match e with EStatic s => s | EDynamic s => s end.

(** src/element.rs:72-89 *)
Record Hints := mkHints {
  dynamic_attrs : gset string;
  has_dynamic_classes : bool;
  has_dynamic_id : bool
}.
#[global] Instance eta_Hints : Settable _ :=
  settable! mkHints <dynamic_attrs; has_dynamic_classes; has_dynamic_id>.
Definition hints_default : Hints := mkHints ∅ false false.
Definition has_dynamic_attrs (h : Hints) : bool := negb (bool_decide (dynamic_attrs h = ∅)).
Definition has_dynamic_properties (h : Hints) : bool :=
  has_dynamic_attrs h || has_dynamic_classes h || has_dynamic_id h.

(** src/element.rs:151-155 *)
Inductive Length : Set := LNumber (f : f32) | LPercent (f : f32).
Definition length_zero : Length := LNumber f0.

(** src/element.rs:236-240, 189-195 *)
Record MyBorder : Set := mkBorder { bw : f32; bc : Rgba }.
#[global] Instance eta_MyBorder : Settable _ := settable! mkBorder <bw; bc>.
Definition rgba0 : Rgba := (0, 0, 0, 0)%Z.
Definition black : Rgba := (0, 0, 0, 255)%Z.
Definition border_default : MyBorder := mkBorder f0 rgba0.
Record Borders := mkBorders {
  b_top : MyBorder; b_bottom : MyBorder; b_right : MyBorder; b_left : MyBorder;
  b_radius0 : Length; b_radius1 : Length; b_radius2 : Length; b_radius3 : Length
}.
#[global] Instance eta_Borders : Settable _ :=
  settable! mkBorders <b_top; b_bottom; b_right; b_left; b_radius0; b_radius1; b_radius2; b_radius3>.
Definition borders_default : Borders :=
  mkBorders border_default border_default border_default border_default
            length_zero length_zero length_zero length_zero.

(** src/element.rs:242-272 *)
Record Background := mkBackground {
  bg_image : option string; bg_is_src : bool; bg_color : Rgba; bg_src_x : f32; bg_src_y : f32
}.
#[global] Instance eta_Background : Settable _ :=
  settable! mkBackground <bg_image; bg_is_src; bg_color; bg_src_x; bg_src_y>.
Definition background_default : Background := mkBackground None false rgba0 f0 f0.

(** src/element.rs:301-311 *)
Inductive TextAlign : Set :=
| TAStart | TAEnd | TALeft | TARight | TACenter | TAJustify | TAJustifyAll | TAMatchParent.

(** src/element.rs:283-299 *)
Record FontFace := mkFont {
  f_family : string; f_size : f32; f_style : string; f_weight : Z; f_line_height : f32;
  f_align : TextAlign
}.
#[global] Instance eta_FontFace : Settable _ :=
  settable! mkFont <f_family; f_size; f_style; f_weight; f_line_height; f_align>.
(** src/styles/default.rs:20-29, 57-66 *)
Definition font_default : FontFace := mkFont "system-ui" f16 "normal" 400 f1 TAStart.

(** src/element.rs:313-319 *)
Record ElementState : Set := mkState { st_active : bool; st_hover : bool; st_focus : bool; st_checked : bool }.
#[global] Instance eta_ElementState : Settable _ :=
  settable! mkState <st_active; st_hover; st_focus; st_checked>.
Definition state_default : ElementState := mkState false false false false.

(** src/element.rs:321-339 *)
Inductive PointerEvents : Set := PEAuto | PENone.
Inductive Pointer : Set :=
| PAuto | PDefault | PContextMenu | PHelp | PPointer | PProgress | PWait | PText | PNotAllowed.
#[global] Instance PointerEvents_eq_dec : EqDecision PointerEvents. Proof. solve_decision. Defined.
#[global] Instance Pointer_eq_dec : EqDecision Pointer. Proof. solve_decision. Defined.

(** src/element.rs:274-281: never written after creation. *)
Inductive ObjectFit : Set := OFContain | OFCover | OFFill | OFNone | OFScaleDown.

(** src/styles/scrolling.rs:3-9 *)
Record Scrolling := mkScrolling { sc_x : f32; sc_y : f32; sc_scroll_x : f32; sc_scroll_y : f32 }.

(** taffy's [Layout]: the fields bumaga reads. *)
Record Layout := mkLayout { lo_location : vec2; lo_size : vec2; lo_content : vec2 }.

(** src/animation.rs:200-241 *)
Inductive AnimationDirection : Set := ADNormal | ADReverse | ADAlternate | ADAlternateReverse.
Inductive AnimationFillMode : Set := AFNone | AFForwards | AFBackwards | AFBoth.
Inductive TimingFunction : Set :=
| TFEase | TFEaseIn | TFEaseOut | TFEaseInOut | TFLinear | TFStepStart | TFStepEnd.
Inductive AnimationIterations : Set := AINumber (f : f32) | AIInfinite.

(** src/animation.rs:80-111 *)
Record Animator := mkAnimator {
  a_name : string; a_delay : f32; a_direction : AnimationDirection; a_duration : f32;
  a_fill_mode : AnimationFillMode; a_timing : TimingFunction; a_iterations : AnimationIterations;
  a_running : bool; a_time : f32
}.
#[global] Instance eta_Animator : Settable _ :=
  settable! mkAnimator <a_name; a_delay; a_direction; a_duration; a_fill_mode; a_timing; a_iterations; a_running; a_time>.
Definition animator_default : Animator :=
  mkAnimator "" f0 ADNormal f0 AFNone TFLinear (AINumber f1) true f0.

(** src/animation.rs:7-22 *)
Record Transition := mkTransition {
  t_key : option PropertyKey; t_animator : Animator; t_range : option (ComputedValue * ComputedValue)
}.
#[global] Instance eta_Transition : Settable _ := settable! mkTransition <t_key; t_animator; t_range>.
Definition transition_default : Transition := mkTransition None animator_default None.

(** src/element.rs:13-46; [TextContent] is its list of spans.  [transforms] is
    omitted: nothing ever writes it. *)
Record Element := mkElement {
  e_node : NodeId;
  e_children : list NodeId;
  e_tag : string;
  e_text : option (list string);
  e_attrs : gmap string string;
  e_attrs_bindings : gmap string (list string);
  e_position : vec2;
  e_size : vec2;
  e_content_size : vec2;
  e_object_fit : ObjectFit;
  e_backgrounds : list Background;
  e_borders : Borders;
  e_color : Rgba;
  e_font : FontFace;
  e_listeners : gmap string Handler;
  e_self_opacity : f32;
  e_opacity : f32;
  e_scrolling : option Scrolling;
  e_clipping : option Layout;
  e_pointer_events : PointerEvents;
  e_pointer : Pointer;
  e_visible : bool;
  e_hints : Hints;
  e_styles : list ElementStyle;
  e_style : list Declaration;
  e_animators : list Animator;
  e_state : ElementState;
  e_transitions : list Transition
}.
#[global] Instance eta_Element : Settable _ :=
  settable! mkElement <e_node; e_children; e_tag; e_text; e_attrs; e_attrs_bindings; e_position;
    e_size; e_content_size; e_object_fit; e_backgrounds; e_borders; e_color; e_font; e_listeners;
    e_self_opacity; e_opacity; e_scrolling; e_clipping; e_pointer_events; e_pointer; e_visible;
    e_hints; e_styles; e_style; e_animators; e_state; e_transitions>.

(** src/styles/default.rs:33-83 *)
Definition create_element (node : NodeId) : Element :=
  mkElement node [] "" None ∅ ∅ vzero vzero vzero OFFill [] borders_default black font_default ∅
    f1 f1 None None PEAuto PAuto true hints_default [] [] [] state_default [].

(** src/element.rs:86-92 *)
Definition draggable (e : Element) : bool :=
  match e_attrs e !! "draggable" with
  | Some v => String.eqb v "true"
  | None => false
  end.

(** src/element.rs:132-141: an out-of-range span is only logged. *)
Definition text_set (span : nat) (value : string) (spans : list string) : list string :=
  if (List.length spans <=? span)%nat then spans else <[span := value]> spans.

(** src/element.rs:143-146 *)
Definition text_to_string (spans : list string) : string := join "" spans.

(** src/element.rs:99-118: [get_*_mut(index)] grows the vector with defaults;
    the caller's update of the slot is [f]. *)
Definition ensure_len {A} (n : nat) (d : A) (l : list A) : list A :=
  if (List.length l <=? n)%nat then resize (S n) d l else l.
Definition update_at {A} (n : nat) (d : A) (f : A -> A) (l : list A) : list A :=
  alter f n (ensure_len n d l).

(** taffy's [Style]: the fields of src/styles/default.rs:85-113 plus [box_sizing]. *)
Inductive Dimension : Set := DimAuto | DimLength (f : f32) | DimPercent (f : f32).
Inductive LP : Set := LPLength (f : f32) | LPPercent (f : f32).
Inductive LPA : Set := LPAAuto | LPALength (f : f32) | LPAPercent (f : f32).
Inductive Display : Set := DBlock | DFlex | DGrid | DNone.
Inductive Overflow : Set := OVisible | OClip | OHidden | OScroll.
Inductive Position : Set := PosRelative | PosAbsolute.
Inductive BoxSizing : Set := BorderBox | ContentBox.
Inductive AlignItems : Set := AIStart | AIEnd | AIFlexStart | AIFlexEnd | AICenter | AIBaseline | AIStretch.
Inductive AlignContent : Set :=
| ACStart | ACEnd | ACFlexStart | ACFlexEnd | ACCenter | ACStretch | ACSpaceBetween | ACSpaceEvenly | ACSpaceAround.
Inductive FlexDirection : Set := FDRow | FDRowReverse | FDColumn | FDColumnReverse.
Inductive FlexWrap : Set := FWNoWrap | FWWrap | FWWrapReverse.
Record Rect (A : Set) : Set := mkRect { r_left : A; r_right : A; r_top : A; r_bottom : A }.
Arguments mkRect {A}. Arguments r_left {A}. Arguments r_right {A}. Arguments r_top {A}. Arguments r_bottom {A}.
#[global] Instance eta_Rect A : Settable (Rect A) := settable! (@mkRect A) <r_left; r_right; r_top; r_bottom>.
Record Size2 (A : Set) : Set := mkSize { sz_width : A; sz_height : A }.
Arguments mkSize {A}. Arguments sz_width {A}. Arguments sz_height {A}.
#[global] Instance eta_Size2 A : Settable (Size2 A) := settable! (@mkSize A) <sz_width; sz_height>.

Record TStyle := mkTStyle {
  ts_display : Display;
  ts_overflow_x : Overflow;
  ts_overflow_y : Overflow;
  ts_position : Position;
  ts_box_sizing : BoxSizing;
  ts_inset : Rect LPA;
  ts_margin : Rect LPA;
  ts_padding : Rect LP;
  ts_border : Rect LP;
  ts_size : Size2 Dimension;
  ts_min_size : Size2 Dimension;
  ts_max_size : Size2 Dimension;
  ts_gap : Size2 LP;
  ts_align_items : option AlignItems;
  ts_align_self : option AlignItems;
  ts_justify_items : option AlignItems;
  ts_justify_self : option AlignItems;
  ts_align_content : option AlignContent;
  ts_justify_content : option AlignContent;
  ts_flex_direction : FlexDirection;
  ts_flex_wrap : FlexWrap;
  ts_flex_grow : f32;
  ts_flex_shrink : f32;
  ts_flex_basis : Dimension
}.
#[global] Instance eta_TStyle : Settable _ :=
  settable! mkTStyle <ts_display; ts_overflow_x; ts_overflow_y; ts_position; ts_box_sizing; ts_inset;
    ts_margin; ts_padding; ts_border; ts_size; ts_min_size; ts_max_size; ts_gap; ts_align_items;
    ts_align_self; ts_justify_items; ts_justify_self; ts_align_content; ts_justify_content;
    ts_flex_direction; ts_flex_wrap; ts_flex_grow; ts_flex_shrink; ts_flex_basis>.

(** src/styles/default.rs:85-113; taffy's default [box_sizing] is [BorderBox]. *)
Definition default_layout : TStyle :=
  let auto := mkSize DimAuto DimAuto in
  mkTStyle DBlock OVisible OVisible PosRelative BorderBox
    (mkRect LPAAuto LPAAuto LPAAuto LPAAuto)
    (mkRect (LPALength f0) (LPALength f0) (LPALength f0) (LPALength f0))
    (mkRect (LPLength f0) (LPLength f0) (LPLength f0) (LPLength f0))
    (mkRect (LPLength f0) (LPLength f0) (LPLength f0) (LPLength f0))
    auto auto auto (mkSize (LPLength f0) (LPLength f0))
    None None None None None None FDRow FWNoWrap f0 f1 DimAuto.
