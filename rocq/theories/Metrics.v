(** * The counters of a view: src/metrics.rs, src/styles/stats.rs and the places
      in src/view.rs and src/styles/mod.rs that count.

    The functions below are those of View.v and Styling.v with their counting; the
    theorem [C83_same_view] says that they compute the same views.  Simplified:
    a counter is a natural number (mesura's is an atomic 64 bit one), and it belongs
    to this view alone: mesura keeps counters of one name together, so that what an
    application reads is the sum over its views. *)
From stdpp Require Import gmap.
From RecordUpdate Require Import RecordUpdate.
From Verif Require Import Str F32 Res Json PropKey Html Css Element Tree ViewModel Render Update Matching
  Cascade Initial Animation Apply Styling Events View.

(** src/metrics.rs:3-31 *)
Record Metrics := mkMetrics {
  m_updates : nat;
  m_elements_shown : nat;
  m_cascades : nat;
  m_layouts : nat;
  m_styles : nat;          (* a gauge *)
  m_matches_static : nat;
  m_matches_dynamic : nat;
  m_apply_ok : nat;
  m_apply_error : nat
}.
#[global] Instance eta_Metrics : Settable _ :=
  settable! mkMetrics <m_updates; m_elements_shown; m_cascades; m_layouts; m_styles; m_matches_static;
    m_matches_dynamic; m_apply_ok; m_apply_error>.
(** src/metrics.rs:12-23, 33-47 *)
Definition metrics_new : Metrics := mkMetrics 0 0 0 0 0 0 0 0 0.

(** src/styles/stats.rs:1-7 *)
Record Stats := mkStats { s_static : nat; s_dynamic : nat; s_ok : nat; s_error : nat }.

(** A computation that counts: what is counted stays when it fails. *)
Definition counted (A : Type) : Type := Metrics -> Metrics * res A.
Definition ret {A} (r : res A) : counted A := fun m => (m, r).
Definition tick (f : Metrics -> Metrics) : counted unit := fun m => (f m, Ok tt).
Definition bindM {A B} (c : counted A) (k : A -> counted B) : counted B := fun m =>
  match c m with
  | (m, Ok a) => k a m
  | (m, Err e) => (m, Err e)
  | (m, Panic) => (m, Panic)
  | (m, Hang) => (m, Hang)
  end.
Fixpoint foldM {A S} (f : S -> A -> counted S) (s : S) (l : list A) : counted S :=
  match l with
  | [] => ret (Ok s)
  | a :: l' => bindM (f s a) (fun s' => foldM f s' l')
  end.

(** taffy's [impl PartialEq for Style], derived: floats are compared as floats. *)
Definition dimension_eqb (a b : Dimension) : bool :=
  match a, b with
  | DimAuto, DimAuto => true
  | DimLength f, DimLength g | DimPercent f, DimPercent g => feq f g
  | _, _ => false
  end.
Definition lp_eqb (a b : LP) : bool :=
  match a, b with LPLength f, LPLength g | LPPercent f, LPPercent g => feq f g | _, _ => false end.
Definition lpa_eqb (a b : LPA) : bool :=
  match a, b with
  | LPAAuto, LPAAuto => true
  | LPALength f, LPALength g | LPAPercent f, LPAPercent g => feq f g
  | _, _ => false
  end.
Definition rect_eqb {A : Set} (eqb : A -> A -> bool) (a b : Rect A) : bool :=
  eqb (r_left a) (r_left b) && eqb (r_right a) (r_right b) && eqb (r_top a) (r_top b) && eqb (r_bottom a) (r_bottom b).
Definition size_eqb {A : Set} (eqb : A -> A -> bool) (a b : Size2 A) : bool :=
  eqb (sz_width a) (sz_width b) && eqb (sz_height a) (sz_height b).
#[global] Instance Display_eqd : EqDecision Display. Proof. solve_decision. Defined.
#[global] Instance Overflow_eqd : EqDecision Overflow. Proof. solve_decision. Defined.
#[global] Instance Position_eqd : EqDecision Position. Proof. solve_decision. Defined.
#[global] Instance BoxSizing_eqd : EqDecision BoxSizing. Proof. solve_decision. Defined.
#[global] Instance AlignItems_eqd : EqDecision AlignItems. Proof. solve_decision. Defined.
#[global] Instance AlignContent_eqd : EqDecision AlignContent. Proof. solve_decision. Defined.
#[global] Instance FlexDirection_eqd : EqDecision FlexDirection. Proof. solve_decision. Defined.
#[global] Instance FlexWrap_eqd : EqDecision FlexWrap. Proof. solve_decision. Defined.
Definition tstyle_eqb (a b : TStyle) : bool :=
  bool_decide (ts_display a = ts_display b) && bool_decide (ts_overflow_x a = ts_overflow_x b) &&
  bool_decide (ts_overflow_y a = ts_overflow_y b) && bool_decide (ts_position a = ts_position b) &&
  bool_decide (ts_box_sizing a = ts_box_sizing b) &&
  rect_eqb lpa_eqb (ts_inset a) (ts_inset b) && rect_eqb lpa_eqb (ts_margin a) (ts_margin b) &&
  rect_eqb lp_eqb (ts_padding a) (ts_padding b) && rect_eqb lp_eqb (ts_border a) (ts_border b) &&
  size_eqb dimension_eqb (ts_size a) (ts_size b) && size_eqb dimension_eqb (ts_min_size a) (ts_min_size b) &&
  size_eqb dimension_eqb (ts_max_size a) (ts_max_size b) && size_eqb lp_eqb (ts_gap a) (ts_gap b) &&
  bool_decide (ts_align_items a = ts_align_items b) && bool_decide (ts_align_self a = ts_align_self b) &&
  bool_decide (ts_justify_items a = ts_justify_items b) && bool_decide (ts_justify_self a = ts_justify_self b) &&
  bool_decide (ts_align_content a = ts_align_content b) && bool_decide (ts_justify_content a = ts_justify_content b) &&
  bool_decide (ts_flex_direction a = ts_flex_direction b) && bool_decide (ts_flex_wrap a = ts_flex_wrap b) &&
  feq (ts_flex_grow a) (ts_flex_grow b) && feq (ts_flex_shrink a) (ts_flex_shrink b) &&
  dimension_eqb (ts_flex_basis a) (ts_flex_basis b).

(** src/styles/apply.rs:11-310: whether [apply] returns [Ok]. *)
Definition accepted (sizes : Sizes) (key : PropertyKey) (v : ComputedValue) : bool :=
  let is {A} (o : option A) : bool := match o with Some _ => true | None => false end in
  match key with
  | KOutline => true
  | KOpacity => is (resolve_alpha v)
  | KBackgroundColor => is (resolve_color sizes v)
  | KBackgroundImage => match v with CKeyword k => String.eqb k "none" | CStr _ => true | _ => false end
  | KBackgroundPositionX => is (resolve_length sizes v f0)
  | KBackgroundPositionY => is (resolve_length sizes v f0)
  | KColor => is (resolve_color sizes v)
  | KFontSize => is (resolve_length sizes v (parent_font_size sizes))
  | KFontWeight => is (resolve_font_weight v)
  | KFontFamily => is (resolve_string v)
  | KFontStyle => is (k ← keyword_of v; kw [("normal", "normal"); ("italic", "italic"); ("oblique", "oblique")] k)
  | KTextAlign => is (k ← keyword_of v; kw [("start", TAStart); ("end", TAEnd); ("left", TALeft); ("right", TARight); ("center", TACenter); ("justify", TAJustify); ("justify-all", TAJustifyAll); ("match-parent", TAMatchParent)] k)
  | KPointerEvents => is (k ← keyword_of v; kw [("auto", PEAuto); ("none", PENone)] k)
  | KCursor => is (k ← keyword_of v; kw [("auto", PAuto); ("default", PDefault); ("pointer", PPointer); ("context-menu", PContextMenu); ("help", PHelp); ("progress", PProgress); ("wait", PWait); ("text", PText); ("not-allowed", PNotAllowed)] k)
  | KVisibility => is (k ← keyword_of v; kw [("visible", true); ("hidden", false)] k)
  | KBorderTopWidth => is (dimension_length sizes v)
  | KBorderRightWidth => is (dimension_length sizes v)
  | KBorderBottomWidth => is (dimension_length sizes v)
  | KBorderLeftWidth => is (dimension_length sizes v)
  | KBorderTopColor => is (resolve_color sizes v)
  | KBorderRightColor => is (resolve_color sizes v)
  | KBorderBottomColor => is (resolve_color sizes v)
  | KBorderLeftColor => is (resolve_color sizes v)
  | KBorderTopLeftRadius => is (length sizes v)
  | KBorderTopRightRadius => is (length sizes v)
  | KBorderBottomRightRadius => is (length sizes v)
  | KBorderBottomLeftRadius => is (length sizes v)
  | KBoxSizing => is (k ← keyword_of v; kw [("border-box", BorderBox); ("content-box", ContentBox)] k)
  | KMarginTop => is (lengthp_auto sizes v)
  | KMarginRight => is (lengthp_auto sizes v)
  | KMarginBottom => is (lengthp_auto sizes v)
  | KMarginLeft => is (lengthp_auto sizes v)
  | KPaddingTop => is (lengthp sizes v)
  | KPaddingRight => is (lengthp sizes v)
  | KPaddingBottom => is (lengthp sizes v)
  | KPaddingLeft => is (lengthp sizes v)
  | KDisplay => is (k ← keyword_of v; kw [("flow", DBlock); ("block", DBlock); ("flex", DFlex); ("grid", DGrid)] k)
  | KOverflowX => is (k ← keyword_of v; resolve_overflow k)
  | KOverflowY => is (k ← keyword_of v; resolve_overflow k)
  | KPosition => is (k ← keyword_of v; kw [("relative", PosRelative); ("absolute", PosAbsolute)] k)
  | KLeft => is (lengthp_auto sizes v)
  | KRight => is (lengthp_auto sizes v)
  | KTop => is (lengthp_auto sizes v)
  | KBottom => is (lengthp_auto sizes v)
  | KWidth => is (dimension sizes v)
  | KHeight => is (dimension sizes v)
  | KMinWidth => is (dimension sizes v)
  | KMinHeight => is (dimension sizes v)
  | KMaxWidth => is (dimension sizes v)
  | KMaxHeight => is (dimension sizes v)
  | KAlignContent => is (k ← keyword_of v; map_align_content k)
  | KAlignItems => is (k ← keyword_of v; map_align_items k)
  | KAlignSelf => is (k ← keyword_of v; map_align_items k)
  | KJustifyContent => is (k ← keyword_of v; map_align_content k)
  | KJustifyItems => is (k ← keyword_of v; map_align_items k)
  | KJustifySelf => is (k ← keyword_of v; map_align_items k)
  | KFlexDirection => is (k ← keyword_of v; kw [("row", FDRow); ("row-reverse", FDRowReverse); ("column", FDColumn); ("column-reverse", FDColumnReverse)] k)
  | KFlexWrap => is (k ← keyword_of v; kw [("wrap", FWWrap); ("nowrap", FWNoWrap); ("wrap-reverse", FWWrapReverse)] k)
  | KFlexBasis => is (dimension sizes v)
  | KFlexGrow => is (number_of v)
  | KFlexShrink => is (number_of v)
  | KColumnGap => is (lengthp sizes v)
  | KRowGap => is (lengthp sizes v)
  | KTransitionProperty => is (k ← keyword_of v; parse_key k)
  | KTransitionDuration => is (time_of v)
  | KTransitionDelay => is (time_of v)
  | KTransitionTimingFunction => is (resolve_timing v)
  | KAnimationName => is (keyword_of v)
  | KAnimationDelay => is (time_of v)
  | KAnimationDirection => is (k ← keyword_of v; kw [("normal", ADNormal); ("reverse", ADReverse); ("alternate", ADAlternate); ("alternate-reverse", ADAlternateReverse)] k)
  | KAnimationDuration => is (time_of v)
  | KAnimationFillMode => is (k ← keyword_of v; kw [("none", AFNone); ("forwards", AFForwards); ("backwards", AFBackwards); ("both", AFBoth)] k)
  | KAnimationIterationCount => is (resolve_iterations v)
  | KAnimationPlayState => is (k ← keyword_of v; kw [("running", true); ("paused", false)] k)
  | KAnimationTimingFunction => is (resolve_timing v)
  | _ => false
  end.

Section count.
  Context (fuel : nat).
  Context (debug : bool).
  Context (css : Css).
  Context (order : ComputedStyle -> list (Descriptor * ComputedValue)).
  Context (time : f32).

  (** src/styles/mod.rs:78-91: [stats.matches_static], [stats.matches_dynamic]: a
      dynamic rule is counted whether or not it matches. *)
  Definition count_static (l : list ElementStyle) : nat :=
    List.length (List.filter (fun es => match es with EStatic _ => true | EDynamic _ => false end) l).
  Definition count_dynamic (l : list ElementStyle) : nat :=
    List.length (List.filter (fun es => match es with EStatic _ => false | EDynamic _ => true end) l).
  (** src/styles/mod.rs:115-122: [stats.apply_ok], [stats.apply_error] *)
  Definition count_applied (sizes : Sizes) (ok : bool) (l : list (Descriptor * ComputedValue)) : nat :=
    List.length (List.filter (fun '((key, _), v) => Bool.eqb (accepted sizes key v) ok) l).

  (** src/styles/mod.rs:62-127 with the statistics *)
  Definition cascade_counts (sizes : Sizes) (vars : Variables) (node : NodeId) (t : Tree) (parent : Element)
      (layout : TStyle) (e : Element) : res (TStyle * Element * Variables * Stats) :=
    let e := reset_element_style e in
    let e := inherit parent e in
    do! (vars, s) <- cascade_rules fuel debug node t (e_styles e) (vars, ∅);
    do! (vars, s) <- compute_declaration_block fuel (e_style e) (vars, s);
    do! (animators, s) <- play_animators fuel css time vars (e_animators e, s);
    do! (transitions, s) <- play_transitions fuel time (e_transitions e) s;
    let e := e <| e_animators := animators |> <| e_transitions := transitions |> in
    let stats := mkStats (count_static (e_styles e)) (count_dynamic (e_styles e))
                         (count_applied sizes true (order s)) (count_applied sizes false (order s)) in
    let (layout, e) := apply_all sizes (order s) (layout, e) in
    do! transitions <- mapR (init_after_style_applied s) (e_transitions e);
    Ok (layout, e <| e_transitions := transitions |>, vars, stats).

  (** src/view.rs:384-400: what a cascade adds to the counters; [styles.len()] is
      shown by a gauge. *)
  Definition count_cascade (stats : Stats) (m : Metrics) : Metrics :=
    mkMetrics (m_updates m) (m_elements_shown m) (m_cascades m) (m_layouts m) (List.length (css_styles css))
      (m_matches_static m + s_static stats) (m_matches_dynamic m + s_dynamic stats)
      (m_apply_ok m + s_ok stats) (m_apply_error m + s_error stats).
  Definition count_layout (before after : TStyle) (m : Metrics) : Metrics :=
    if tstyle_eqb before after then m else m <| m_layouts ::= S |>.

  (** src/view.rs:357-437.  Simplified: [set_style] runs whether or not the style
      has changed; two styles that are equal for taffy differ at most in the signs
      of zeros. *)
  Fixpoint apply_styles_counted (depth : nat) (node : NodeId) (sizes : Sizes) (vars : Variables) (t : Tree) {struct depth}
    : counted Tree :=
    match depth with
    | O => ret Hang
    | S depth =>
        bindM (ret (parent t node)) (fun p =>
        bindM (ret (ok_or (p ← p; get_ctx t p) (EParentNotFound node))) (fun pe =>
        bindM (ret (style t node)) (fun before =>
        bindM (ret (get_element t node)) (fun e =>
        match e_text e with
        | Some _ => ret (Ok (put_element node (inherit pe e) t))
        | None =>
            bindM (tick (fun m => m <| m_cascades ::= S |>)) (fun _ =>
            bindM (ret (cascade_counts sizes vars node t pe before e)) (fun '(layout, e, vars, stats) =>
            bindM (tick (count_cascade stats)) (fun _ =>
            bindM (tick (count_layout before layout)) (fun _ =>
            bindM (ret (set_style node layout (put_element node e t))) (fun t =>
            if String.eqb (e_tag e) "img" || is_void (e_tag e) then ret (Ok t)
            else
              bindM (ret (children t node)) (fun cs =>
              let sizes := sizes <| parent_font_size := f_size (e_font e) |> <| parent_color := e_color e |> in
              foldM (fun t c => apply_styles_counted depth c sizes vars t) t cs))))))
        end))))
    end.
End count.

(** src/view.rs:147-178 *)
Fixpoint final_positions_counted (depth : nat) (node : NodeId) (location : vec2) (opacity : f32)
    (clipping : option Layout) (t : Tree) {struct depth} : counted Tree :=
  match depth with
  | O => ret Hang
  | S depth =>
      bindM (tick (fun m => m <| m_elements_shown ::= S |>)) (fun _ =>
      bindM (ret (final_layout t node)) (fun layout =>
      let layout := mkLayout (vadd (lo_location layout) location) (lo_size layout) (lo_content layout) in
      bindM (ret (get_element t node)) (fun e =>
      let e := place_element layout opacity clipping e in
      let '(clipping, location) :=
        match e_scrolling e with
        | Some s => (Some layout, (fsub (fst (lo_location layout)) (sc_x s), fsub (snd (lo_location layout)) (sc_y s)))
        | None => (clipping, lo_location layout)
        end in
      let t := put_element node e t in
      bindM (ret (children t node)) (fun cs =>
      foldM (fun t c => final_positions_counted depth c location (e_opacity e) clipping t) t cs))))
  end.

Section view.
  Context (X : Externals).
  Context (fuel : nat).

  (** src/view.rs:110-145 *)
  Definition update_counted (v : View) (input : Input) (value : json) : counted (View * Output) :=
    bindM (tick (fun m => m <| m_updates ::= S |>)) (fun _ =>
    bindM (ret (view_bind X v value)) (fun '(m, rs) =>
    bindM (ret (update_trees (x_read_inline_css X) (v_tree v, v_ids v) rs)) (fun '(t, ids) =>
    bindM (ret (set_viewport (v_root v) (in_viewport input) t)) (fun t =>
    let sizes := mkSizes f16 f16 rgba0 (fst (in_viewport input)) (snd (in_viewport input)) in
    bindM (apply_styles_counted fuel (x_debug X) (v_css v) (x_order X) (in_time input) (tree_depth t) (v_body v) sizes ∅ t) (fun t =>
    let t := run_layout X t in
    bindM (final_positions_counted (tree_depth t) (v_body v) vzero f1 None t) (fun t =>
    bindM (ret (handle_output (x_fmt_f64 X) (tree_depth t) m (v_transformers v) (v_body v) (in_events input) (v_session v, t))) (fun '((s, t), o) =>
    ret (Ok (v <| v_model := m |> <| v_session := s |> <| v_tree := t |> <| v_ids := ids |>, o))))))))).

  (** a run *)
  Fixpoint updates_counted (v : View) (inputs : list (Input * json)) : counted (View * list Output) :=
    match inputs with
    | [] => ret (Ok (v, []))
    | (i, x) :: rest =>
        bindM (update_counted v i x) (fun '(v, o) =>
        bindM (updates_counted v rest) (fun '(v, os) =>
        ret (Ok (v, o :: os))))
    end.
End view.
