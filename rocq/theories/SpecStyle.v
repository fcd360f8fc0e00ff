(** * What styling should do (C31-C34). *)
From stdpp Require Import gmap.
From RecordUpdate Require Import RecordUpdate.
From Verif Require Import Str F32 Res PropKey Css Element Tree Matching Cascade Apply.

(** ** Which part of an element or of its layout style a property belongs to *)
Inductive place : Set :=
| PlNone
| PlOpacity | PlBackgrounds | PlColor | PlFont | PlPointerEvents | PlCursor | PlVisible | PlBorders | PlTransitions | PlAnimators
| PlBoxSizing | PlMargin | PlPadding | PlDisplay | PlOverflowX | PlOverflowY | PlPosition | PlInset | PlSize | PlMinSize | PlMaxSize
| PlAlignContent | PlAlignItems | PlAlignSelf | PlJustifyContent | PlJustifyItems | PlJustifySelf
| PlFlexDirection | PlFlexWrap | PlFlexBasis | PlFlexGrow | PlFlexShrink | PlGap.
#[global] Instance place_eq_dec : EqDecision place. Proof. solve_decision. Defined.

Definition place_of (key : PropertyKey) : place :=
  match key with
  | KOpacity => PlOpacity
  | KBackgroundColor | KBackgroundImage | KBackgroundPositionX | KBackgroundPositionY => PlBackgrounds
  | KColor => PlColor
  | KFontSize | KFontWeight | KFontFamily | KFontStyle | KTextAlign => PlFont
  | KPointerEvents => PlPointerEvents
  | KCursor => PlCursor
  | KVisibility => PlVisible
  | KBorderTopWidth | KBorderRightWidth | KBorderBottomWidth | KBorderLeftWidth
  | KBorderTopColor | KBorderRightColor | KBorderBottomColor | KBorderLeftColor
  | KBorderTopLeftRadius | KBorderTopRightRadius | KBorderBottomRightRadius | KBorderBottomLeftRadius => PlBorders
  | KTransitionProperty | KTransitionDuration | KTransitionDelay | KTransitionTimingFunction => PlTransitions
  | KAnimationName | KAnimationDelay | KAnimationDirection | KAnimationDuration | KAnimationFillMode
  | KAnimationIterationCount | KAnimationPlayState | KAnimationTimingFunction => PlAnimators
  | KBoxSizing => PlBoxSizing
  | KMarginTop | KMarginRight | KMarginBottom | KMarginLeft => PlMargin
  | KPaddingTop | KPaddingRight | KPaddingBottom | KPaddingLeft => PlPadding
  | KDisplay => PlDisplay
  | KOverflowX => PlOverflowX
  | KOverflowY => PlOverflowY
  | KPosition => PlPosition
  | KLeft | KRight | KTop | KBottom => PlInset
  | KWidth | KHeight => PlSize
  | KMinWidth | KMinHeight => PlMinSize
  | KMaxWidth | KMaxHeight => PlMaxSize
  | KAlignContent => PlAlignContent
  | KAlignItems => PlAlignItems
  | KAlignSelf => PlAlignSelf
  | KJustifyContent => PlJustifyContent
  | KJustifyItems => PlJustifyItems
  | KJustifySelf => PlJustifySelf
  | KFlexDirection => PlFlexDirection
  | KFlexWrap => PlFlexWrap
  | KFlexBasis => PlFlexBasis
  | KFlexGrow => PlFlexGrow
  | KFlexShrink => PlFlexShrink
  | KColumnGap | KRowGap => PlGap
  | _ => PlNone
  end.
(** properties that take a list, one value for each background, transition or
    animation, and properties that have no effect *)
Definition listed (key : PropertyKey) : bool :=
  match place_of key with PlBackgrounds | PlTransitions | PlAnimators | PlNone => true | _ => false end.

(** ** Values *)
(** [means vars d vs]: the text [d] of a value stands for the values [vs] when
    the custom properties are [vars]; [mean_all] for a sequence *)
Inductive means (vars : Variables) : Definition_ -> list ComputedValue -> Prop :=
| means_explicit v : means vars (DExplicit v) [v]
| means_var name sh vs : vars !! name = Some sh -> mean_all vars sh vs -> means vars (DVar name) vs
| means_missing name : vars !! name = None -> means vars (DVar name) [CError]
| means_function name args vs : mean_all vars args vs -> means vars (DFunction name args) [compute_function name vs]
with mean_all (vars : Variables) : Shorthand -> list ComputedValue -> Prop :=
| mean_nil : mean_all vars [] []
| mean_cons d sh vs ws : means vars d vs -> mean_all vars sh ws -> mean_all vars (d :: sh) (vs ++ ws).

(** custom properties after some declarations: the last one of a name counts *)
Definition variables_after (vars : Variables) (ds : list Declaration) : Variables :=
  foldl (fun vars d => match d with DeclVariable v => <[v_key v := v_shorthand v]> vars | DeclProperty _ => vars end) vars ds.

(** the value that a list of assignments gives to [k]: the last one *)
Fixpoint last_given (l : list (PropertyKey * ComputedValue)) (k : PropertyKey) : option ComputedValue :=
  match l with
  | [] => None
  | (k', v) :: l => match last_given l k with Some w => Some w | None => if decide (k' = k) then Some v else None end
  end.
(** [gives vars d k i v]: the declaration [d] gives the value [v] to the entry
    [i] of the property [k] (the entry of a list property; 0 for the others) *)
Definition gives (vars : Variables) (d : Declaration) (k : PropertyKey) (i : nat) (v : ComputedValue) : Prop :=
  exists p sh vs, d = DeclProperty p /\ p_values p !! i = Some sh /\ mean_all vars sh vs /\ last_given (expand (p_key p) vs) k = Some v.
(** [wins vars ds k i v]: [v] is the value of the last of the declarations [ds]
    that gives one to the entry [i] of [k] *)
Definition wins (vars : Variables) (ds : list Declaration) (k : PropertyKey) (i : nat) (v : ComputedValue) : Prop :=
  exists pre d post, ds = pre ++ d :: post /\ gives (variables_after vars pre) d k i v /\
    forall pre' d' post' v', post = pre' ++ d' :: post' -> ~ gives (variables_after vars (pre ++ d :: pre')) d' k i v'.
Definition ungiven (vars : Variables) (ds : list Declaration) (k : PropertyKey) (i : nat) : Prop :=
  forall pre d post v, ds = pre ++ d :: post -> ~ gives (variables_after vars pre) d k i v.

(** ** Tidy style sheets: several comma-separated values only where the property
    is a list *)
Definition list_property (key : PropertyKey) : bool :=
  match key with
  | KBorder | KBorderTop | KBorderRight | KBorderBottom | KBorderLeft | KBorderWidth | KBorderColor | KBorderRadius
  | KOverflow | KInset | KGap | KPadding | KMargin => false
  | _ => listed key
  end.
Definition tidy_declaration (d : Declaration) : Prop :=
  match d with
  | DeclVariable _ => True
  | DeclProperty p => list_property (p_key p) = true \/ List.length (p_values p) <= 1
  end.
Definition tidy_css (css : Css) : Prop :=
  (forall s, s ∈ css_styles css -> Forall tidy_declaration (s_declaration s)) /\
  (forall name an kf, css_animations css !! name = Some an -> kf ∈ an_keyframes an -> Forall tidy_declaration (kf_declaration kf)).
(** no two entries of a property that has room for one *)
Definition single (s : ComputedStyle) : Prop :=
  forall k i v, s !! (k, i) = Some v -> listed k = true \/ i = 0.
