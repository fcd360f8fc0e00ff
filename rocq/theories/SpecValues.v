(** * What values show on a page (C56-C59). *)
From Coq Require Import ZArith Reals.
From Flocq Require Import IEEE754.BinarySingleNaN Core.
From stdpp Require Import gmap.
From Verif Require Import Str F32 Res Json PropKey Html Css Element Tree Matching Cascade Apply ViewModel Render Update Styling Events View
  SpecSelect SpecStyle SpecShow SpecPage.

(** [t] is the page that an update of [v] shows, where [v] is a document that has
    been loaded and updated any number of times; no property that has room for one
    value is given several (C32) *)
Definition page (X : Externals) (doc : Html) (css : Css) (input : Input) (v : View) (t : Tree) : Prop :=
  exists fuel v0 hist os value m ids,
    from_document X fuel doc css = Ok v0 /\ updates X fuel v0 hist = Ok (v, os) /\ prepare X fuel v input value = Ok (m, t, ids) /\
    tidy_css css /\ tidy_inline t /\ forall s, x_order X s ≡ₚ map_to_list s.
(** [n] is an element of it on which no animation or transition runs, with
    selectors that bumaga reads as CSS does (C28-C30) *)
Definition plain_element (css : Css) (v : View) (t : Tree) (n : NodeId) : Prop :=
  styled_element t (v_body v) n /\ at_rest (v_tree v) n /\ plain_selectors css t n /\
  forall a s, at_or_above t (v_body v) a -> at_or_above t a n -> s ∈ css_styles css -> rule_settled (v_bindings v) t a s.
(** the declarations that apply to [n] and the custom properties it inherits *)
Definition in_effect (css : Css) (v : View) (t : Tree) (n : NodeId) (vars : Variables) (ds : list Declaration) : Prop :=
  declarations css t (v_root v) n ds /\ scope css t (v_root v) (v_body v) n vars.

(** properties that take a length, and the length that they show *)
Definition takes_length (k : PropertyKey) : bool :=
  match k with
  | KFontSize | KWidth | KHeight | KMinWidth | KMinHeight | KMaxWidth | KMaxHeight | KFlexBasis
  | KMarginTop | KMarginRight | KMarginBottom | KMarginLeft | KTop | KRight | KBottom | KLeft
  | KPaddingTop | KPaddingRight | KPaddingBottom | KPaddingLeft | KColumnGap | KRowGap
  | KBorderTopWidth | KBorderRightWidth | KBorderBottomWidth | KBorderLeftWidth
  | KBorderTopLeftRadius | KBorderTopRightRadius | KBorderBottomRightRadius | KBorderBottomLeftRadius => true
  | _ => false
  end.
Definition shown_length (x : shown_value) : option f32 :=
  match x with
  | VDimension (DimLength f) | VLP (LPLength f) | VLPA (LPALength f) | VRadius (LNumber f) | VNumber f | VBorder f (LPLength _) => Some f
  | _ => None
  end.
(** a float that is [x] up to the rounding of two operations *)
Definition close (f : f32) (x : R) : Prop :=
  is_finite f = true /\ (Rabs (B2R f - x) <= bpow radix2 (-22) * Rabs x + bpow radix2 (-149))%R.
(** finite and below 2^60 in size *)
Definition modest (f : f32) : Prop := is_finite f = true /\ (Rabs (B2R f) <= IZR (2 ^ 60))%R.
(** the font size of an element *)
Definition font_size (t : Tree) (n : NodeId) (f : f32) : Prop := exists e, get_ctx t n = Some e /\ f_size (e_font e) = f.
Definition color_of (t : Tree) (n : NodeId) (c : Rgba) : Prop := exists e, get_ctx t n = Some e /\ e_color e = c.

(** properties that an element takes from its parent, as CSS has them; bumaga
    supports all of these properties *)
Definition css_inherits (k : PropertyKey) : bool :=
  match k with
  | KColor | KFontSize | KFontWeight | KFontFamily | KFontStyle | KTextAlign | KPointerEvents | KVisibility | KCursor => true
  | _ => false
  end.
Definition inherits (k : PropertyKey) : bool :=
  match k with KTextAlign | KVisibility | KCursor => false | _ => css_inherits k end.
(** what the others start with *)
Definition starts_with (k : PropertyKey) : option shown_value :=
  match k with
  | KOpacity => Some (VNumber f1)
  | KBackgroundColor => Some (VColor (0, 0, 0, 0)%Z)
  | KBackgroundImage => Some (VImage None)
  | KBackgroundPositionX | KBackgroundPositionY => Some (VNumber f0)
  | _ => None
  end.
