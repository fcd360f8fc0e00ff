(** * Contents and styling (C87, C88): vocabulary. *)
From stdpp Require Import gmap.
From Verif Require Import Str F32 Res PropKey Html Css Element Tree Matching Render SpecLive SpecSelect SpecStyle SpecShow Json ViewModel Update Styling Events View SpecPage SpecMove SpecIdle.

(** the two programs understand templates alike: numbers are written and texts
    translated in the same way, inline styles are read in the same way, and the same
    transformers are there *)
Definition same_language (X X' : Externals) : Prop :=
  x_fmt_f64 X' = x_fmt_f64 X /\ x_translate X' = x_translate X /\ x_read_inline_css X' = x_read_inline_css X /\ x_transformers X' = x_transformers X.
(** what an element is, not how it looks: its tag, text, attributes, listeners and
    inline style *)
Definition says (e : Element) := (e_tag e, e_text e, e_attrs e, e_listeners e, e_style e).
(** the same elements in the same places *)
Definition same_contents (t t' : Tree) : Prop :=
  forall n, (fun x => (n_parent x, n_children x, says <$> n_ctx x)) <$> t_nodes t' !! n = (fun x => (n_parent x, n_children x, says <$> n_ctx x)) <$> t_nodes t !! n.

(** The rules of the two sheets that apply to [n] say the same. *)
Definition like_ruled (css css' : Css) (t t' : Tree) (root n : NodeId) : Prop :=
  exists ds, declared t root n (css_styles css) ds /\ declared t' root n (css_styles css') ds.

(** Two views of one document with different style sheets, updated side by side:
    the same data and viewports, anything else may differ.  [P] are some elements,
    with each the elements above it; whenever one of them is on the page, it is one
    that C31 speaks of, nothing moves on it, and the rules of both sheets that apply
    to it say the same. *)
Inductive side_by_side (X X' : Externals) (fuel fuel' : nat) (doc : Html) (css css' : Css) (P : NodeId -> Prop) : View -> View -> Prop :=
| side_loaded v v' : from_document X fuel doc css = Ok v -> from_document X' fuel' doc css' = Ok v' -> side_by_side X X' fuel fuel' doc css css' P v v'
| side_more v v' i i' x w w' o o' m m' t t' ids ids' : side_by_side X X' fuel fuel' doc css css' P v v' -> in_viewport i' = in_viewport i ->
    prepare X fuel v i x = Ok (m, t, ids) -> update X fuel v i x = Ok (w, o) -> prepare X' fuel' v' i' x = Ok (m', t', ids') -> update X' fuel' v' i' x = Ok (w', o') ->
    (forall a, P a -> a <> v_root v /\ (a <> v_body v -> forall p, parent_of t a = Some p -> P p) /\
       (at_or_above t (v_body v) a -> fair css v t a /\ fair css' v' t' a /\ at_rest (v_tree v) a /\ at_rest (v_tree v') a /\ like_ruled css css' t t' (v_root v) a)) ->
    side_by_side X X' fuel fuel' doc css css' P w w'.

(** a rule whose selectors do not ask for the state of an element (:hover, ...) *)
Definition stateless (r : Style) : Prop := forall sel name, sel ∈ s_selectors r -> ~ SPseudoClass name ∈ sel.
(** [side_by_side] where the second sheet has further rules, which apply to none of
    the elements [P] in any update in which they are on the page *)
Inductive with_further_rules (X X' : Externals) (fuel fuel' : nat) (doc : Html) (css css' : Css) (P : NodeId -> Prop) : View -> View -> Prop :=
| further_loaded v v' : from_document X fuel doc css = Ok v -> from_document X' fuel' doc css' = Ok v' -> with_further_rules X X' fuel fuel' doc css css' P v v'
| further_step v v' i i' x w w' o o' m m' t t' ids ids' : with_further_rules X X' fuel fuel' doc css css' P v v' -> in_viewport i' = in_viewport i ->
    prepare X fuel v i x = Ok (m, t, ids) -> update X fuel v i x = Ok (w, o) -> prepare X' fuel' v' i' x = Ok (m', t', ids') -> update X' fuel' v' i' x = Ok (w', o') ->
    (forall a, P a -> a <> v_root v /\ (a <> v_body v -> forall p, parent_of t a = Some p -> P p) /\
       (at_or_above t (v_body v) a -> fair css v t a /\ fair css' v' t' a /\ at_rest (v_tree v) a /\ at_rest (v_tree v') a /\
          extended (fun r => ~ css_applies t' (v_root v) r a) (css_styles css) (css_styles css'))) ->
    with_further_rules X X' fuel fuel' doc css css' P w w'.
