(** * The cascade on a page (C31, C33, C34). *)
From stdpp Require Import gmap.
From RecordUpdate Require Import RecordUpdate.
From Verif Require Import Str F32 Res PropKey Css Element Tree Matching Cascade Apply Render SpecLive SpecSelect SpecStyle SpecShow Json Html ViewModel Update Styling Events View.

(** the declarations of the rules of a sheet that apply to [n], in the order of
    the sheet *)
Inductive declared (t : Tree) (root n : NodeId) : list Style -> list Declaration -> Prop :=
| declared_nil : declared t root n [] []
| declared_yes s l ds : css_applies t root s n -> declared t root n l ds -> declared t root n (s :: l) (s_declaration s ++ ds)
| declared_no s l ds : ~ css_applies t root s n -> declared t root n l ds -> declared t root n (s :: l) ds.
(** ...followed by its inline style *)
Definition declarations (css : Css) (t : Tree) (root n : NodeId) (ds : list Declaration) : Prop :=
  exists rules e, declared t root n (css_styles css) rules /\ get_ctx t n = Some e /\ ds = rules ++ e_style e.

(** [scope css t root body n vars]: the custom properties that [n] inherits: none
    for the body; for the others what its parent inherits and declares *)
Inductive scope (css : Css) (t : Tree) (root body : NodeId) : NodeId -> Variables -> Prop :=
| scope_body : scope css t root body body ∅
| scope_child n p vars ds : n <> body -> parent_of t n = Some p -> scope css t root body p vars -> declarations css t root p ds ->
    scope css t root body n (variables_after vars ds).

(** what relative values of [n] are relative to: 16 pixels for the root font size,
    and the font size and colour of the parent, 16 pixels and transparent for the
    body *)
Definition sizes_at (viewport : vec2) (t : Tree) (body n : NodeId) : Sizes :=
  let sizes := mkSizes f16 f16 rgba0 (fst viewport) (snd viewport) in
  if decide (n = body) then sizes
  else match parent_of t n with
       | Some p => match get_ctx t p with
                   | Some e => mkSizes f16 (f_size (e_font e)) (e_color e) (fst viewport) (snd viewport)
                   | None => sizes
                   end
       | None => sizes
       end.

(** [n] is an element of the page below [body] that has a style of its own: it is
    not a text, and nothing above it is a text, an image or an element without
    content *)
Definition contentless (t : Tree) (m : NodeId) : Prop :=
  exists e, get_ctx t m = Some e /\ (is_Some (e_text e) \/ String.eqb (e_tag e) "img" || is_void (e_tag e) = true).
Definition styled_element (t : Tree) (body n : NodeId) : Prop :=
  at_or_above t body n /\ (exists e, get_ctx t n = Some e /\ e_text e = None) /\ forall m, at_or_above t body m -> above t m n -> ~ contentless t m.

(** what a property shows that nothing is declared for: the value of the parent,
    or its initial value; [None]: the value it had before (C34) *)
Definition start_value (k : PropertyKey) (parent : TStyle * Element) : option shown_value :=
  match k with
  | KColor | KFontSize | KFontWeight | KFontFamily | KFontStyle | KPointerEvents => look k 0 parent
  | KTextAlign => Some (VTextAlign TAStart)
  | KOpacity => Some (VNumber f1)
  | KBackgroundColor => Some (VColor (0, 0, 0, 0)%Z)
  | KBackgroundImage => Some (VImage None)
  | KBackgroundPositionX | KBackgroundPositionY => Some (VNumber f0)
  | KBorderTopColor | KBorderRightColor | KBorderBottomColor | KBorderLeftColor => Some (VColor (0, 0, 0, 0)%Z)
  | KBorderTopLeftRadius | KBorderTopRightRadius | KBorderBottomRightRadius | KBorderBottomLeftRadius => Some (VRadius (LNumber f0))
  | _ => None
  end.

(** ...and what it shows then, from what it showed before; the width of a border
    has two parts, the one for the layout is the one that is left *)
Definition rest_value (k : PropertyKey) (parent : TStyle * Element) (before : option shown_value) : option shown_value :=
  match start_value k parent with
  | Some x => Some x
  | None =>
      match k, before with
      | (KBorderTopWidth | KBorderRightWidth | KBorderBottomWidth | KBorderLeftWidth), Some (VBorder _ l) => Some (VBorder f0 l)
      | _, _ => before
      end
  end.

(** every selector of the sheet is one that bumaga reads the way CSS does *)
Definition plain_selectors (css : Css) (t : Tree) (n : NodeId) : Prop :=
  forall s sel, s ∈ css_styles css -> sel ∈ s_selectors s ->
    child_only sel /\ forall m c, at_or_above t m n -> c ∈ sel -> as_combinator c = None -> simple_agrees t m c.

(** what the node [n] of the tree shows for entry [i] of a property *)
Definition shows_at (t : Tree) (n : NodeId) (k : PropertyKey) (i : nat) : option shown_value :=
  x ← t_nodes t !! n; e ← n_ctx x; look k i (n_style x, e).
(** two pages show the same *)
Definition same_looks (t t' : Tree) : Prop := forall n k i, shows_at t' n k i = shows_at t n k i.
(** no animation and no transition runs on [n] *)
Definition at_rest (t : Tree) (n : NodeId) : Prop :=
  forall e, get_ctx t n = Some e -> e_animators e = [] /\ e_transitions e = [].

(** The page [t] shows what the cascade says: for an element [n] and the entry
    [i] of a property (0 unless it takes a list), the value of the last
    declaration, or what the property starts with; [before] is the page as it was *)
Definition shows_cascade (css : Css) (viewport : vec2) (root body : NodeId) (before t : Tree) (n : NodeId) : Prop :=
  exists ds vars p parent, declarations css t root n ds /\ scope css t root body n vars /\ parent_of t n = Some p /\ t_nodes t !! p = Some parent /\
  exists pe, n_ctx parent = Some pe /\ forall k i, listed k = true \/ i = 0 ->
    let rest := rest_value k (n_style parent, pe) (shows_at before n k i) in
    (forall v, wins vars ds k i v ->
       shows_at t n k i = match meaning (sizes_at viewport t body n) k v with Some x => Some x | None => rest end) /\
    (ungiven vars ds k i -> shows_at t n k i = rest) /\
    ((exists v, wins vars ds k i v) \/ ungiven vars ds k i).

(** ** Inline styles *)
Definition inline (t : Tree) (n : NodeId) : option (list Declaration) := e_style <$> get_ctx t n.
(** every declaration in the inline styles of a page is of a kind *)
Definition inline_all (P : Declaration -> Prop) (t : Tree) : Prop := forall n ds, inline t n = Some ds -> Forall P ds.
Definition tidy_inline (t : Tree) : Prop := inline_all tidy_declaration t.
(** [on_the_way X v hist t]: [t] is the page after the data of one of the updates
    of the history have been bound *)
Inductive on_the_way (X : Externals) : View -> list (Input * json) -> Tree -> Prop :=
| way_here v i x after m rs t ids :
    view_bind X v x = Ok (m, rs) -> update_trees (x_read_inline_css X) (v_tree v, v_ids v) rs = Ok (t, ids) -> on_the_way X v ((i, x) :: after) t
| way_later fuel v i x v1 o after t : update X fuel v i x = Ok (v1, o) -> on_the_way X v1 after t -> on_the_way X v ((i, x) :: after) t.
(** the inline styles that the updates give are of a kind *)
Definition inline_along (P : Declaration -> Prop) (X : Externals) (v : View) (hist : list (Input * json)) : Prop :=
  forall t, on_the_way X v hist t -> inline_all P t.

(** the same program with another iteration order of hash maps *)
Definition with_order (X : Externals) (order : ComputedStyle -> list (Descriptor * ComputedValue)) : Externals :=
  mkExternals (x_fmt_f64 X) (x_translate X) (x_read_inline_css X) order (x_layout X) (x_transformers X) (x_debug X).

(** the inline style of [n] is what its attribute [style] says, if that can be read *)
Definition follows (ric : string -> option (list Declaration)) (n : NodeId) (t : Tree) : Prop :=
  forall s ds, attr t n "style" = Some s -> ric s = Some ds -> inline t n = Some ds.

(** ** Pages where nothing moves *)
Definition moving (k : PropertyKey) : bool :=
  match k with
  | KTransition | KAnimation => true
  | _ => match place_of k with PlTransitions | PlAnimators => true | _ => false end
  end.
Definition quiet_declaration (d : Declaration) : Prop :=
  match d with DeclVariable _ => True | DeclProperty p => moving (p_key p) = false end.
(** the rules of the sheet ask for no animation or transition *)
Definition quiet_css (css : Css) : Prop := forall s, s ∈ css_styles css -> Forall quiet_declaration (s_declaration s).

(** ** What is in force for an element, by the rules it carries *)
Inductive in_force (debug : bool) (t : Tree) (n : NodeId) : list ElementStyle -> list Declaration -> Prop :=
| force_nil : in_force debug t n [] []
| force_static s l ds : in_force debug t n l ds -> in_force debug t n (EStatic s :: l) (s_declaration s ++ ds)
| force_yes s l ds : match_style debug view_pseudo s n t = Ok true -> in_force debug t n l ds -> in_force debug t n (EDynamic s :: l) (s_declaration s ++ ds)
| force_no s l ds : match_style debug view_pseudo s n t = Ok false -> in_force debug t n l ds -> in_force debug t n (EDynamic s :: l) ds.

(** ** Custom properties (C33) *)
(** [defines ds name sh]: [sh] is the last definition of the custom property in [ds] *)
Definition defines (ds : list Declaration) (name : string) (sh : Shorthand) : Prop :=
  exists pre post, ds = pre ++ DeclVariable (mkVariable name sh) :: post /\ forall sh', DeclVariable (mkVariable name sh') ∉ post.
(** [m] is the nearest element above [n] that defines it *)
Definition nearest (css : Css) (t : Tree) (root body n : NodeId) (name : string) (sh : Shorthand) : Prop :=
  exists m ds, at_or_above t body m /\ above t m n /\ declarations css t root m ds /\ defines ds name sh /\
    forall m' ds' sh', above t m m' -> above t m' n -> declarations css t root m' ds' -> DeclVariable (mkVariable name sh') ∉ ds'.
(** the custom properties that a value refers to *)
Fixpoint refers (d : Definition_) : list string :=
  match d with
  | DVar name => [name]
  | DFunction _ args => flat_map refers args
  | DExplicit _ => []
  end.
(** no custom property refers to itself, even through others: they can be ranked *)
Definition acyclic (vars : Variables) : Prop :=
  exists rank : string -> nat, forall name sh ref, vars !! name = Some sh -> In ref (flat_map refers sh) -> rank ref < rank name.

(** ** Independence of what was shown before (C34) *)
(** the properties that start afresh in every update *)
Definition fresh_property (k : PropertyKey) : bool :=
  match k with
  | KColor | KFontSize | KFontWeight | KFontFamily | KFontStyle | KPointerEvents | KTextAlign | KOpacity
  | KBackgroundColor | KBackgroundImage | KBackgroundPositionX | KBackgroundPositionY
  | KBorderTopColor | KBorderRightColor | KBorderBottomColor | KBorderLeftColor
  | KBorderTopLeftRadius | KBorderTopRightRadius | KBorderBottomRightRadius | KBorderBottomLeftRadius => true
  | _ => false
  end.
(** the same declarations apply to [n] of [t] and to [n'] of [t'], and to their ancestors *)
Inductive same_declared (css : Css) (t t' : Tree) (root body : NodeId) : NodeId -> NodeId -> Prop :=
| same_body ds : declarations css t root body ds -> declarations css t' root body ds -> same_declared css t t' root body body body
| same_child n n' p p' ds : n <> body -> n' <> body -> parent_of t n = Some p -> parent_of t' n' = Some p' -> same_declared css t t' root body p p' ->
    declarations css t root n ds -> declarations css t' root n' ds -> same_declared css t t' root body n n'.

(** every value of every declaration that applies to [n] stands for values *)
Definition all_resolve (css : Css) (t : Tree) (root body n : NodeId) : Prop :=
  exists ds vars, declarations css t root n ds /\ scope css t root body n vars /\
    forall pre p post sh, ds = pre ++ DeclProperty p :: post -> sh ∈ p_values p -> exists vs, mean_all (variables_after vars pre) sh vs.
(** [name] is what the declarations before [pre] of [n] say, else what the nearest element above says *)
Definition visible (css : Css) (t : Tree) (root body n : NodeId) (pre : list Declaration) (name : string) (sh : Shorthand) : Prop :=
  defines pre name sh \/ (forall sh', DeclVariable (mkVariable name sh') ∉ pre) /\ nearest css t root body n name sh.
