(** * What CSS says about selectors (C28-C30).
    After "Selectors Level 3": attribute selectors (6.3), class and id (6.4,
    6.5), combinators (8). *)
From stdpp Require Import gmap.
From RecordUpdate Require Import RecordUpdate.
From Verif Require Import Str Res Css Element Tree Matching SpecLive ViewModel SpecTree.

(** ** White space and words *)
(** space, tab, line feed, form feed, carriage return *)
Definition css_space (c : ascii) : Prop := c ∈ [" "; "009"; "010"; "012"; "013"]%char.
Definition chars (s : string) : list ascii := list_ascii_of_string s.
(** [w] is one of the words of [s], which are separated by white space *)
Definition word_of (w s : string) : Prop :=
  w <> "" /\ (forall c, c ∈ chars w -> ~ css_space c) /\
  exists a b, s = a +:+ w +:+ b /\
    (a = "" \/ exists a' c, css_space c /\ a = a' +:+ String c "") /\
    (b = "" \/ exists c b', css_space c /\ b = String c b').
(** the only white space in [s] is the space character *)
Definition plain_spaces (s : string) : Prop := forall c, c ∈ chars s -> css_space c -> c = " "%char.
Definition one_word (s : string) : Prop := s <> "" /\ forall c, c ∈ chars s -> ~ css_space c.

(** ** Simple selectors *)
Definition css_attribute (op : Matcher) (value attr : string) : Prop :=
  match op with
  | MExist => True
  | MEqual => attr = value
  | MInclude => word_of value attr
  | MDashMatch => attr = value \/ exists r, attr = value +:+ "-" +:+ r
  | MPrefix => value <> "" /\ exists r, attr = value +:+ r
  | MSubstring => value <> "" /\ exists a b, attr = a +:+ value +:+ b
  | MSuffix => value <> "" /\ exists a, attr = a +:+ value
  end.
(** the pseudo classes bumaga knows *)
Definition css_pseudo (name : string) (e : Element) : Prop :=
  (name = "hover" /\ st_hover (e_state e) = true) \/ (name = "active" /\ st_active (e_state e) = true) \/
  (name = "focus" /\ st_focus (e_state e) = true) \/ (name = "checked" /\ st_checked (e_state e) = true).
(** [css_simple t root n s]: the selector [s] describes the element [n] *)
Definition css_simple (t : Tree) (root n : NodeId) (s : Simple) : Prop :=
  exists e, get_ctx t n = Some e /\
  match s with
  | SAll => True
  | SType name => e_tag e = name
  | SId id => e_attrs e !! "id" = Some id
  | SClass c => exists v, e_attrs e !! "class" = Some v /\ word_of c v
  | SAttribute name op value => exists v, e_attrs e !! name = Some v /\ css_attribute op value v
  | SRoot => n = root
  | SPseudoClass name => css_pseudo name e
  | SPseudoElement _ | SCombinator _ => False
  end.

(** the selectors on which bumaga agrees with CSS, for the element [n] *)
Definition simple_agrees (t : Tree) (n : NodeId) (s : Simple) : Prop :=
  match s with
  | SAll | SType _ | SId _ | SPseudoClass _ | SPseudoElement _ => True
  | SClass c => one_word c /\ forall v, attr t n "class" = Some v -> plain_spaces v
  | SAttribute name op value =>
      match op with
      | MExist | MEqual => True
      | MInclude => one_word value /\ forall v, attr t n name = Some v -> plain_spaces v
      | MDashMatch => forall v, attr t n name = Some v -> v <> "-" +:+ value /\ ~ exists r, v = value +:+ "-" +:+ r
      | MPrefix | MSubstring | MSuffix => value <> ""
      end
  | SRoot | SCombinator _ => False
  end.

(** ** Complex selectors *)
(** how the element on the left of a combinator stands to the one on the right *)
Definition css_related (t : Tree) (combinator : ascii) (m n : NodeId) : Prop :=
  if Ascii.eqb combinator ">" then parent_of t n = Some m
  else if Ascii.eqb combinator "+" then
    exists p pre post, parent_of t n = Some p /\ attached t p = pre ++ m :: n :: post
  else if Ascii.eqb combinator "~" then
    exists p pre mid post, parent_of t n = Some p /\ attached t p = pre ++ m :: mid ++ n :: post
  else if Ascii.eqb combinator " " then tc (fun a b => parent_of t b = Some a) m n
  else False.
Definition is_simple (s : Simple) : Prop := as_combinator s = None.
(** [selects P R sel n]: [sel] is a chain of compounds joined by combinators
    and there are elements that fit it, the last of which is [n]; [P n s]: the
    simple selector [s] describes [n]; [R c m n]: [m] and [n] are related by [c] *)
Inductive selects (P : NodeId -> Simple -> Prop) (R : ascii -> NodeId -> NodeId -> Prop) : Complex -> NodeId -> Prop :=
| selects_compound compound n :
    Forall is_simple compound -> Forall (P n) compound -> selects P R compound n
| selects_combined left c compound m n :
    selects P R left m -> R c m n -> Forall is_simple compound -> Forall (P n) compound ->
    selects P R (left ++ SCombinator c :: compound) n.
Definition css_selects (t : Tree) (root : NodeId) : Complex -> NodeId -> Prop :=
  selects (css_simple t root) (css_related t).
(** a rule applies to an element when one of its selectors does *)
Definition css_applies (t : Tree) (root : NodeId) (s : Style) (n : NodeId) : Prop :=
  exists sel, sel ∈ s_selectors s /\ css_selects t root sel n.
(** only the child combinator *)
Definition child_only (sel : Complex) : Prop := forall c, SCombinator c ∈ sel -> c = ">"%char.

(** no '+' combinator *)
Definition no_plus (sel : Complex) : Prop := forall c, SCombinator c ∈ sel -> c <> "+"%char.

(** [m] is [n] or above it *)
Definition at_or_above (t : Tree) : NodeId -> NodeId -> Prop := rtc (fun a b => parent_of t b = Some a).
Definition above (t : Tree) : NodeId -> NodeId -> Prop := tc (fun a b => parent_of t b = Some a).

(** ** Rules decided at load time (C30) *)
(** the attributes a selector looks at *)
Definition looks_at (s : Simple) (key : string) : Prop :=
  match s with SId _ => key = "id" | SClass _ => key = "class" | SAttribute name _ _ => key = name | _ => False end.
Definition rule_looks_at (s : Style) (key : string) : Prop :=
  exists sel c, sel ∈ s_selectors s /\ c ∈ sel /\ looks_at c key.
Definition has_combinator (s : Style) : Prop := exists sel c, sel ∈ s_selectors s /\ SCombinator c ∈ sel.
(** a binding changes the attribute *)
Definition bound_attribute (bs : Bindings) (n : NodeId) (key : string) : Prop :=
  exists p b, In (p, b) (flat bs) /\ (bd_params b = BTag n key \/ exists i, bd_params b = BAttribute n key i).
Definition bound_flag (bs : Bindings) (n : NodeId) (key : string) : Prop :=
  exists p b, In (p, b) (flat bs) /\ bd_params b = BTag n key.
(** what deciding at load time relies on, for the rule [s] and the element [n]:
    no adjacent-sibling combinator, no on/off attribute named class or id on the
    element if the rule looks at that, and nothing bound above the element that
    the rule looks at if the rule looks above the element at all *)
Definition rule_settled (bs : Bindings) (t : Tree) (n : NodeId) (s : Style) : Prop :=
  (forall sel, sel ∈ s_selectors s -> no_plus sel) /\
  (forall key, key = "class" \/ key = "id" -> rule_looks_at s key -> ~ bound_flag bs n key) /\
  (has_combinator s -> forall m key, above t m n -> rule_looks_at s key -> ~ bound_attribute bs m key).

(** the page with every rule of the sheet to be matched afresh on every element *)
Definition afresh_element (sheet : list Style) (e : Element) : Element := set e_styles (fun _ => map EDynamic sheet) e.
Definition afresh (sheet : list Style) (t : Tree) : Tree :=
  set t_nodes (fmap (set n_ctx (fmap (afresh_element sheet)))) t.
Definition map_res {A B} (f : A -> B) (r : res A) : res B :=
  match r with Ok a => Ok (f a) | Err e => Err e | Panic => Panic | Hang => Hang end.

(** how bumaga (release build) relates the two sides of a combinator *)
Definition bumaga_related (t : Tree) (combinator : ascii) (m n : NodeId) : Prop :=
  if Ascii.eqb combinator ">" then parent_of t n = Some m
  else if Ascii.eqb combinator "+" then exists p pre x post, attached t p = pre ++ m :: x :: n :: post
  else False.
