(** * Selector matching: src/css/matching.rs and the matchers of src/view.rs. *)
From stdpp Require Import gmap.
From RecordUpdate Require Import RecordUpdate.
From Verif Require Import Str F32 Res PropKey Css Element Tree.

(** src/css/matching.rs:163-166 *)
Definition match_class (classes ident : string) : bool :=
  existsb (String.eqb ident) (split_on " " classes).

(** src/view.rs:522-541 *)
Definition view_pseudo (e : Element) (class : string) : bool :=
  if String.eqb class "hover" then st_hover (e_state e)
  else if String.eqb class "active" then st_active (e_state e)
  else if String.eqb class "checked" then st_checked (e_state e)
  else if String.eqb class "focus" then st_focus (e_state e)
  else false.

(** src/view.rs:316-321: the load-time matcher, true for every pseudo class. *)
Definition any_pseudo (e : Element) (class : string) : bool := true.

Definition PseudoMatcher := Element -> string -> bool.

(** src/css/matching.rs:95-113 *)
Definition match_attr (op : Matcher) (attr value : string) : bool :=
  match op with
  | MExist => true
  | MEqual => String.eqb attr value
  | MInclude => existsb (String.eqb value) (split_on " " attr)
  | MDashMatch => String.eqb attr value || String.eqb attr ("-" +:+ value)
  | MPrefix => starts_with value attr
  | MSubstring => contains value attr
  | MSuffix => ends_with value attr
  end.

(** src/css/matching.rs:75-120 *)
Definition match_simple_selector (m : PseudoMatcher) (component : Simple) (e : Element) : bool :=
  match component with
  | SAll => true
  | SType name => String.eqb (e_tag e) name
  | SId ident => match e_attrs e !! "id" with Some id => String.eqb id ident | None => false end
  | SClass ident =>
      match e_attrs e !! "class" with Some classes => match_class classes ident | None => false end
  | SAttribute name op value =>
      match e_attrs e !! name with Some attr => match_attr op attr value | None => false end
  | SRoot => String.eqb (e_tag e) ":root"
  | SPseudoClass name => m e name
  | SPseudoElement _ | SCombinator _ => false
  end.

(** src/css/matching.rs:47-73.  ['+']: [skip(1).position(..)] counts from the
    second child, then [child - 1] is taken in [usize]: position 0 underflows,
    which panics in a debug build and, in a release build, wraps to an index
    that [get] does not find.  The model is the release build; [debug] turns
    the underflow into a panic. *)
Definition find_next_target (debug : bool) (combinator : ascii) (target : NodeId) (t : Tree)
  : res (option NodeId) :=
  if Ascii.eqb combinator ">" then parent t target
  else if Ascii.eqb combinator "+" then
    do! p <- parent t target;
    match p with
    | None => Ok None
    | Some p =>
        do! cs <- children t p;
        match position target (tail cs) with
        | None => Ok None
        | Some O => if debug then Panic else Ok None
        | Some (S k) => Ok (cs !! k)
        end
    end
  else Ok None.

(** src/css/matching.rs:20-45: right to left; [element] is re-read (unwrap)
    after each combinator. *)
Fixpoint match_components (debug : bool) (m : PseudoMatcher) (components : list Simple)
    (target : NodeId) (e : Element) (t : Tree) : res bool :=
  match components with
  | [] => Ok true
  | c :: cs =>
      match as_combinator c with
      | None => if match_simple_selector m c e then match_components debug m cs target e t else Ok false
      | Some comb =>
          do! next <- find_next_target debug comb target t;
          match next with
          | None => Ok false
          | Some n => do! e <- unwrap (get_ctx t n); match_components debug m cs n e t
          end
      end
  end.
Definition match_complex_selector (debug : bool) (m : PseudoMatcher) (selector : Complex)
    (node : NodeId) (t : Tree) : res bool :=
  do! e <- unwrap (get_ctx t node);
  match_components debug m (rev selector) node e t.

(** src/css/matching.rs:8-18: [any] stops at the first match. *)
Fixpoint match_any (debug : bool) (m : PseudoMatcher) (selectors : list Complex) (node : NodeId) (t : Tree)
  : res bool :=
  match selectors with
  | [] => Ok false
  | s :: ss =>
      do! b <- match_complex_selector debug m s node t;
      if b : bool then Ok true else match_any debug m ss node t
  end.
Definition match_style (debug : bool) (m : PseudoMatcher) (style : Style) (node : NodeId) (t : Tree) : res bool :=
  match_any debug m (s_selectors style) node t.

(** src/css/matching.rs:122-160 *)
Definition any_simple (f : Simple -> bool) (s : Style) : bool :=
  existsb (existsb f) (s_selectors s).
Definition has_id_selector : Style -> bool :=
  any_simple (fun s => match s with SId _ => true | _ => false end).
Definition has_class_selector : Style -> bool :=
  any_simple (fun s => match s with SClass _ => true | _ => false end).
Definition has_attrs_selector (attrs : gset string) (s : Style) : bool :=
  any_simple (fun s => match s with SAttribute n _ _ => bool_decide (n ∈ attrs) | _ => false end) s.
Definition has_pseudo_class_selector : Style -> bool :=
  any_simple (fun s => match s with SPseudoClass _ => true | _ => false end).

(** src/view.rs:327-350: classification of one rule for one element at load time *)
Definition is_static (h : Hints) (s : Style) : bool :=
  negb (has_dynamic_properties h)
  || (negb (has_attrs_selector (dynamic_attrs h) s)
      && (negb (has_dynamic_classes h) || negb (has_class_selector s))
      && (negb (has_dynamic_id h) || negb (has_id_selector s))).
Definition classify (h : Hints) (matches_ignoring_pseudo : bool) (s : Style) : option ElementStyle :=
  if matches_ignoring_pseudo then
    if is_static h s && negb (has_pseudo_class_selector s) then Some (EStatic s) else Some (EDynamic s)
  else if is_static h s then None
  else Some (EDynamic s).

(** src/view.rs:315-355: for one element the loop pushes onto [element.styles],
    then recurses into the attached children (all of them at load time).  The
    recursion is on fuel; the tree height suffices. *)
Definition push_styles (debug : bool) (styles : list Style) (node : NodeId) (t : Tree) : res Tree :=
  foldR (fun t s =>
    do! b <- match_style debug any_pseudo s node t;
    do! e <- get_element t node;
    match classify (e_hints e) b s with
    | Some es => Ok (put_element node (RecordSet.set e_styles (fun l => l ++ [es]) e) t)
    | None => Ok t
    end) t styles.
Fixpoint calculate_elements_stylesheet (fuel : nat) (debug : bool) (styles : list Style) (node : NodeId) (t : Tree)
  {struct fuel} : res Tree :=
  match fuel with
  | O => Hang
  | S fuel =>
      do! t <- push_styles debug styles node t;
      do! cs <- children t node;
      foldR (fun t c => calculate_elements_stylesheet fuel debug styles c t) t cs
  end.
