(** * Rules for elements that a page does not have (C86). *)
From stdpp Require Import gmap.
From Verif Require Import Str Css Element Tree View.

(** The selector asks its element to be a [tag]: [tag], [x > tag], [tag:hover], ... *)
Definition asks_for (tag : string) (c : Complex) : Prop :=
  exists before after, c = before ++ SType tag :: after /\ forall s, In s after -> as_combinator s = None.

(** Every selector of the rule asks for a kind of element that is not on the page. *)
Definition without_element (v : View) (r : Style) : Prop := forall c, In c (s_selectors r) ->
  exists tag, asks_for tag c /\ forall n e, get_ctx (v_tree v) n = Some e -> e_tag e <> tag.

(** The rule asks for kinds of elements and their states only: no id, no class and
    no attribute. *)
Definition by_kind (r : Style) : Prop := forall c s, In c (s_selectors r) -> In s c ->
  match s with SId _ | SClass _ | SAttribute _ _ _ => False | _ => True end.

(** [rules'] is [rules] with further rules, each of them such a one, anywhere between. *)
Inductive extended (further : Style -> Prop) : list Style -> list Style -> Prop :=
| extended_nil : extended further [] []
| extended_keep r rules rules' : extended further rules rules' -> extended further (r :: rules) (r :: rules')
| extended_more r rules rules' : further r -> extended further rules rules' -> extended further rules (r :: rules').
