(** * Vocabulary for statements about views. *)
From stdpp Require Import gmap.
From Verif Require Import Str Element Tree.

(** The part of an element that data binding works on. *)
Definition content (e : Element) :=
  (e_node e, e_children e, e_tag e, e_text e, e_attrs e, e_attrs_bindings e, e_listeners e, e_hints e, e_styles e, e_style e).
Definition node_content (x : Node) := (n_parent x, n_children x, content <$> n_ctx x).
Definition same_content (t t' : Tree) : Prop :=
  t_next t = t_next t' /\ forall n, node_content <$> t_nodes t !! n = node_content <$> t_nodes t' !! n.
