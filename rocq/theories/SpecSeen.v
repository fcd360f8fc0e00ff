(** * From texts to the screen (C67). *)
From stdpp Require Import gmap.
From Verif Require Import Str F32 Res Json Element Tree ViewModel Events View SpecTree.

(** the attribute [style] of [n] is not bound, or one of the reactions has written it *)
Definition style_settled (v0 : View) (n : NodeId) (log : list Reaction) : Prop :=
  (forall p b, In (p, b) (flat (v_bindings v0)) -> bd_params b <> BTag n "style") /\
  ((forall p b i, In (p, b) (flat (v_bindings v0)) -> bd_params b <> BAttribute n "style" i) \/ exists i x, In (RBind n "style" i x) log).

