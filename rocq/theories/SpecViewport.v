(** * Vocabulary for the viewport (C84). *)
From stdpp Require Import gmap.
From Verif Require Import Str F32 Res Json Html Css Element Tree ViewModel Events View.

(** the size of the box the page is in: not given yet, or the pixels of a viewport *)
Inductive page_box := Unsized | Sized (size : vec2).
(** the root of the page has this size *)
Definition root_has (v : View) (b : page_box) : Prop :=
  exists x, t_nodes (v_tree v) !! v_root v = Some x /\
    ts_size (n_style x) = match b with Unsized => mkSize DimAuto DimAuto | Sized s => mkSize (DimLength (fst s)) (DimLength (snd s)) end.
(** neither side is as it was *)
Definition both_differ (b : page_box) (viewport : vec2) : Prop :=
  match b with Unsized => True | Sized s => feq (fst s) (fst viewport) = false /\ feq (snd s) (snd viewport) = false end.
(** the box after updates with these viewports *)
Inductive box_after : list vec2 -> page_box -> Prop :=
| box_none : box_after [] Unsized
| box_new l b vp : box_after l b -> both_differ b vp -> box_after (l ++ [vp]) (Sized vp)
| box_kept l b vp : box_after l b -> ~ both_differ b vp -> box_after (l ++ [vp]) b.
