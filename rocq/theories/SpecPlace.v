(** * Where elements are: geometry, opacity, clipping and scrolling (C40, C41). *)
From stdpp Require Import gmap.
From Coq Require Import ZArith Reals.
From Flocq Require Import Core.Core IEEE754.BinarySingleNaN.
From Verif Require Import Str F32 Res Css Element Tree Events SpecLive SpecTree SpecSelect.
Close Scope R_scope.

(** The box the layout engine gave a node, relative to its parent. *)
Definition laid_out (t : Tree) (n : NodeId) : option Layout := n_layout <$> t_nodes t !! n.
(** The box of an element on the page. *)
Definition box_of (e : Element) : Layout := mkLayout (e_position e) (e_size e) (e_content_size e).
(** Where the content of an element begins: at its position, or scrolled away from it. *)
Definition content_origin (e : Element) : vec2 :=
  match e_scrolling e with
  | Some s => (fsub (fst (e_position e)) (sc_x s), fsub (snd (e_position e)) (sc_y s))
  | None => e_position e
  end.
(** What the content of an element is clipped by. *)
Definition content_clip (e : Element) : option Layout :=
  match e_scrolling e with Some _ => Some (box_of e) | None => e_clipping e end.
(** The element [n] is placed in a parent whose content begins at [origin], has the
    opacity [opacity] and is clipped by [clip]. *)
Definition placed (t : Tree) (n : NodeId) (origin : vec2) (opacity : f32) (clip : option Layout) : Prop :=
  exists e l, get_ctx t n = Some e /\ laid_out t n = Some l /\
    e_position e = (fadd (fst (lo_location l)) (fst origin), fadd (snd (lo_location l)) (snd origin)) /\
    e_size e = lo_size l /\ e_content_size e = lo_content l /\
    e_opacity e = fmul opacity (e_self_opacity e) /\ e_clipping e = clip.

(** Whole pixels *)
Definition whole (f : f32) (z : Z) : Prop := is_finite f = true /\ B2R f = IZR z /\ (Z.abs z <= 2 ^ 24)%Z.
(** [pixels_at t body n x y]: the offsets from the body down to [n], minus what
    each element on the way is scrolled by, are whole and add up to ([x], [y]) *)
Inductive pixels_at (t : Tree) (body : NodeId) : NodeId -> Z -> Z -> Prop :=
| pixels_body l x y : laid_out t body = Some l -> whole (fst (lo_location l)) x -> whole (snd (lo_location l)) y -> pixels_at t body body x y
| pixels_child p n e l x y a b sx sy : pixels_at t body p x y -> parent_of t n = Some p -> get_ctx t p = Some e -> laid_out t n = Some l ->
    whole (fst (lo_location l)) a -> whole (snd (lo_location l)) b ->
    match e_scrolling e with Some s => whole (sc_x s) sx /\ whole (sc_y s) sy | None => sx = 0%Z /\ sy = 0%Z end ->
    (Z.abs (x - sx) <= 2 ^ 24)%Z -> (Z.abs (y - sy) <= 2 ^ 24)%Z -> (Z.abs (x - sx + a) <= 2 ^ 24)%Z -> (Z.abs (y - sy + b) <= 2 ^ 24)%Z ->
    pixels_at t body n (x - sx + a) (y - sy + b).

(** [scrolls t n]: the content of [n] is bigger than its box *)
Definition scrolls (t : Tree) (n : NodeId) : Prop := exists e, get_ctx t n = Some e /\ is_Some (e_scrolling e).
(** [n] is inside the nearest scrolling element [m] of the page *)
Definition nearest_scrolling (t : Tree) (body m n : NodeId) : Prop :=
  at_or_above t body m /\ above t m n /\ scrolls t m /\ forall k, above t m k -> above t k n -> ~ scrolls t k.

(** An opacity *)
Definition share_of_one (f : f32) : Prop := is_finite f = true /\ (0 <= B2R f <= 1)%R.
Definition own_opacity (t : Tree) (n : NodeId) : option f32 := e_self_opacity <$> get_ctx t n.
Definition opacity (t : Tree) (n : NodeId) : option f32 := e_opacity <$> get_ctx t n.

(** ** Scrolling (C41) *)
(** What happens to an element that can scroll: it is laid out, or the wheel turns over it. *)
Inductive scroll_step : Type := Laid (l : Layout) | Turned (wheel : vec2).
(** The sizes of a layout are such that the overflow is a number, and the content
    is not narrower or lower than the box. *)
Definition finite2 (v : vec2) : Prop := is_finite (fst v) = true /\ is_finite (snd v) = true.
Definition over_width (l : Layout) : f32 := fsub (fst (lo_content l)) (fst (lo_size l)).
Definition over_height (l : Layout) : f32 := fsub (snd (lo_content l)) (snd (lo_size l)).
Definition full_content (l : Layout) : Prop :=
  is_finite (over_width l) = true /\ is_finite (over_height l) = true /\ (0 <= B2R (over_width l))%R /\ (0 <= B2R (over_height l))%R.
(** The offset is between zero and the overflow. *)
Definition in_range (x limit : f32) : Prop := is_finite x = true /\ is_finite limit = true /\ (0 <= B2R x <= B2R limit)%R.
Definition is_wheel (e : InputEvent) : bool := match e with IMouseWheel _ => true | _ => false end.
