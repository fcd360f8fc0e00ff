(** * Shorthands, specificity and colour functions as CSS has them (C31, C56, C59). *)
From Coq Require Import ZArith Reals.
From Flocq Require Import IEEE754.BinarySingleNaN Core.
From stdpp Require Import gmap.
From Verif Require Import Str F32 Res PropKey Css Element Cascade SpecStyle.

(** one to four values for the top, right, bottom and left side (CSS Box Model);
    for the corners of a box: top left, top right, bottom right, bottom left *)
Definition sides {A} (vs : list A) : option (A * A * A * A) :=
  match vs with
  | [a] => Some (a, a, a, a)
  | [a; b] => Some (a, b, a, b)
  | [a; b; c] => Some (a, b, c, b)
  | [a; b; c; d] => Some (a, b, c, d)
  | _ => None
  end.
Definition box (top right bottom left : PropertyKey) (vs : list ComputedValue) : option (list (PropertyKey * ComputedValue)) :=
  match sides vs with
  | Some (t, r, b, l) => Some [(top, t); (right, r); (bottom, b); (left, l)]
  | None => None
  end.
Definition pair_of (first second : PropertyKey) (vs : list ComputedValue) : option (list (PropertyKey * ComputedValue)) :=
  match vs with [a] => Some [(first, a); (second, a)] | [a; b] => Some [(first, a); (second, b)] | _ => None end.
(** [animation]: which longhand a value is for (CSS Animations): the first time is
    the duration, the second the delay, a keyword that no other longhand knows
    is the name *)
Definition one_in (v : string) (words : list string) : bool := existsb (String.eqb v) words.
Definition animation_part (timed : bool) (v : ComputedValue) : option PropertyKey :=
  match v with
  | CTime _ => Some (if timed then KAnimationDelay else KAnimationDuration)
  | CNumber _ => Some KAnimationIterationCount
  | CKeyword k =>
      Some (if one_in k ["ease"; "ease-in"; "ease-out"; "ease-in-out"; "linear"; "step-start"; "step-end"] then KAnimationTimingFunction
            else if one_in k ["infinite"] then KAnimationIterationCount
            else if one_in k ["normal"; "reverse"; "alternate"; "alternate-reverse"] then KAnimationDirection
            else if one_in k ["forwards"; "backwards"; "both"] then KAnimationFillMode
            else if one_in k ["running"; "paused"] then KAnimationPlayState
            else KAnimationName)
  | _ => None
  end.
Fixpoint animation_parts (timed : bool) (vs : list ComputedValue) : option (list (PropertyKey * ComputedValue)) :=
  match vs with
  | [] => Some []
  | v :: vs => match animation_part timed v, animation_parts (timed || match v with CTime _ => true | _ => false end) vs with
               | Some k, Some l => Some ((k, v) :: l)
               | _, _ => None
               end
  end.
Definition css_animation (vs : list ComputedValue) : option (list (PropertyKey * ComputedValue)) :=
  match animation_parts false vs with
  | Some l => if bool_decide (NoDup (map fst l)) then Some l else None
  | None => None
  end.
(** the longhands that a shorthand stands for (not those it resets) *)
Definition css_shorthand (key : PropertyKey) (vs : list ComputedValue) : option (list (PropertyKey * ComputedValue)) :=
  match key with
  | KMargin => box KMarginTop KMarginRight KMarginBottom KMarginLeft vs
  | KPadding => box KPaddingTop KPaddingRight KPaddingBottom KPaddingLeft vs
  | KInset => box KTop KRight KBottom KLeft vs
  | KBorderWidth => box KBorderTopWidth KBorderRightWidth KBorderBottomWidth KBorderLeftWidth vs
  | KBorderColor => box KBorderTopColor KBorderRightColor KBorderBottomColor KBorderLeftColor vs
  | KBorderRadius => box KBorderTopLeftRadius KBorderTopRightRadius KBorderBottomRightRadius KBorderBottomLeftRadius vs
  | KOverflow => pair_of KOverflowX KOverflowY vs
  | KGap => pair_of KRowGap KColumnGap vs
  | KBorderTop => match vs with [w; _; c] => Some [(KBorderTopWidth, w); (KBorderTopColor, c)] | _ => None end
  | KBorderRight => match vs with [w; _; c] => Some [(KBorderRightWidth, w); (KBorderRightColor, c)] | _ => None end
  | KBorderBottom => match vs with [w; _; c] => Some [(KBorderBottomWidth, w); (KBorderBottomColor, c)] | _ => None end
  | KBorderLeft => match vs with [w; _; c] => Some [(KBorderLeftWidth, w); (KBorderLeftColor, c)] | _ => None end
  | KAnimation => css_animation vs
  | KBackground => match vs with [CColor c] => Some [(KBackgroundColor, CColor c); (KBackgroundImage, CKeyword "none")] | _ => None end
  | KBackgroundPosition =>
      match vs with
      | [x; y] => Some [(KBackgroundPositionX, x); (KBackgroundPositionY, y)]
      | [x] => Some [(KBackgroundPositionX, x); (KBackgroundPositionY, CKeyword "center")]
      | _ => None
      end
  | KBorder =>
      match vs with
      | [w; _; c] => Some [(KBorderTopWidth, w); (KBorderRightWidth, w); (KBorderBottomWidth, w); (KBorderLeftWidth, w);
                           (KBorderTopColor, c); (KBorderRightColor, c); (KBorderBottomColor, c); (KBorderLeftColor, c)]
      | [CKeyword k] => if String.eqb k "none" then Some [(KBorderTopWidth, CZero); (KBorderRightWidth, CZero); (KBorderBottomWidth, CZero); (KBorderLeftWidth, CZero);
                           (KBorderTopColor, CKeyword "currentcolor"); (KBorderRightColor, CKeyword "currentcolor");
                           (KBorderBottomColor, CKeyword "currentcolor"); (KBorderLeftColor, CKeyword "currentcolor")] else None
      | _ => None
      end
  | KTransition =>
      match vs with
      | [p; d] => Some [(KTransitionProperty, p); (KTransitionDuration, d)]
      | [p; d; t] => Some [(KTransitionProperty, p); (KTransitionDuration, d); (KTransitionTimingFunction, t)]
      | [p; d; t; y] => Some [(KTransitionProperty, p); (KTransitionDuration, d); (KTransitionTimingFunction, t); (KTransitionDelay, y)]
      | _ => None
      end
  | _ => None
  end.

(** how specific a selector is: ids, then classes, attributes and pseudo classes, then types *)
Definition weight (s : Simple) : nat * nat * nat :=
  match s with
  | SId _ => (1, 0, 0)
  | SClass _ | SAttribute _ _ _ | SPseudoClass _ | SRoot => (0, 1, 0)
  | SType _ | SPseudoElement _ => (0, 0, 1)
  | _ => (0, 0, 0)
  end.
Definition specificity (sel : Complex) : nat * nat * nat :=
  foldr (fun s '(a, b, c) => let '(x, y, z) := weight s in (x + a, y + b, z + c)) (0, 0, 0) sel.
Definition more_specific (x y : nat * nat * nat) : Prop :=
  let '(a, b, c) := x in let '(a', b', c') := y in a' < a \/ a = a' /\ (b' < b \/ b = b' /\ c' < c).

(** a channel of a colour: a number cut to the range of a byte *)
Definition channel (r : R) (z : Z) : Prop :=
  ((r <= 0)%R /\ z = 0%Z) \/ ((255 <= r)%R /\ z = 255%Z) \/ ((0 <= r <= 255)%R /\ (IZR z <= r < IZR z + 1)%R).

(** the shorthands that bumaga reads as CSS does: not [gap] with two values, not
    [inset] with two or three, not [background-position] with one, and
    [animation] only in four orders: duration, (timing, (delay or count)), name *)
Definition css_like (key : PropertyKey) (vs : list ComputedValue) : Prop :=
  match key with
  | KGap => List.length vs = 1
  | KInset => List.length vs <> 2 /\ List.length vs <> 3
  | KBackgroundPosition => List.length vs = 2
  | KAnimation =>
      exists l, animation_parts false vs = Some l /\
        In (map fst l) [[KAnimationDuration; KAnimationName]; [KAnimationDuration; KAnimationTimingFunction; KAnimationName];
                        [KAnimationDuration; KAnimationTimingFunction; KAnimationDelay; KAnimationName];
                        [KAnimationDuration; KAnimationTimingFunction; KAnimationIterationCount; KAnimationName]]
  | _ => True
  end.

(** a length in pixels in exact numbers: CSS Values and Units, where 'em' is the
    given font size and the viewport is [w] by [h] *)
Definition css_pixels (em rem w h : R) (d : Dim) : R :=
  let v := B2R (d_value d) in
  match d_unit d with
  | UPx => v
  | UEm => em * v
  | URem => rem * v
  | UVw => w * v / 100
  | UVh => h * v / 100
  | UVmax => Rmax w h * v / 100
  | UVmin => Rmin w h * v / 100
  end%R.
