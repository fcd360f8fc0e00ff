(** * What it means that a page is careful with its animations (C39). *)
From stdpp Require Import gmap.
From Coq Require Import ZArith Reals.
From Flocq Require Import Core.Core IEEE754.BinarySingleNaN.
From Verif Require Import Str F32 PropKey Css Cascade View SpecStyle SpecShow SpecPage.

(** The declaration asks for no transition; if it is about animations it is written
    without variables and functions, and the values it gives, also as a
    shorthand, are all accepted by [V]. *)
Definition careful_declaration (V : PropertyKey -> ComputedValue -> Prop) (d : Declaration) : Prop :=
  match d with
  | DeclVariable _ => True
  | DeclProperty p => moving (p_key p) = false \/
      (p_key p = KAnimation \/ place_of (p_key p) = PlAnimators) /\
      forall sh, In sh (p_values p) -> exists vs, sh = map DExplicit vs /\ forall k v, In (k, v) (expand (p_key p) vs) -> V k v
  end.
(** So do all rules of the sheet, and its key frames move other properties than
    those of animations and transitions. *)
Definition careful_css (V : PropertyKey -> ComputedValue -> Prop) (css : Css) : Prop :=
  (forall s, s ∈ css_styles css -> Forall (careful_declaration V) (s_declaration s)) /\
  (forall name an kf, css_animations css !! name = Some an -> kf ∈ an_keyframes an -> Forall quiet_declaration (kf_declaration kf)).

(** A time between zero and 2^100 seconds. *)
Definition modest (d : f32) : Prop := is_finite d = true /\ (0 <= B2R d <= bpow radix2 100)%R.
(** At most 2^23 laps. *)
Definition few (n : f32) : Prop := is_finite n = true /\ (0 <= B2R n <= bpow radix2 23)%R.
(** Animations that count their laps: not endless, and with such a duration and number of laps. *)
Definition counted_value (k : PropertyKey) (v : ComputedValue) : Prop :=
  match k, v with
  | KAnimationDuration, CTime d => modest d
  | KAnimationIterationCount, CNumber n => few n
  | KAnimationIterationCount, CKeyword s => s <> "infinite"
  | _, _ => True
  end.
(** Animations that may be endless, of durations of at least 2^m seconds and
    without negative delays. *)
Definition slow_value (m : Z) (k : PropertyKey) (v : ComputedValue) : Prop :=
  match k, v with
  | KAnimationDuration, CTime d => is_finite d = true /\ (bpow radix2 m <= B2R d <= bpow radix2 100)%R
  | KAnimationDelay, CTime d => is_finite d = true /\ (0 <= B2R d)%R
  | KAnimationIterationCount, CNumber n => few n
  | _, _ => True
  end.
(** The time of a frame, at most 2^m seconds. *)
Definition short_frame (m : Z) (t : f32) : Prop := is_finite t = true /\ (0 <= B2R t <= bpow radix2 m)%R.
