(** * What animations and transitions are meant to do (C35-C38).

    Vocabulary for animation.rs: frames of a running animation, its iterations
    and the key frames around a progress. *)
From stdpp Require Import gmap.
From Coq Require Import ZArith Reals.
From Flocq Require Import Core.Core IEEE754.BinarySingleNaN.
From Verif Require Import Str F32 Res PropKey Css Element Cascade Initial Animation.

(** rounding to the nearest binary32 value, ties to even *)
Definition rnd32 (r : R) : R := round radix2 (SpecFloat.fexp 24 128) ZnearestE r.

(** ** Timing *)
(** A duration above zero, a finite delay, and no negative number of iterations. *)
Definition timed (a : Animator) : Prop :=
  is_finite (a_duration a) = true /\ (0 < B2R (a_duration a))%R /\ is_finite (a_delay a) = true /\
  match a_iterations a with AINumber n => is_finite n = true /\ (0 <= B2R n)%R | AIInfinite => True end.
(** The time since the last frame: [Duration::as_secs_f32]. *)
Definition frame_time (t : f32) : Prop := is_finite t = true /\ (0 <= B2R t)%R.
(** The animator as it is after frames with the given times between them. *)
Inductive played (fuel : nat) : Animator -> list f32 -> Animator -> Prop :=
| played_start a : played fuel a [] a
| played_frame a ts a1 t a2 x : played fuel a ts a1 -> animator_update fuel t a1 = Ok (a2, x) -> played fuel a (ts ++ [t]) a2.

(** The time of the animation proper: what passed since the delay, but not more
    than all iterations together. *)
Definition elapsed (a : Animator) : f32 := fsub (a_time a) (a_delay a).
Definition active_time (a : Animator) : f32 :=
  match a_iterations a with AINumber n => fmin (elapsed a) (fmul n (a_duration a)) | AIInfinite => elapsed a end.
(** [k] whole durations taken off the time one after the other leave [u]. *)
Inductive laps (d : f32) : f32 -> nat -> f32 -> Prop :=
| laps_last t : fgt t d = false -> laps d t 0 t
| laps_more t k u : fgt t d = true -> laps d (fsub t d) k u -> laps d t (S k) u.
(** The animation is in its iteration number [k], counted from 0. *)
Definition iteration (a : Animator) (k : nat) : Prop := exists u, laps (a_duration a) (active_time a) k u.
(** All iterations are over. *)
Definition over (a : Animator) : Prop :=
  match a_iterations a with
  | AINumber n => is_finite (elapsed a) = true /\ is_finite (fmul n (a_duration a)) = true /\ (B2R (fmul n (a_duration a)) <= B2R (elapsed a))%R
  | AIInfinite => False
  end.
(** a real number that is a binary32 value *)
Definition is_f32 (r : R) : Prop := exists f : f32, is_finite f = true /\ B2R f = r.
(** [n] iterations, all of whose ends fall on binary32 values: say 0.5s or 2s. *)
Definition even_laps (a : Animator) (n : nat) : Prop :=
  a_iterations a = AINumber (f32_of_Z (Z.of_nat n)) /\ 0 < n /\ (Z.of_nat n <= 2 ^ 24)%Z /\
  forall i, i <= n -> is_f32 (INR i * B2R (a_duration a)).

(** ** Key frames *)
(** The computed style that the key frames give at a step: of several key frames
    with the same step the last one counts. *)
Definition last_stop (stops : list (Z * ComputedStyle)) (step : Z) : option ComputedStyle :=
  foldl (fun acc '(k, s) => if Z.eqb k step then Some s else acc) None stops.
(** The value of a property at a step, if it is given there: by a key frame, or,
    at 0% and 100%, by the element's own style or the initial value. *)
Definition frame_given (stops : list (Z * ComputedStyle)) (style : ComputedStyle) (d : Descriptor) (step : Z) : option ComputedValue :=
  match last_stop stops step ≫= fun s => s !! d with
  | Some v => Some v
  | None => if Z.eqb step 0 || Z.eqb step 100 then Some (default (initial (fst d)) (style !! d)) else None
  end.
(** What is shown at step [t]: the value given there, or the interpolation of the
    nearest values given before and after. *)
Inductive shows_frame (given : Z -> option ComputedValue) (t : Z) : ComputedValue -> Prop :=
| shows_given v : given t = Some v -> shows_frame given t v
| shows_between a b va vb : (a < t < b)%Z -> given a = Some va -> given b = Some vb -> (forall k, (a < k < b)%Z -> given k = None) ->
    shows_frame given t (animate va vb (fdiv (f32_of_Z (t - a)) (f32_of_Z (b - a)))).
(** The key frames of an animation with their computed styles. *)
Definition stops_of (fuel : nat) (vars : Variables) (an : Animation) (stops : list (Z * ComputedStyle)) : Prop :=
  Forall2 (fun kf '(step, s) => kf_step kf = step /\ keyframe_style fuel vars (kf_declaration kf) = Ok s) (an_keyframes an) stops.
(** The whole percent a progress is shown at. *)
Definition percent (x : f32) : Z := Ztrunc (rnd32 (B2R x * 100)).

(** ** Interpolation *)
Definition byte (z : Z) : Prop := (0 <= z <= 255)%Z.
(** a finite number far from overflow *)
Definition tame (f : f32) : Prop := is_finite f = true /\ (Rabs (B2R f) <= bpow radix2 126)%R.
Definition tame_value (v : ComputedValue) : Prop :=
  match v with
  | CNumber f | CPercentage f => tame f
  | CDimension d => tame (d_value d)
  | CColor (r, g, b, a) => byte r /\ byte g /\ byte b /\ byte a
  | _ => True
  end.
Definition within (a b x : f32) : Prop := is_finite x = true /\ (Rmin (B2R a) (B2R b) <= B2R x <= Rmax (B2R a) (B2R b))%R.
Definition channel_within (a b x : Z) : Prop := (Z.min a b <= x <= Z.max a b)%Z.
(** percentages, of which [0] is one *)
Definition share (v : ComputedValue) : option f32 := match v with CPercentage p => Some p | CZero => Some f0 | _ => None end.
(** [x] lies between [a] and [b]: numbers, lengths of one unit, percentages and
    colours in between, anything else at one of the ends. *)
Inductive between : ComputedValue -> ComputedValue -> ComputedValue -> Prop :=
| between_number a b x : within a b x -> between (CNumber a) (CNumber b) (CNumber x)
| between_length a b x u : within a b x -> between (CDimension (mkDim a u)) (CDimension (mkDim b u)) (CDimension (mkDim x u))
| between_share va vb vx a b x : share va = Some a -> share vb = Some b -> share vx = Some x -> within a b x -> between va vb vx
| between_colour a0 a1 a2 a3 b0 b1 b2 b3 x0 x1 x2 x3 : channel_within a0 b0 x0 -> channel_within a1 b1 x1 -> channel_within a2 b2 x2 -> channel_within a3 b3 x3 ->
    between (CColor (a0, a1, a2, a3)) (CColor (b0, b1, b2, b3)) (CColor (x0, x1, x2, x3))
| between_first a b : between a b a
| between_second a b : between a b b.
(** pairs of values with something in between *)
Definition blends (a b : ComputedValue) : Prop :=
  match a, b with
  | CNumber _, CNumber _ | CPercentage _, CPercentage _ | CPercentage _, CZero | CZero, CPercentage _ | CColor _, CColor _ => True
  | CDimension a, CDimension b => d_unit a = d_unit b
  | _, _ => False
  end.

(** ** Transitions *)
(** one transition of a property that has a single value *)
Definition transitions (tn : Transition) (key : PropertyKey) (from to : ComputedValue) : Prop := t_key tn = Some key /\ t_range tn = Some (from, to).
Definition sets (key : PropertyKey) (v : ComputedValue) (s : ComputedStyle) : Prop := s !! (key, 0) = Some v /\ s !! (key, 1) = None.
(** frames in which the style sheet gives the property the same value [v] *)
Inductive steady (fuel : nat) (key : PropertyKey) (v : ComputedValue) : Transition -> list f32 -> Transition -> Prop :=
| steady_start tn : steady fuel key v tn [] tn
| steady_frame tn ts tn1 t s tn2 s2 : steady fuel key v tn ts tn1 -> sets key v s -> transition_play fuel t tn1 s = Ok (tn2, s2) ->
    steady fuel key v tn (ts ++ [t]) tn2.
(** the value shown: the one computed, unless the style had an equal one *)
Definition shown_value (key : PropertyKey) (current v : ComputedValue) (s : ComputedStyle) : Prop :=
  s !! (key, 0) = Some current \/ (s !! (key, 0) = Some v /\ cv_eq current v = true).
