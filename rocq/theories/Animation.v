(** * Animations and transitions: src/animation.rs and src/styles/compute_animation_tracks.rs. *)
From stdpp Require Import gmap.
From RecordUpdate Require Import RecordUpdate.
From Verif Require Import Str F32 Res PropKey Css Element Cascade Initial.

(** [n as f32] for [u8] and [u32] values *)
Definition f_of (z : Z) : f32 := f32_of_Z z.

(** src/animation.rs:243-250: one channel of [color] *)
Definition lerp_channel (x y : Z) (t : f32) : Z :=
  f32_as_u8 (fmax (fadd (f_of x) (fmul (fsub (f_of y) (f_of x)) t)) f0).
Definition lerp_color (x y : Rgba) (t : f32) : Rgba :=
  let '(x0, x1, x2, x3) := x in
  let '(y0, y1, y2, y3) := y in
  (lerp_channel x0 y0 t, lerp_channel x1 y1 t, lerp_channel x2 y2 t, lerp_channel x3 y3 t).

(** a + (b - a) * t *)
Definition lerp (a b t : f32) : f32 := fadd a (fmul (fsub b a) t).

(** src/animation.rs:252-262 *)
Definition lerp_dimension (a b : Dim) (t : f32) : Dim :=
  if bool_decide (d_unit a = d_unit b) then mkDim (lerp (d_value a) (d_value b) t) (d_unit a)
  else if flt t f_half then a else b.

(** src/animation.rs:172-198 *)
Definition animate (a b : ComputedValue) (t : f32) : ComputedValue :=
  if feq t f0 then a
  else if feq t f1 then b
  else
    match a, b with
    | CNumber a, CNumber b => CNumber (lerp a b t)
    | CPercentage a, CPercentage b => CPercentage (lerp a b t)
    | CPercentage a, CZero =>
        let p := lerp a f0 t in if feq f0 p then CZero else CPercentage p
    | CZero, CPercentage b => CPercentage (lerp f0 b t)
    | CDimension a, CDimension b => CDimension (lerp_dimension a b t)
    | CColor a, CColor b => CColor (lerp_color a b t)
    | a, b => if flt t f_half then a else b
    end.

(** src/animation.rs:163-166: [while t > duration { t -= duration }]; the fuel
    bounds the number of iterations, [Hang] when it is not enough. *)
Fixpoint wrap_time (fuel : nat) (duration t : f32) {struct fuel} : res f32 :=
  if fgt t duration then
    match fuel with
    | O => Hang
    | S fuel => wrap_time fuel duration (fsub t duration)
    end
  else Ok t.

(** src/animation.rs:151-169 *)
Definition animator_update (fuel : nat) (time : f32) (a : Animator) : res (Animator * option f32) :=
  let a := if a_running a && fgt (a_duration a) f0 then a <| a_time := fadd (a_time a) time |> else a in
  let t := fsub (a_time a) (a_delay a) in
  if flt t f0 then Ok (a, None)
  else
    let t := match a_iterations a with
             | AINumber n => fmin t (fmul n (a_duration a))
             | AIInfinite => t
             end in
    do! t <- wrap_time fuel (a_duration a) t;
    Ok (a, Some (fdiv t (a_duration a))).

(** [BTreeMap<u32, A>] as a list sorted by key *)
Section zmap.
  Context {A : Type}.
  Fixpoint z_get (k : Z) (m : list (Z * A)) : option A :=
    match m with
    | [] => None
    | (k', v) :: m' => if Z.eqb k k' then Some v else z_get k m'
    end.
  Fixpoint z_insert (k : Z) (v : A) (m : list (Z * A)) : list (Z * A) :=
    match m with
    | [] => [(k, v)]
    | (k', v') :: m' =>
        if (k <? k')%Z then (k, v) :: (k', v') :: m'
        else if (k =? k')%Z then (k, v) :: m'
        else (k', v') :: z_insert k v m'
    end.
End zmap.

(** src/animation.rs:127-137: the neighbouring frames of step [t] *)
Fixpoint neighbours (t : Z) (steps : list Z) (a b : Z) : Z * Z :=
  match steps with
  | [] => (a, b)
  | step :: steps' =>
      let a := if (step <=? t)%Z then step else a in
      if (t <=? step)%Z then (a, step) else neighbours t steps' a b
  end.

(** src/animation.rs:126-149; [track.frames[&a]] panics when the step is missing. *)
Definition play_track (track : AnimationTrack) (t : Z) (s : ComputedStyle) : res ComputedStyle :=
  let '(a, b) := neighbours t (map fst (tr_frames track)) 0 0 in
  if (a <? b)%Z then
    let x := fdiv (f_of (t - a)) (f_of (b - a)) in
    do! va <- unwrap (z_get a (tr_frames track));
    do! vb <- unwrap (z_get b (tr_frames track));
    Ok (<[tr_descriptor track := animate va vb x]> s)
  else
    do! v <- unwrap (z_get a (tr_frames track));
    Ok (<[tr_descriptor track := v]> s).

(** src/animation.rs:117-124 *)
Definition animator_play (fuel : nat) (time : f32) (tracks : list AnimationTrack) (a : Animator) (s : ComputedStyle)
  : res (Animator * ComputedStyle) :=
  do! (a, x) <- animator_update fuel time a;
  match x with
  | None => Ok (a, s)
  | Some x =>
      let step := f32_as_u32 (fmul x f100) in
      do! s <- foldR (fun s track => play_track track step s) s tracks;
      Ok (a, s)
  end.

(** src/styles/compute_animation_tracks.rs:17-37: the computed style of one key
    frame; variables inside key frames are only logged. *)
Definition keyframe_style (fuel : nat) (vars : Variables) (ds : list Declaration) : res ComputedStyle :=
  foldR (fun s d => match d with
                    | DeclVariable _ => Ok s
                    | DeclProperty p => compute_values fuel vars (p_key p) 0 (p_values p) s
                    end) ∅ ds.

(** src/styles/compute_animation_tracks.rs:38-57: missing properties of the
    first and last key frame come from the element's style or the initial value. *)
Definition fill_frame (animated : list Descriptor) (style frame : ComputedStyle) : ComputedStyle :=
  foldl (fun fr d => match fr !! d with
                     | Some _ => fr
                     | None => <[d := match style !! d with Some v => v | None => initial (fst d) end]> fr
                     end) frame animated.
Definition fill_step (animated : list Descriptor) (style : ComputedStyle) (step : Z) (kfs : list (Z * ComputedStyle))
  : list (Z * ComputedStyle) :=
  let frame := match z_get step kfs with Some f => f | None => ∅ end in
  z_insert step (fill_frame animated style frame) kfs.

(** src/styles/compute_animation_tracks.rs:38-72, for the animated properties in
    the order [animated] *)
Definition tracks_of (animated : list Descriptor) (style : ComputedStyle) (kfs : list (Z * ComputedStyle)) : list AnimationTrack :=
  let kfs := fill_step animated style 0 kfs in
  let kfs := fill_step animated style 100 kfs in
  map (fun d => mkTrack d (omap (fun '(step, s) => match s !! d with
                                                   | Some v => Some (step, v)
                                                   | None => None
                                                   end) kfs)) animated.
(** src/styles/compute_animation_tracks.rs:11-72.  The hash set of animated
    properties and the hash map of tracks are iterated in the (arbitrary but
    fixed) order of [elements]; [tracks_perm] in AnimationFacts.v shows the
    order does not matter. *)
Definition compute_animation_tracks (fuel : nat) (vars : Variables) (an : Animation) (style : ComputedStyle)
  : res (list AnimationTrack) :=
  do! (animated, kfs) <-
    foldR (fun '(animated, kfs) kf =>
             do! s <- keyframe_style fuel vars (kf_declaration kf);
             Ok (animated ∪ dom s, z_insert (kf_step kf) s kfs))
          ((∅ : gset Descriptor), ([] : list (Z * ComputedStyle))) (an_keyframes an);
  Ok (tracks_of (elements animated) style kfs).

(** src/animation.rs:25-43: ends with the last index present, as the loop
    overwrites [range] each time round. *)
Fixpoint init_loop (fuel : nat) (key : PropertyKey) (index : nat) (style : ComputedStyle) (tn : Transition)
  : res Transition :=
  match fuel with
  | O => Hang
  | S fuel =>
      match style !! (key, index) with
      | None => Ok tn
      | Some v => init_loop fuel key (S index) style (tn <| t_range := Some (v, v) |>)
      end
  end.
Definition init_after_style_applied (style : ComputedStyle) (tn : Transition) : res Transition :=
  match t_range tn with
  | Some _ => Ok tn
  | None =>
      match t_key tn with
      | None => Ok tn
      | Some key => init_loop (S (size style)) key 0 style tn
      end
  end.

(** src/animation.rs:53-76; a [None] range makes the loop [continue] without
    progress, that is forever. *)
Fixpoint play_loop (fuel : nat) (key : PropertyKey) (time : f32) (index : nat) (tn : Transition) (style : ComputedStyle)
  : res (Transition * ComputedStyle) :=
  match fuel with
  | O => Hang
  | S fuel =>
      match style !! (key, index) with
      | None => Ok (tn, style)
      | Some value =>
          match t_range tn with
          | None => Hang
          | Some (from, to) =>
              let current := animate from to time in
              let tn := if cv_eq to value then tn
                        else tn <| t_range := Some (current, value) |>
                                <| t_animator ::= fun a => a <| a_time := f0 |> |> in
              let style := if cv_eq current value then style else <[(key, index) := current]> style in
              play_loop fuel key time (S index) tn style
          end
      end
  end.
(** src/animation.rs:45-77 *)
Definition transition_play (fuel : nat) (time : f32) (tn : Transition) (style : ComputedStyle)
  : res (Transition * ComputedStyle) :=
  match t_key tn with
  | None => Ok (tn, style)
  | Some key =>
      do! (a, x) <- animator_update fuel time (t_animator tn);
      let tn := tn <| t_animator := a |> in
      match x with
      | None => Ok (tn, style)
      | Some x => play_loop (S (size style)) key x 0 tn style
      end
  end.
