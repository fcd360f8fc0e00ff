(** * Properties of animations and transitions: C35-C38. *)
From stdpp Require Import gmap.
From RecordUpdate Require Import RecordUpdate.
From Coq Require Import ZArith Reals Lia Lra.
From Flocq Require Import Core.Core IEEE754.BinarySingleNaN.
From Verif Require Import Str F32 Res ResFacts PropKey Css Element Cascade Initial Animation FloatFacts SpecAnim AnimFloat AnimProps FrameProps BlendProps.
Close Scope R_scope.

(** ** Samples *)
Definition f32_num (m e : Z) : f32 := binary_normalize 24 128 f32_prec f32_emax mode_NE m e false.
Definition animator (duration delay : f32) (n : AnimationIterations) : Animator :=
  animator_default <| a_duration := duration |> <| a_delay := delay |> <| a_iterations := n |>.
Lemma shown_progress fuel t a : match animator_update fuel t a with Ok (_, Some _) => true | _ => false end = true -> exists a' x, animator_update fuel t a = Ok (a', Some x).
Proof. destruct (animator_update fuel t a) as [[a' [x|]]| | |]; try discriminate 1. eauto. Qed.
Lemma positive (f : f32) : flt f0 f = true -> is_finite f = true -> (0 < B2R f)%R.
Proof. intros H F. by apply (flt_real f0 f eq_refl F) in H. Qed.
Lemma not_negative (f : f32) : fle f0 f = true -> is_finite f = true -> (0 <= B2R f)%R.
Proof. intros H F. by apply (fle_real f0 f eq_refl F) in H. Qed.

Lemma power e : (-149 <= e < 128)%Z -> B2R (f32_num 1 e) = bpow radix2 e.
Proof.
  intros He. pose proof (binary_normalize_correct 24 128 f32_prec f32_emax mode_NE 1 e false) as H. cbn [round_mode] in H.
  assert (E : F2R (Float radix2 1 e) = bpow radix2 e) by (unfold F2R; cbn [Fnum Fexp]; apply Rmult_1_l). rewrite E in H.
  assert (G : rnd (bpow radix2 e) = bpow radix2 e).
  { apply round_generic; [typeclasses eauto|]. apply generic_format_bpow. unfold SpecFloat.fexp, SpecFloat.emin. lia. }
  rewrite G, Rlt_bool_true in H; [exact (proj1 H)|]. rewrite Rabs_pos_eq by apply bpow_ge_0. apply bpow_lt. lia.
Qed.

(** ** C35: progress *)
(** In every history of frames the progress of an animation with a duration is a
    number from 0 to 1. *)
Theorem C35_progress_in_range fuel a ts a1 t a2 x : timed a -> a_time a = f0 -> Forall frame_time ts -> frame_time t -> played fuel a ts a1 ->
  animator_update fuel t a1 = Ok (a2, Some x) -> is_finite x = true /\ (0 <= B2R x <= 1)%R.
Proof. exact (progress_in_range fuel a ts a1 t a2 x). Qed.
Print Assumptions C35_progress_in_range.
(** Of two frames the later one is not in an earlier iteration, and in the same
    iteration it has not less progress. *)
Theorem C35_never_decreases fuel a ts a1 t a2 x ts' a3 t' a4 x' : timed a -> a_time a = f0 -> Forall frame_time ts -> frame_time t ->
  Forall frame_time ts' -> frame_time t' -> played fuel a ts a1 -> animator_update fuel t a1 = Ok (a2, Some x) ->
  played fuel a2 ts' a3 -> animator_update fuel t' a3 = Ok (a4, Some x') ->
  exists k k', iteration a2 k /\ iteration a4 k' /\ k <= k' /\ (k = k' -> (B2R x <= B2R x')%R).
Proof. exact (never_decreases fuel a ts a1 t a2 x ts' a3 t' a4 x'). Qed.
Print Assumptions C35_never_decreases.
Theorem C35_single_iteration_never_decreases fuel a ts a1 t a2 x ts' a3 t' a4 x' : timed a -> a_iterations a = AINumber f1 -> a_time a = f0 ->
  Forall frame_time ts -> frame_time t -> Forall frame_time ts' -> frame_time t' -> played fuel a ts a1 -> animator_update fuel t a1 = Ok (a2, Some x) ->
  played fuel a2 ts' a3 -> animator_update fuel t' a3 = Ok (a4, Some x') -> (B2R x <= B2R x')%R.
Proof. exact (one_iteration_grows fuel a ts a1 t a2 x ts' a3 t' a4 x'). Qed.
Print Assumptions C35_single_iteration_never_decreases.
(** In the first iteration the progress is the share of the duration that has
    passed since the delay, rounded. *)
Theorem C35_first_iteration fuel a ts a1 t a2 x : timed a -> a_time a = f0 -> Forall frame_time ts -> frame_time t -> played fuel a ts a1 ->
  animator_update fuel t a1 = Ok (a2, Some x) -> iteration a2 0 -> B2R x = rnd32 (B2R (active_time a2) / B2R (a_duration a)).
Proof. exact (first_iteration fuel a ts a1 t a2 x). Qed.
Print Assumptions C35_first_iteration.
(** Until the delay has passed nothing is shown, then always something. *)
Theorem C35_delay fuel a t a' x : animator_update fuel t a = Ok (a', x) -> (x = None <-> flt (elapsed a') f0 = true).
Proof. exact (shows_after_delay fuel a t a' x). Qed.
Print Assumptions C35_delay.
(** The clock is the sum of the frame times while running, and stands still when
    paused. *)
Theorem C35_clock fuel a ts a' : timed a -> a_running a = true -> played fuel a ts a' -> a_time a' = fold_left fadd ts (a_time a).
Proof. exact (clock_sums fuel a ts a'). Qed.
Print Assumptions C35_clock.
Theorem C35_paused fuel a ts a' : a_running a = false -> played fuel a ts a' -> a' = a.
Proof. exact (paused_stays fuel a ts a'). Qed.
Print Assumptions C35_paused.
(** A finished animation stays where it is. *)
Theorem C35_finished_stays fuel a ts a1 t a2 x ts' a3 t' a4 x' : timed a -> a_time a = f0 -> Forall frame_time ts -> frame_time t ->
  Forall frame_time ts' -> frame_time t' -> played fuel a ts a1 -> animator_update fuel t a1 = Ok (a2, Some x) -> over a2 ->
  played fuel a2 ts' a3 -> animator_update fuel t' a3 = Ok (a4, Some x') -> B2R x' = B2R x.
Proof. exact (over_later fuel a ts a1 t a2 x ts' a3 t' a4 x'). Qed.
Print Assumptions C35_finished_stays.
(** That is its end if it has one iteration, or durations that add up exactly. *)
Theorem C35_finished_at_end_partial fuel a ts a1 t a2 x n : timed a -> a_time a = f0 -> even_laps a n -> Forall frame_time ts -> frame_time t -> played fuel a ts a1 ->
  animator_update fuel t a1 = Ok (a2, Some x) -> over a2 -> is_finite x = true /\ B2R x = 1%R.
Proof. exact (ends_at_one fuel a ts a1 t a2 x n). Qed.
Print Assumptions C35_finished_at_end_partial.
Theorem C35_single_iteration_end fuel a ts a1 t a2 x : timed a -> a_iterations a = AINumber f1 -> a_time a = f0 -> Forall frame_time ts -> frame_time t -> played fuel a ts a1 ->
  animator_update fuel t a1 = Ok (a2, Some x) -> over a2 -> is_finite x = true /\ B2R x = 1%R.
Proof. intros Ta Hi Hf. exact (ends_at_one fuel a ts a1 t a2 x 1 Ta Hf (one_iteration a Ta Hi)). Qed.
Print Assumptions C35_single_iteration_end.
(** Not always: [animation: pulse 0.2s 3] ends near its beginning, as three times
    the rounded 0.2 less twice the rounded 0.2 is above the rounded 0.2. *)
Definition fifth : f32 := f32_num 13421773 (-26).
Definition pulse : Animator := animator fifth f0 (AINumber (f32_of_Z 3)).
Theorem C35_finished_at_end_refuted : exists a t a2 x, timed a /\ a_time a = f0 /\ a_iterations a = AINumber (f32_of_Z 3) /\ frame_time t /\
  animator_update 10 t a = Ok (a2, Some x) /\ over a2 /\ (B2R x < / 1024)%R.
Proof.
  assert (Hs : match animator_update 10 f1 pulse with Ok (_, Some x) => flt x (f32_num 1 (-10)) && is_finite x | _ => false end = true) by (vm_compute; reflexivity).
  destruct (animator_update 10 f1 pulse) as [[a2 [x|]]| | |] eqn:E; try discriminate Hs. apply andb_true_iff in Hs as [Hx Fx]. exists pulse, f1, a2, x.
  split; [split; [reflexivity|split; [apply positive; vm_compute; reflexivity|split; [reflexivity|split; [reflexivity|apply not_negative; vm_compute; reflexivity]]]]|].
  split; [reflexivity|]. split; [reflexivity|]. split; [split; [reflexivity|apply not_negative; vm_compute; reflexivity]|]. split; [exact E|]. apply update_frame in E as [-> _]. split.
  - unfold over. change (a_iterations (after_frame f1 pulse)) with (AINumber (f32_of_Z 3)). split; [vm_compute; reflexivity|]. split; [vm_compute; reflexivity|].
    apply fle_real; vm_compute; reflexivity.
  - apply flt_real in Hx; [|exact Fx|reflexivity]. rewrite (power (-10) ltac:(lia)) in Hx. change (bpow radix2 (-10)) with (/ 1024)%R in Hx. exact Hx.
Qed.
Print Assumptions C35_finished_at_end_refuted.
(** A case: two iterations of half a second with a quarter second delay. *)
Definition blink : Animator := animator f_half (f32_num 1 (-2)) (AINumber (f32_of_Z 2)).
Example C35_meets : exists ts a1 t a2 x, timed blink /\ a_time blink = f0 /\ even_laps blink 2 /\ List.length ts = 1 /\ Forall frame_time ts /\ frame_time t /\ played 10 blink ts a1 /\
  animator_update 10 t a1 = Ok (a2, Some x) /\ over a2.
Proof.
  destruct (shown_progress 10 f_half blink) as (a1 & x1 & E1); [vm_compute; reflexivity|].
  pose proof E1 as U1. apply update_frame in U1 as [U1 _]. subst a1.
  destruct (shown_progress 10 f1 (after_frame f_half blink)) as (a2 & x2 & E2); [vm_compute; reflexivity|]. exists [f_half], (after_frame f_half blink), f1, a2, x2.
  assert (Ff : frame_time f_half) by (split; [reflexivity|apply not_negative; vm_compute; reflexivity]).
  split; [split; [reflexivity|split; [apply positive; vm_compute; reflexivity|split; [reflexivity|split; [reflexivity|apply not_negative; vm_compute; reflexivity]]]]|].
  split; [reflexivity|]. split; [|split; [reflexivity|split; [by constructor|split; [split; [reflexivity|apply not_negative; vm_compute; reflexivity]|split; [apply (played_frame 10 blink [] blink f_half _ _ (played_start _ _) E1)|split; [exact E2|]]]]]].
  - split; [reflexivity|]. split; [lia|]. split; [lia|]. change (a_duration blink) with f_half. assert (B : B2R f_half = (/ 2)%R) by exact (power (-1) ltac:(lia)). rewrite B.
    intros i Hi. destruct i as [|[|[|i]]]; [exists f0|exists f_half|exists f1|lia]; (split; [reflexivity|]); [cbn|rewrite B; cbn|destruct (f32_int 1 ltac:(lia)) as [_ F1]; fold f1 in F1; rewrite F1; cbn]; lra.
  - apply update_frame in E2 as [-> _]. unfold over. change (a_iterations (after_frame f1 (after_frame f_half blink))) with (AINumber (f32_of_Z 2)). split; [vm_compute; reflexivity|]. split; [vm_compute; reflexivity|].
    apply fle_real; vm_compute; reflexivity.
Qed.

(** ** C36: frames *)
(** At any progress from 0 to 1 playing an animation succeeds; every property of
    its key frames then has the value given at that percent, or the
    interpolation of the nearest values given before and after; the other
    properties keep their values. *)
Theorem C36_frames fuel time vars an a a' x style trs : Forall (fun kf => (0 <= kf_step kf)%Z) (an_keyframes an) ->
  compute_animation_tracks fuel vars an style = Ok trs -> animator_update fuel time a = Ok (a', Some x) -> is_finite x = true -> (0 <= B2R x <= 1)%R ->
  exists stops s', stops_of fuel vars an stops /\ animator_play fuel time trs a style = Ok (a', s') /\
  (forall d : Descriptor, (exists st s, In (st, s) stops /\ is_Some ((s : ComputedStyle) !! d)) ->
    exists v, (s' : ComputedStyle) !! d = Some v /\ shows_frame (frame_given stops style d) (percent x) v) /\
  (forall d : Descriptor, ~ (exists st s, In (st, s) stops /\ is_Some ((s : ComputedStyle) !! d)) -> (s' : ComputedStyle) !! d = style !! d).
Proof. exact (playing_shows fuel time vars an a a' x style trs). Qed.
Print Assumptions C36_frames.
(** The interpolation of two values lies between them. *)
Theorem C36_interpolation_between a b (t : f32) : tame_value a -> tame_value b -> is_finite t = true -> (0 <= B2R t <= 1)%R -> between a b (animate a b t).
Proof. exact (animate_between a b t). Qed.
Print Assumptions C36_interpolation_between.
(** Numbers, lengths, percentages and colours in it do blend: they follow
    a + (b - a) t up to rounding. *)
Theorem C36_interpolation_follows (a b t : f32) : tame a -> tame b -> is_finite t = true -> (0 < B2R t < 1)%R ->
  exists x, animate (CNumber a) (CNumber b) t = CNumber x /\ animate (CPercentage a) (CPercentage b) t = CPercentage x /\
  (forall u, animate (CDimension (mkDim a u)) (CDimension (mkDim b u)) t = CDimension (mkDim x u)) /\ is_finite x = true /\
  B2R x = rnd32 (B2R a + rnd32 (rnd32 (B2R b - B2R a) * B2R t)).
Proof. exact (animate_follows a b t). Qed.
Print Assumptions C36_interpolation_follows.
(** A later moment is not shown further back. *)
Theorem C36_interpolation_forward (a b t t' : f32) : tame a -> tame b -> is_finite t = true -> is_finite t' = true -> (0 <= B2R t <= B2R t')%R -> (B2R t' <= 1)%R ->
  exists x x', animate (CNumber a) (CNumber b) t = CNumber x /\ animate (CNumber a) (CNumber b) t' = CNumber x' /\
  ((B2R a <= B2R b)%R -> (B2R x <= B2R x')%R) /\ ((B2R b <= B2R a)%R -> (B2R x' <= B2R x)%R).
Proof. exact (animate_forward a b t t'). Qed.
Print Assumptions C36_interpolation_forward.
(** Between whole percents nothing moves: at 65/128 of the way from 0 to 1000 an
    animation shows 500. *)
Theorem C36_every_progress_refuted : exists fuel time a x (tr : AnimationTrack) va vb, tr_frames tr = [(0%Z, va); (100%Z, vb)] /\
  (exists a', animator_update fuel time a = Ok (a', Some x)) /\ is_finite x = true /\ (0 <= B2R x <= 1)%R /\
  match animator_play fuel time [tr] a ∅ with
  | Ok (_, s) => match (s : ComputedStyle) !! tr_descriptor tr with Some v => cv_eq v (animate va vb x) = false | None => False end
  | _ => False
  end.
Proof.
  destruct (shown_progress 10 (f32_num 65 (-7)) (animator f1 f0 (AINumber f1))) as (a' & x & E); [vm_compute; reflexivity|].
  exists 10, (f32_num 65 (-7)), (animator f1 f0 (AINumber f1)), x, (mkTrack (KFlexGrow, 0) [(0%Z, CNumber f0); (100%Z, CNumber (f32_of_Z 1000))]), (CNumber f0), (CNumber (f32_of_Z 1000)).
  split; [reflexivity|]. split; [eauto|].
  assert (T : timed (animator f1 f0 (AINumber f1))).
  { split; [reflexivity|split; [apply positive; vm_compute; reflexivity|split; [reflexivity|split; [reflexivity|apply not_negative; vm_compute; reflexivity]]]]. }
  destruct (C35_progress_in_range 10 (animator f1 f0 (AINumber f1)) [] (animator f1 f0 (AINumber f1)) (f32_num 65 (-7)) a' x T eq_refl (List.Forall_nil _)) as [Fx Rx];
    [split; [reflexivity|apply not_negative; vm_compute; reflexivity]|constructor|exact E|]. split; [exact Fx|]. split; [exact Rx|].
  assert (Hs : match animator_update 10 (f32_num 65 (-7)) (animator f1 f0 (AINumber f1)) with
               | Ok (_, Some x) =>
                 match animator_play 10 (f32_num 65 (-7)) [mkTrack (KFlexGrow, 0) [(0%Z, CNumber f0); (100%Z, CNumber (f32_of_Z 1000))]] (animator f1 f0 (AINumber f1)) ∅ with
                 | Ok (_, s) => match (s : ComputedStyle) !! ((KFlexGrow, 0) : Descriptor) with Some v => negb (cv_eq v (animate (CNumber f0) (CNumber (f32_of_Z 1000)) x)) | None => false end
                 | _ => false
                 end
               | _ => false end = true) by (vm_compute; reflexivity).
  rewrite E in Hs. cbn [tr_descriptor]. destruct (animator_play _ _ _ _ _) as [[? s]| | |]; try discriminate Hs. destruct (s !! ((KFlexGrow, 0) : Descriptor)); [|discriminate Hs]. apply negb_true_iff in Hs. exact Hs.
Qed.
Print Assumptions C36_every_progress_refuted.
(** A case: [@keyframes grow { from { flex-grow: 1 } 50% { flex-grow: 3 } }] a
    quarter through. *)
Definition grow : Animation :=
  mkAnimation "grow" [mkKeyframe 0 [DeclProperty (mkProperty KFlexGrow [[DExplicit (CNumber f1)]])]; mkKeyframe 50 [DeclProperty (mkProperty KFlexGrow [[DExplicit (CNumber (f32_of_Z 3))]])]].
Example C36_meets : exists trs a' x, Forall (fun kf => (0 <= kf_step kf)%Z) (an_keyframes grow) /\ compute_animation_tracks 10 ∅ grow ∅ = Ok trs /\
  animator_update 10 (f32_num 1 (-2)) (animator f1 f0 (AINumber f1)) = Ok (a', Some x) /\ is_finite x = true /\ (0 <= B2R x <= 1)%R.
Proof.
  assert (Hs : match compute_animation_tracks 10 ∅ grow ∅ with Ok _ => true | _ => false end = true) by (vm_compute; reflexivity).
  destruct (compute_animation_tracks 10 ∅ grow ∅) as [trs| | |]; try discriminate Hs.
  destruct (shown_progress 10 (f32_num 1 (-2)) (animator f1 f0 (AINumber f1))) as (a' & x & E); [vm_compute; reflexivity|]. exists trs, a', x.
  split; [by repeat constructor|]. split; [reflexivity|]. split; [exact E|].
  apply (C35_progress_in_range 10 (animator f1 f0 (AINumber f1)) [] (animator f1 f0 (AINumber f1)) (f32_num 1 (-2)) a' x); [|reflexivity|constructor| |constructor|exact E].
  - split; [reflexivity|split; [apply positive; vm_compute; reflexivity|split; [reflexivity|split; [reflexivity|apply not_negative; vm_compute; reflexivity]]]].
  - split; [reflexivity|apply not_negative; vm_compute; reflexivity].
Qed.

(** ** C37: colours *)
Theorem C37_colours_between r g b al r' g' b' al' (t : f32) : byte r -> byte g -> byte b -> byte al -> byte r' -> byte g' -> byte b' -> byte al' ->
  is_finite t = true -> (0 <= B2R t <= 1)%R ->
  exists x y z w, animate (CColor (r, g, b, al)) (CColor (r', g', b', al')) t = CColor (x, y, z, w) /\
  channel_within r r' x /\ channel_within g g' y /\ channel_within b b' z /\ channel_within al al' w.
Proof. exact (colours_between r g b al r' g' b' al' t). Qed.
Print Assumptions C37_colours_between.
Theorem C37_ends a b (t : f32) : is_finite t = true -> (B2R t = 0%R -> animate a b t = a) /\ (B2R t = 1%R -> animate a b t = b).
Proof. exact (animate_ends a b t). Qed.
Print Assumptions C37_ends.
(** Each channel moves one way only, from the first colour to the second. *)
Theorem C37_channels_forward a b (t t' : f32) : byte a -> byte b -> is_finite t = true -> is_finite t' = true -> (0 <= B2R t <= B2R t')%R -> (B2R t' < 1)%R ->
  ((a <= b)%Z -> (lerp_channel a b t <= lerp_channel a b t')%Z) /\ ((b <= a)%Z -> (lerp_channel a b t' <= lerp_channel a b t)%Z).
Proof. exact (channels_forward a b t t'). Qed.
Print Assumptions C37_channels_forward.
Example C37_meets : byte 255 /\ byte 0 /\ is_finite f_half = true /\ (0 <= B2R f_half <= 1)%R.
Proof. unfold byte. repeat split; try lia; rewrite (power (-1) ltac:(lia) : B2R f_half = _); change (bpow radix2 (-1)) with (/ 2)%R; lra. Qed.

(** ** C38: transitions *)
(** When the style gives a new value, the frame shows the value the transition
    had reached, and the transition starts again from there. *)
Theorem C38_starts_from_shown fuel time tn key from to v s tn' s' a x : transitions tn key from to -> sets key v s -> cv_eq to v = false ->
  transition_play fuel time tn s = Ok (tn', s') -> animator_update fuel time (t_animator tn) = Ok (a, Some x) ->
  shown_value key (animate from to x) v s' /\ transitions tn' key (animate from to x) v /\ a_time (t_animator tn') = f0.
Proof. exact (transition_starts fuel time tn key from to v s tn' s' a x). Qed.
Print Assumptions C38_starts_from_shown.
(** From then on, without a delay, every frame shows a value between the old and
    the new one, and the new one once the duration has passed. *)
Theorem C38_reaches_target_partial fuel key from v tn ts tn1 t s tn2 s2 : transitions tn key from v -> timed (t_animator tn) -> a_iterations (t_animator tn) = AINumber f1 ->
  (B2R (a_delay (t_animator tn)) <= 0)%R -> a_time (t_animator tn) = f0 -> tame_value from -> tame_value v -> cv_eq v v = true ->
  Forall frame_time ts -> frame_time t -> steady fuel key v tn ts tn1 -> sets key v s -> transition_play fuel t tn1 s = Ok (tn2, s2) ->
  exists x w, is_finite x = true /\ (0 <= B2R x <= 1)%R /\ s2 !! (key, 0) = Some w /\ shown_value key (animate from v x) v s2 /\ between from v w /\
  (is_finite (elapsed (t_animator tn2)) = true -> (B2R (a_duration (t_animator tn)) <= B2R (elapsed (t_animator tn2)))%R -> w = v).
Proof. exact (transition_reaches fuel key from v tn ts tn1 t s tn2 s2). Qed.
Print Assumptions C38_reaches_target_partial.
(** With a delay the new value shows at once, before the old one comes back. *)
Definition late : Transition := mkTransition (Some KFlexGrow) (animator f1 f1 (AINumber f1)) (Some (CNumber f0, CNumber f1)).
Theorem C38_delay_refuted : exists tn s t, transitions tn KFlexGrow (CNumber f0) (CNumber f1) /\ timed (t_animator tn) /\ a_time (t_animator tn) = f0 /\ frame_time t /\
  sets KFlexGrow (CNumber f1) s /\
  match transition_play 10 t tn s with Ok (_, s') => s' !! (KFlexGrow, 0) = Some (CNumber f1) | _ => False end.
Proof.
  exists late, {[(KFlexGrow, 0) := CNumber f1]}, f_half. split; [done|].
  split; [split; [reflexivity|split; [apply positive; vm_compute; reflexivity|split; [reflexivity|split; [reflexivity|apply not_negative; vm_compute; reflexivity]]]]|].
  split; [done|]. split; [split; [reflexivity|apply not_negative; vm_compute; reflexivity]|]. split; [split; reflexivity|].
  rewrite (play_single 10 f_half late KFlexGrow (CNumber f0) (CNumber f1) (CNumber f1)) by (split; reflexivity).
  assert (Hs : match animator_update 10 f_half (t_animator late) with Ok (_, None) => true | _ => false end = true) by (vm_compute; reflexivity).
  destruct (animator_update 10 f_half (t_animator late)) as [[a [x|]]| | |]; try discriminate Hs. cbn [bindR]. reflexivity.
Qed.
Print Assumptions C38_delay_refuted.
(** Without a duration the property is lost: [transition-property: flex-grow]
    alone shows NaN instead of the new value. *)
Definition instant : Transition := mkTransition (Some KFlexGrow) animator_default (Some (CNumber f1, CNumber f1)).
Theorem C38_no_duration_refuted : exists tn s t, t_animator tn = animator_default /\ transitions tn KFlexGrow (CNumber f1) (CNumber f1) /\ frame_time t /\
  sets KFlexGrow (CNumber f1) s /\
  match transition_play 10 t tn s with Ok (_, s') => match s' !! (KFlexGrow, 0) with Some (CNumber x) => is_nan x = true | _ => False end | _ => False end.
Proof.
  exists instant, {[(KFlexGrow, 0) := CNumber f1]}, f_half. split; [done|]. split; [done|]. split; [split; [reflexivity|apply not_negative; vm_compute; reflexivity]|].
  split; [split; reflexivity|].
  assert (Hs : match transition_play 10 f_half instant {[(KFlexGrow, 0) := CNumber f1]} with Ok (_, s') => match s' !! (KFlexGrow, 0) with Some (CNumber x) => is_nan x | _ => false end | _ => false end = true) by (vm_compute; reflexivity).
  destruct (transition_play _ _ _ _) as [[? s']| | |]; try discriminate Hs. destruct (s' !! (KFlexGrow, 0)) as [[]|]; try discriminate Hs. exact Hs.
Qed.
Print Assumptions C38_no_duration_refuted.
(** From [0] to [100px] there is nothing in between: the length jumps halfway. *)
Theorem C38_zero_length_refuted (u : Units) (b t : f32) : is_finite t = true -> (0 < B2R t < 1)%R ->
  animate CZero (CDimension (mkDim b u)) t = CZero \/ animate CZero (CDimension (mkDim b u)) t = CDimension (mkDim b u).
Proof. exact (zero_jumps u b t). Qed.
Print Assumptions C38_zero_length_refuted.
(** A case: one second from 0 to 1, seen after half and one more second. *)
Definition calm_move : Transition := mkTransition (Some KFlexGrow) (animator f1 f0 (AINumber f1)) (Some (CNumber f0, CNumber f1)).
Example C38_meets : exists tn1 tn2 s s2, transitions calm_move KFlexGrow (CNumber f0) (CNumber f1) /\ timed (t_animator calm_move) /\ steady 10 KFlexGrow (CNumber f1) calm_move [f_half] tn1 /\
  sets KFlexGrow (CNumber f1) s /\ transition_play 10 f1 tn1 s = Ok (tn2, s2) /\ is_finite (elapsed (t_animator tn2)) = true /\ (B2R f1 <= B2R (elapsed (t_animator tn2)))%R.
Proof.
  set (s := {[(KFlexGrow, 0) := CNumber f1]} : ComputedStyle). assert (Hs : sets KFlexGrow (CNumber f1) s) by (split; reflexivity).
  assert (T : transitions calm_move KFlexGrow (CNumber f0) (CNumber f1)) by done.
  destruct (shown_progress 10 f_half (t_animator calm_move)) as (a1 & x1 & E1); [vm_compute; reflexivity|].
  pose proof (play_single 10 f_half calm_move _ _ _ _ s T Hs) as P1. rewrite E1 in P1. cbn [bindR] in P1. cbv zeta in P1.
  assert (V : cv_eq (CNumber f1) (CNumber f1) = true) by (vm_compute; reflexivity). rewrite V in P1.
  pose proof E1 as U1. apply update_frame in U1 as [U1 _].
  set (tn1 := calm_move <| t_animator := a1 |>) in *. assert (T1 : transitions tn1 KFlexGrow (CNumber f0) (CNumber f1)) by done.
  destruct (shown_progress 10 f1 a1) as (a2 & x2 & E2); [subst a1; vm_compute; reflexivity|].
  pose proof (play_single 10 f1 tn1 _ _ _ _ s T1 Hs) as P2. change (t_animator tn1) with a1 in P2. rewrite E2 in P2. cbn [bindR] in P2. cbv zeta in P2. rewrite V in P2.
  exists tn1. eexists _, s, _. split; [exact T|].
  split; [split; [reflexivity|split; [apply positive; vm_compute; reflexivity|split; [reflexivity|split; [reflexivity|apply not_negative; vm_compute; reflexivity]]]]|].
  split; [exact (steady_frame 10 KFlexGrow (CNumber f1) calm_move [] calm_move f_half s tn1 _ (steady_start _ _ _ _) Hs P1)|]. split; [exact Hs|]. split; [exact P2|].
  change (t_animator (tn1 <| t_animator := a2 |>)) with a2. apply update_frame in E2 as [-> _]. subst a1. split; [vm_compute; reflexivity|]. apply fle_real; vm_compute; reflexivity.
Qed.
