(** * C81, C82: the input of an update. *)
From Coq Require Import ZArith Reals Lra Lia.
From Flocq Require Import Core.Core IEEE754.BinarySingleNaN.
From stdpp Require Import gmap.
From Verif Require Import Str F32 FloatFacts Res PropKey Json Element Tree Animation Apply Styling Events View Samples Input SpecInput SpecAnim AnimProps InputFacts MoveSamples PropAnim.
Close Scope R_scope.

(** ** C81: an input is what the application has put into it *)
(** The update sees the time of the last call of [time] (none: zero), the viewport
    of the last call of [viewport] (none: 800 x 600), and the events of the last call
    of [events] followed, in order, by those that calls of [event] have added since
    (no call of [events]: all that calls of [event] have added). *)
Theorem C81_input : forall calls,
  (forall pre d post, calls = pre ++ CallTime d :: post -> Forall (fun c => ~ sets_time c) post -> in_time (input_read (build calls)) = as_secs_f32 d) /\
  (Forall (fun c => ~ sets_time c) calls -> in_time (input_read (build calls)) = as_secs_f32 0) /\
  (forall pre w post, calls = pre ++ CallViewport w :: post -> Forall (fun c => ~ sets_viewport c) post -> in_viewport (input_read (build calls)) = w) /\
  (Forall (fun c => ~ sets_viewport c) calls -> in_viewport (input_read (build calls)) = (f32_of_Z 800, f32_of_Z 600)) /\
  (forall pre l post, calls = pre ++ CallEvents l :: post -> Forall (fun c => ~ sets_events c) post -> in_events (input_read (build calls)) = l ++ flat_map added post) /\
  (Forall (fun c => ~ sets_events c) calls -> in_events (input_read (build calls)) = flat_map added calls).
Proof.
  intros calls. unfold input_read. cbn [in_time in_viewport in_events]. split; [|split; [|split; [|split; [|split]]]].
  - intros pre d post -> H. by rewrite build_app; cbn [fold_left]; rewrite (keeps_time _ _ H).
  - intros H. unfold build. by rewrite (keeps_time _ _ H).
  - intros pre d post -> H. by rewrite build_app; cbn [fold_left]; rewrite (keeps_viewport _ _ H).
  - intros H. unfold build. by rewrite (keeps_viewport _ _ H).
  - intros pre d post -> H. by rewrite build_app; cbn [fold_left]; rewrite (keeps_events _ _ H).
  - intros H. unfold build. by rewrite (keeps_events _ _ H).
Qed.
Print Assumptions C81_input.
(** of three calls for events the first is forgotten *)
Example C81_example : in_events (input_read (build [CallEvent IUnknown; CallEvents [IChar "a"]; CallTime 5; CallEvent IUnknown])) = [IChar "a"; IUnknown].
Proof. reflexivity. Qed.

(** ** C82: the time of an update *)
(** Every [Duration] an application can pass is a time as the theorems about
    animations want it (C35 to C39, C78, C79): a finite number of seconds, not
    negative, and right to one part in four millions. *)
Theorem C82_time nanos : is_duration nanos ->
  frame_time (as_secs_f32 nanos) /\ (Rabs (B2R (as_secs_f32 nanos) - IZR nanos / IZR (10 ^ 9)) <= bpow radix2 (-22) * (IZR nanos / IZR (10 ^ 9)))%R.
Proof. intros H. split; [exact (seconds_nonneg _ H)|exact (seconds_near _ H)]. Qed.
Print Assumptions C82_time.
(** Up to 2^24 seconds (half a year) whole seconds are exact and a longer time is
    never seen as a shorter one. *)
Theorem C82_order a b : is_duration a -> (a <= b < 2 ^ 24 * 10 ^ 9)%Z -> (B2R (as_secs_f32 a) <= B2R (as_secs_f32 b))%R.
Proof. exact (seconds_mono a b). Qed.
Print Assumptions C82_order.
Theorem C82_whole s : (0 <= s < 2 ^ 24)%Z -> B2R (as_secs_f32 (s * 10 ^ 9)) = IZR s.
Proof. exact (seconds_whole s). Qed.
Print Assumptions C82_whole.
(** So, whatever the frame rate, the progress of an animation lies between 0 and 1. *)
Theorem C82_any_frame_rate fuel a ds a1 d a2 x : timed a -> a_time a = f0 -> Forall is_duration ds -> is_duration d ->
  played fuel a (map as_secs_f32 ds) a1 -> animator_update fuel (as_secs_f32 d) a1 = Ok (a2, Some x) -> is_finite x = true /\ (0 <= B2R x <= 1)%R.
Proof.
  intros Ht H0 Hds Hd. apply C35_progress_in_range; [exact Ht|exact H0| |exact (proj1 (C82_time _ Hd))]. induction Hds as [|z l Hz _ IH]; [apply List.Forall_nil|]. apply List.Forall_cons; [exact (proj1 (C82_time _ Hz))|exact IH].
Qed.
Print Assumptions C82_any_frame_rate.
(** A case: the blinking of C35 in frames of half a second and a second. *)
Example C82_meets : exists a1 a2 x, timed blink /\ a_time blink = f0 /\ Forall is_duration [500000000%Z] /\ is_duration 1000000000 /\
  played 10 blink (map as_secs_f32 [500000000%Z]) a1 /\ animator_update 10 (as_secs_f32 1000000000) a1 = Ok (a2, Some x).
Proof.
  destruct C35_meets as (_ & _ & _ & _ & _ & Ht & H0 & _).
  destruct (shown_progress 10 (as_secs_f32 500000000) blink) as (a1 & x1 & E1); [vm_compute; reflexivity|].
  pose proof E1 as U1. apply update_frame in U1 as [U1 _]. subst a1.
  destruct (shown_progress 10 (as_secs_f32 1000000000) (after_frame (as_secs_f32 500000000) blink)) as (a2 & x2 & E2); [vm_compute; reflexivity|].
  exists (after_frame (as_secs_f32 500000000) blink), a2, x2. split; [exact Ht|]. split; [exact H0|]. split; [apply List.Forall_cons; [unfold is_duration; lia|apply List.Forall_nil]|]. split; [unfold is_duration; lia|].
  split; [apply (played_frame 10 blink [] blink (as_secs_f32 500000000) _ _ (played_start _ _) E1)|exact E2].
Qed.
