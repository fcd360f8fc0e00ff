(** * Interpolated values and transitions (C37, C38). *)
From stdpp Require Import gmap.
From RecordUpdate Require Import RecordUpdate.
From Coq Require Import ZArith Reals Lia Lra.
From Flocq Require Import Core.Core IEEE754.BinarySingleNaN.
From Verif Require Import Str F32 Res ResFacts PropKey Css Element Cascade Initial Animation FloatFacts SpecCss ValueFacts AnimFloat AnimationFacts SpecAnim AnimProps FrameProps.
Close Scope R_scope.

Lemma tame_apart (a b : f32) : tame a -> tame b -> is_finite (fsub b a) = true.
Proof.
  intros [Fa Ha] [Fb Hb]. destruct (fsub_cases b a Fb Fa) as [[F _]|(_ & Hov & _)]; [exact F|exfalso].
  assert (B : (Rabs (B2R b - B2R a) <= bpow radix2 127)%R).
  { change (bpow radix2 127) with (bpow radix2 (126 + 1)). rewrite bpow_plus. change (bpow radix2 1) with 2%R. unfold Rminus. pose proof (Rabs_triang (B2R b) (- B2R a)) as T. rewrite Rabs_Ropp in T. lra. }
  pose proof (rnd_modest _ 127 B ltac:(lia)) as R. pose proof (bpow_lt radix2 127 128 ltac:(lia)). lra.
Qed.
Lemma unit_cases (t : f32) : is_finite t = true -> (0 <= B2R t <= 1)%R -> (feq t f0 = true /\ B2R t = 0%R) \/ (feq t f0 = false /\ feq t f1 = true /\ B2R t = 1%R) \/ (feq t f0 = false /\ feq t f1 = false /\ (0 < B2R t < 1)%R).
Proof.
  intros Ft Rt. destruct (f32_int 1 ltac:(lia)) as [F1 E1]. fold f1 in *. unfold feq. rewrite (Beqb_correct 24 128 t f0 Ft eq_refl), (Beqb_correct 24 128 t f1 Ft F1), E1. change (B2R f0) with 0%R.
  destruct (Req_bool_spec (B2R t) 0) as [E|E]; [left; done|right]. destruct (Req_bool_spec (B2R t) 1) as [E'|E']; [left; done|right]. repeat split; lra.
Qed.
Lemma lerp_within (a b t : f32) : tame a -> tame b -> is_finite t = true -> (0 <= B2R t < 1)%R -> within a b (lerp a b t).
Proof. intros Ha Hb Ft Rt. apply lerp_between; [apply Ha|apply Hb|exact Ft|by apply tame_apart|exact Rt]. Qed.
Lemma byte_tame z : byte z -> is_finite (f_of z) = true /\ B2R (f_of z) = IZR z /\ tame (f_of z).
Proof.
  intros Hz. unfold byte in Hz. destruct (f32_int z ltac:(lia)) as [F E]. unfold f_of, tame. rewrite E. split; [done|]. split; [done|]. split; [done|].
  apply Rle_trans with (bpow radix2 8); [|apply bpow_le; lia]. change (bpow radix2 8) with 256%R. rewrite <- abs_IZR. apply IZR_le. lia.
Qed.
Lemma channel_mono r r' z z' : (r <= r')%R -> channel r z -> channel r' z' -> (z <= z')%Z.
Proof.
  intros Hr C C'. assert (B : forall q w, channel q w -> byte w).
  { intros q w [[H ->]|[[H ->]|[H K]]]; unfold byte; [lia|lia|]. split.
    - assert (IZR (-1) < IZR w)%R as G by lra. apply lt_IZR in G. lia.
    - assert (IZR w <= IZR 255)%R as G by lra. by apply le_IZR in G. }
  pose proof (B _ _ C) as Bz. pose proof (B _ _ C') as Bz'. unfold byte in *. destruct C as [[H ->]|[[H ->]|[H K]]]; [lia| |].
  - destruct C' as [[H' ->]|[[H' ->]|[H' K']]]; [lra|lia|]. assert (IZR 254 < IZR z')%R as G by lra. apply lt_IZR in G. lia.
  - destruct C' as [[H' ->]|[[H' ->]|[H' K']]]; [|lia|].
    + assert (IZR z <= IZR 0)%R as G by lra. by apply le_IZR in G.
    + assert (IZR z < IZR (z' + 1))%R as G by (rewrite plus_IZR; lra). apply lt_IZR in G. lia.
Qed.
Lemma lerp_channel_within a b (t : f32) : byte a -> byte b -> is_finite t = true -> (0 <= B2R t < 1)%R -> channel_within a b (lerp_channel a b t).
Proof.
  intros Ha Hb Ft Rt. destruct (byte_tame a Ha) as (Fa & Ea & Ta). destruct (byte_tame b Hb) as (Fb & Eb & Tb). unfold lerp_channel. fold (lerp (f_of a) (f_of b) t).
  destruct (lerp_within _ _ t Ta Tb Ft Rt) as [Fl Rl]. rewrite Ea, Eb in Rl. unfold byte in *.
  assert (P : (0 <= B2R (lerp (f_of a) (f_of b) t))%R). { apply Rle_trans with (Rmin (IZR a) (IZR b)); [|apply Rl]. apply Rmin_glb; apply IZR_le; lia. }
  destruct (fmax_real _ f0 Fl eq_refl) as [Fm Em]. change (B2R f0) with 0%R in Em. rewrite Rmax_left in Em by exact P.
  pose proof (as_u8_channel _ Fm) as C. rewrite Em in C. set (z := f32_as_u8 _) in *. clearbody z. clear -C Rl Ha Hb.
  assert (I : forall w, (0 <= w <= 255)%Z -> channel (IZR w) w). { intros w Hw. right. right. split; [split; apply IZR_le; lia|lra]. }
  unfold channel_within. unfold Rmin, Rmax in Rl. destruct (Rle_dec (IZR a) (IZR b)) as [L|L]; destruct Rl as [R1 R2].
  - apply le_IZR in L. rewrite Z.min_l, Z.max_r by lia. split; [exact (channel_mono _ _ _ _ R1 (I a Ha) C)|exact (channel_mono _ _ _ _ R2 C (I b Hb))].
  - assert (b < a)%Z by (apply lt_IZR; lra). rewrite Z.min_r, Z.max_l by lia. split; [exact (channel_mono _ _ _ _ R1 (I b Hb) C)|exact (channel_mono _ _ _ _ R2 C (I a Ha))].
Qed.
Lemma tame_0 : tame f0. Proof. split; [done|]. change (B2R f0) with 0%R. rewrite Rabs_R0. apply bpow_ge_0. Qed.
Theorem animate_between a b (t : f32) : tame_value a -> tame_value b -> is_finite t = true -> (0 <= B2R t <= 1)%R -> between a b (animate a b t).
Proof.
  intros Ha Hb Ft Rt. unfold animate. destruct (unit_cases t Ft Rt) as [[-> _]|[(-> & -> & _)|(-> & -> & R)]]; [apply between_first|apply between_second|].
  assert (R' : (0 <= B2R t < 1)%R) by lra.
  assert (Alt : between a b (if flt t f_half then a else b)) by (destruct (flt t f_half); [apply between_first|apply between_second]).
  destruct a as [ka| |pa|ta|da|na|ca|sa|]; destruct b as [kb| |pb|tb|db|nb|cb|sb|]; try exact Alt; cbn [tame_value] in Ha, Hb.
  - eapply between_share; [reflexivity|reflexivity|reflexivity|]. by apply lerp_within; [exact tame_0|..].
  - destruct (lerp_within pa f0 t Ha tame_0 Ft R') as [Fl Rl]. destruct (feq f0 (lerp pa f0 t)) eqn:E.
    + eapply between_share; [reflexivity|reflexivity|reflexivity|]. split; [done|]. unfold feq in E. rewrite (Beqb_correct 24 128 f0 (lerp pa f0 t) eq_refl Fl) in E.
      destruct (Req_bool_spec (B2R f0) (B2R (lerp pa f0 t))) as [E'|]; [|done]. rewrite <- E' in Rl. exact Rl.
    + eapply between_share; [reflexivity|reflexivity|reflexivity|]. by split.
  - eapply between_share; [reflexivity|reflexivity|reflexivity|]. by apply lerp_within.
  - unfold lerp_dimension. destruct (bool_decide_reflect (d_unit da = d_unit db)) as [E|E].
    + destruct da as [a ua], db as [b ub]. cbn [d_unit d_value] in *. subst ub. apply between_length. by apply lerp_within.
    + destruct (flt t f_half); [apply between_first|apply between_second].
  - apply between_number. by apply lerp_within.
  - destruct ca as [[[a0 a1] a2] a3], cb as [[[b0 b1] b2] b3]. destruct Ha as (A0 & A1 & A2 & A3), Hb as (B0 & B1 & B2 & B3). cbn [lerp_color].
    apply between_colour; by apply lerp_channel_within.
Qed.
Theorem animate_ends a b (t : f32) : is_finite t = true -> (B2R t = 0%R -> animate a b t = a) /\ (B2R t = 1%R -> animate a b t = b).
Proof.
  intros Ft. unfold animate. split; intros E.
  - destruct (unit_cases t Ft ltac:(lra)) as [[-> _]|[(_ & _ & E')|(_ & _ & E')]]; [done|lra|lra].
  - destruct (unit_cases t Ft ltac:(lra)) as [[_ E']|[(-> & -> & _)|(_ & _ & E')]]; [lra|done|lra].
Qed.

(** ** Transitions *)
(** one frame of a property with a single value *)
Lemma play_single fuel time tn key from to v s : transitions tn key from to -> sets key v s ->
  transition_play fuel time tn s =
  (do! (a, x) <- animator_update fuel time (t_animator tn);
   match x with
   | None => Ok (tn <| t_animator := a |>, s)
   | Some x =>
       let current := animate from to x in
       let tn := tn <| t_animator := a |> in
       Ok (if cv_eq to v then tn else tn <| t_range := Some (current, v) |> <| t_animator ::= fun a => a <| a_time := f0 |> |>,
           if cv_eq current v then s else <[(key, 0) := current]> s)
   end).
Proof.
  intros [Hk Hr] [Hv H1]. unfold transition_play. rewrite Hk. destruct (animator_update fuel time (t_animator tn)) as [[a [x|]]| | |]; cbn [bindR]; try done.
  assert (Sz : exists n, size s = S n).
  { destruct (size s) as [|n] eqn:E; [|eauto]. apply (map_size_empty_inv (M := gmap Descriptor)) in E. exfalso. rewrite E in Hv. assert (X : (∅ : ComputedStyle) !! (key, 0) = None) by exact (lookup_empty (key, 0)). assert (Y : Some v = None) by (etransitivity; [symmetry; exact Hv|exact X]). discriminate Y. }
  destruct Sz as [n ->]. cbn [play_loop]. rewrite Hv. cbn [t_range set]. unfold set at 1. cbn [t_range]. rewrite Hr. cbv zeta.
  assert (E1 : forall w, (<[(key, 0) := w]> s : ComputedStyle) !! (key, 1) = None).
  { intros w. transitivity (s !! (key, 1)); [|exact H1]. apply (lookup_insert_ne s). congruence. }
  destruct (cv_eq (animate from to x) v); [rewrite H1|rewrite E1]; done.
Qed.
Theorem transition_starts fuel time tn key from to v s tn' s' a x : transitions tn key from to -> sets key v s -> cv_eq to v = false ->
  transition_play fuel time tn s = Ok (tn', s') -> animator_update fuel time (t_animator tn) = Ok (a, Some x) ->
  shown_value key (animate from to x) v s' /\ transitions tn' key (animate from to x) v /\ a_time (t_animator tn') = f0.
Proof.
  intros Ht Hs Hne Hp Hu. pose proof Ht as [Hk _]. rewrite (play_single _ _ _ _ _ _ _ _ Ht Hs), Hu in Hp. cbn [bindR] in Hp. cbv zeta in Hp. rewrite Hne in Hp.
  assert (E : tn <| t_animator := a |> <| t_range := Some (animate from to x, v) |> <| t_animator ::= fun a => a <| a_time := f0 |> |> = tn' /\ (if cv_eq (animate from to x) v then s else <[(key, 0) := animate from to x]> s) = s') by (split; congruence).
  destruct E as [<- <-]. split; [|split; [split; [exact Hk|reflexivity]|reflexivity]]. unfold shown_value. destruct (cv_eq (animate from to x) v) eqn:E; [right; split; [apply Hs|done]|left].
  exact (lookup_insert s (key, 0) _).
Qed.
Lemma cv_eq_refl v : tame_value v -> (forall t, v = CTime t -> is_nan t = false) -> cv_eq v v = true.
Proof.
  assert (F : forall f : f32, is_nan f = false -> feq f f = true).
  { intros f Hf. unfold feq, Beqb, SpecFloat.SFeqb. destruct f as [[]|[]| |[] m e Hb]; try done; cbn; rewrite ?Z.compare_refl, ?Pos.compare_refl; unfold Pos.compare; rewrite ?Pos.compare_cont_refl; done. }
  intros Hv Ht. destruct v as [k| |p|t|d|n|[[[r g] b] a]|s|]; cbn [cv_eq tame_value] in *; try done.
  - apply String.eqb_refl.
  - apply F. apply finite_not_nan, Hv.
  - apply F. by apply Ht.
  - rewrite F by (apply finite_not_nan, Hv). by rewrite bool_decide_eq_true_2.
  - apply F. apply finite_not_nan, Hv.
  - unfold rgba_eqb. by rewrite !Z.eqb_refl.
  - apply String.eqb_refl.
Qed.
(** while the style sheet keeps its value the transition only moves its clock *)
Lemma steady_played fuel key from v tn ts tn' : cv_eq v v = true -> steady fuel key v tn ts tn' -> transitions tn key from v ->
  transitions tn' key from v /\ played fuel (t_animator tn) ts (t_animator tn').
Proof.
  intros Hv. induction 1 as [tn|tn ts tn1 t s tn2 s2 _ IH Hs Hp]; intros Ht; [split; [done|constructor]|]. destruct (IH Ht) as [T1 P1]. pose proof T1 as [Hk Hr].
  rewrite (play_single _ _ _ _ _ _ _ _ T1 Hs) in Hp. apply bindR_Ok in Hp as ([a x] & Hu & Hp).
  assert (E : tn1 <| t_animator := a |> = tn2). { destruct x as [x|]; [cbv zeta in Hp; rewrite Hv in Hp|]; congruence. }
  subst tn2. split; [split; [exact Hk|exact Hr]|]. eapply played_frame; [exact P1|exact Hu].
Qed.
Definition smooth (a : Animator) : Prop := timed a /\ a_iterations a = AINumber f1 /\ (B2R (a_delay a) <= 0)%R /\ a_time a = f0.
Lemma smooth_progress fuel a ts a1 t a2 x : smooth a -> Forall frame_time ts -> frame_time t -> played fuel a ts a1 -> animator_update fuel t a1 = Ok (a2, x) -> exists x', x = Some x'.
Proof.
  intros (Ta & _ & Hy & Hf) Hts Ht Hp Hu. destruct (played_clock _ _ _ _ Hp (fresh_is_clock a Hf) Hts) as (C1 & S1 & _).
  apply update_frame in Hu as [-> [[-> E]|(_ & k & u & _ & ->)]]; [|eauto]. exfalso. destruct (clock_frame t a1 Ht C1) as [[N2 P2] _].
  pose proof (same_timing_trans _ _ _ S1 (after_same t a1)) as (_ & Sy & _). unfold elapsed in E. rewrite <- Sy in E. destruct Ta as (_ & _ & Fy & _).
  destruct (sub_mono f0 (a_time (after_frame t a1)) (a_delay a) Fy eq_refl N2 P2) as (N0 & N3 & M).
  apply flt_wide in E; [|done|done]. change (wide f0) with 0%R in E. destruct (sub_wide f0 (a_delay a) eq_refl Fy) as [_ W]. change (B2R f0) with 0%R in W. rewrite W in M.
  assert (0 <= cut (rnd (0 - B2R (a_delay a))))%R by (apply cut_pos; pose proof (rnd_le 0 (0 - B2R (a_delay a)) ltac:(lra)) as Q; rewrite rnd_0 in Q; exact Q). lra.
Qed.
Theorem transition_runs fuel key from v tn ts tn1 t s tn2 s2 : transitions tn key from v -> smooth (t_animator tn) -> tame_value from -> tame_value v -> cv_eq v v = true ->
  Forall frame_time ts -> frame_time t -> steady fuel key v tn ts tn1 -> sets key v s -> transition_play fuel t tn1 s = Ok (tn2, s2) ->
  exists x w, is_finite x = true /\ (0 <= B2R x <= 1)%R /\ s2 !! (key, 0) = Some w /\ shown_value key (animate from v x) v s2 /\ between from v w /\ (over (t_animator tn2) -> w = v).
Proof.
  intros Ht Hsm Hf Hv Hvv Hts Htt Hst Hs Hp. destruct (steady_played _ _ _ _ _ _ _ Hvv Hst Ht) as [T1 P1]. pose proof T1 as [Hk Hr].
  rewrite (play_single _ _ _ _ _ _ _ _ T1 Hs) in Hp. apply bindR_Ok in Hp as ([a ox] & Hu & Hp). destruct (smooth_progress _ _ _ _ _ _ _ Hsm Hts Htt P1 Hu) as [x ->].
  cbv zeta in Hp. rewrite Hvv in Hp. assert (E : tn1 <| t_animator := a |> = tn2 /\ (if cv_eq (animate from v x) v then s else <[(key, 0) := animate from v x]> s) = s2) by (split; congruence).
  destruct E as [<- <-]. destruct Hsm as (Ta & Hi & _ & Hf0). destruct (progress_in_range _ _ _ _ _ _ _ Ta Hf0 Hts Htt P1 Hu) as [Fx Rx].
  assert (B : between from v (animate from v x)) by by apply animate_between.
  assert (O : over a -> animate from v x = v).
  { intros Ho. destruct (ends_at_one _ _ _ _ _ _ _ _ Ta Hf0 (one_iteration _ Ta Hi) Hts Htt P1 Hu Ho) as [_ E1]. by apply animate_ends. }
  destruct (cv_eq (animate from v x) v) eqn:E.
  - exists x, v. split; [done|]. split; [done|]. split; [apply Hs|]. split; [right; split; [apply Hs|done]|]. split; [apply between_second|done].
  - exists x, (animate from v x). split; [done|]. split; [done|]. split; [exact (lookup_insert s (key, 0) _)|]. split; [left; exact (lookup_insert s (key, 0) _)|]. split; [done|]. exact O.
Qed.
(** the transition is over once its duration has passed *)
Lemma over_enough a : timed a -> a_iterations a = AINumber f1 -> is_finite (elapsed a) = true -> (B2R (a_duration a) <= B2R (elapsed a))%R -> over a.
Proof.
  intros (Hd & Hd0 & _) Hi Fe H. unfold over. rewrite Hi. destruct (f32_int 1 ltac:(lia)) as [F1 E1]. fold f1 in *.
  destruct (mul_real f1 (a_duration a) F1 Hd) as [F E2]; rewrite E1, Rmult_1_l, rnd_id in *; [apply abs_B2R_lt_emax|]. split; [done|]. split; [done|]. by rewrite E2.
Qed.
Theorem transition_reaches fuel key from v tn ts tn1 t s tn2 s2 : transitions tn key from v -> timed (t_animator tn) -> a_iterations (t_animator tn) = AINumber f1 ->
  (B2R (a_delay (t_animator tn)) <= 0)%R -> a_time (t_animator tn) = f0 -> tame_value from -> tame_value v -> cv_eq v v = true ->
  Forall frame_time ts -> frame_time t -> steady fuel key v tn ts tn1 -> sets key v s -> transition_play fuel t tn1 s = Ok (tn2, s2) ->
  exists x w, is_finite x = true /\ (0 <= B2R x <= 1)%R /\ s2 !! (key, 0) = Some w /\ shown_value key (animate from v x) v s2 /\ between from v w /\
  (is_finite (elapsed (t_animator tn2)) = true -> (B2R (a_duration (t_animator tn)) <= B2R (elapsed (t_animator tn2)))%R -> w = v).
Proof.
  intros Ht Ta Hi Hy H0 Hf Hv Hvv Hts Htt Hst Hs Hp. destruct (transition_runs _ _ _ _ _ _ _ _ _ _ _ Ht (conj Ta (conj Hi (conj Hy H0))) Hf Hv Hvv Hts Htt Hst Hs Hp) as (x & w & Fx & Rx & Ew & Sw & Bw & Ow).
  exists x, w. repeat (split; [assumption|]). intros Fe He. apply Ow.
  assert (S : same_timing (t_animator tn) (t_animator tn2)).
  { assert (St2 : steady fuel key v tn (ts ++ [t]) tn2) by (eapply steady_frame; eassumption). destruct (steady_played _ _ _ _ _ _ _ Hvv St2 Ht) as [_ P2].
    apply (played_clock _ _ _ _ P2 (fresh_is_clock _ H0)). apply list.Forall_app. split; [done|]. by constructor. }
  pose proof (same_timing_timed _ _ S Ta) as T2. destruct S as (Sd & _ & Si & _). apply over_enough; [exact T2|congruence|exact Fe|]. rewrite <- Sd. exact He.
Qed.
Theorem colours_between r g b al r' g' b' al' (t : f32) : byte r -> byte g -> byte b -> byte al -> byte r' -> byte g' -> byte b' -> byte al' ->
  is_finite t = true -> (0 <= B2R t <= 1)%R ->
  exists x y z w, animate (CColor (r, g, b, al)) (CColor (r', g', b', al')) t = CColor (x, y, z, w) /\
  channel_within r r' x /\ channel_within g g' y /\ channel_within b b' z /\ channel_within al al' w.
Proof.
  intros. unfold animate, lerp_color. destruct (unit_cases t) as [[-> _]|[(-> & -> & _)|(-> & -> & R)]]; try assumption.
  - eexists _, _, _, _. split; [reflexivity|]. unfold channel_within. lia.
  - eexists _, _, _, _. split; [reflexivity|]. unfold channel_within. lia.
  - eexists _, _, _, _. split; [reflexivity|]. assert ((0 <= B2R t < 1)%R) by lra. repeat split; apply lerp_channel_within; assumption.
Qed.
(** the float operations of [lerp], rounded one by one *)
Lemma lerp_real (a b t : f32) : tame a -> tame b -> is_finite t = true -> (0 <= B2R t < 1)%R -> is_finite (lerp a b t) = true /\ B2R (lerp a b t) = rnd (B2R a + rnd (rnd (B2R b - B2R a) * B2R t)).
Proof.
  intros Ta Tb Ft Rt. destruct (lerp_within a b t Ta Tb Ft Rt) as [Fl _]. split; [exact Fl|]. pose proof (tame_apart a b Ta Tb) as Fs. destruct Ta as [Fa _], Tb as [Fb _].
  pose proof (sub_finite b a Fb Fa Fs) as Es.
  assert (HP : (Rabs (rnd (B2R (fsub b a) * B2R t)) <= Rabs (B2R (fsub b a)))%R).
  { rewrite <- (rnd_id (fsub b a)) at 2. rewrite <- !(round_NE_abs radix2 fexp). apply rnd_le. rewrite Rabs_mult, (Rabs_pos_eq (B2R t)) by lra. pose proof (Rabs_pos (B2R (fsub b a))). nra. }
  destruct (mul_real (fsub b a) t Fs Ft (below_max _ _ HP)) as [Fm Em]. rewrite Es in Em. unfold lerp in *.
  destruct (fadd_cases a (fmul (fsub b a) t) Fa Fm) as [[_ E]|[E _]]; [by rewrite E, Em|]. rewrite E in Fl. discriminate Fl.
Qed.
Lemma lerp_forward (a b t t' : f32) : tame a -> tame b -> is_finite t = true -> is_finite t' = true -> (0 <= B2R t <= B2R t')%R -> (B2R t' < 1)%R ->
  ((B2R a <= B2R b)%R -> (B2R (lerp a b t) <= B2R (lerp a b t'))%R) /\ ((B2R b <= B2R a)%R -> (B2R (lerp a b t') <= B2R (lerp a b t))%R).
Proof.
  intros Ta Tb Ft Ft' Ht Ht'. destruct (lerp_real a b t Ta Tb Ft ltac:(lra)) as [_ ->]. destruct (lerp_real a b t' Ta Tb Ft' ltac:(lra)) as [_ ->].
  split; intros H; apply rnd_le; apply Rplus_le_compat_l; apply rnd_le.
  - assert (0 <= rnd (B2R b - B2R a))%R by (rewrite <- rnd_0; apply rnd_le; lra). nra.
  - assert (rnd (B2R b - B2R a) <= 0)%R by (rewrite <- rnd_0; apply rnd_le; lra). nra.
Qed.
Theorem animate_follows (a b t : f32) : tame a -> tame b -> is_finite t = true -> (0 < B2R t < 1)%R ->
  exists x, animate (CNumber a) (CNumber b) t = CNumber x /\ animate (CPercentage a) (CPercentage b) t = CPercentage x /\
  (forall u, animate (CDimension (mkDim a u)) (CDimension (mkDim b u)) t = CDimension (mkDim x u)) /\ is_finite x = true /\
  B2R x = rnd32 (B2R a + rnd32 (rnd32 (B2R b - B2R a) * B2R t)).
Proof.
  intros Ta Tb Ft Rt. exists (lerp a b t). destruct (unit_cases t Ft ltac:(lra)) as [[_ E]|[(_ & _ & E)|(E0 & E1 & _)]]; [lra|lra|]. unfold animate. rewrite E0, E1.
  split; [done|]. split; [done|]. split; [intros u; unfold lerp_dimension; cbn [d_unit d_value]; by rewrite bool_decide_eq_true_2|]. apply lerp_real; [done|done|done|lra].
Qed.
Theorem animate_forward (a b t t' : f32) : tame a -> tame b -> is_finite t = true -> is_finite t' = true -> (0 <= B2R t <= B2R t')%R -> (B2R t' <= 1)%R ->
  exists x x', animate (CNumber a) (CNumber b) t = CNumber x /\ animate (CNumber a) (CNumber b) t' = CNumber x' /\
  ((B2R a <= B2R b)%R -> (B2R x <= B2R x')%R) /\ ((B2R b <= B2R a)%R -> (B2R x' <= B2R x)%R).
Proof.
  intros Ta Tb Ft Ft' Ht Ht'. unfold animate. destruct (unit_cases t' Ft' ltac:(lra)) as [[-> E']|[(-> & -> & E')|(-> & -> & R')]].
  - destruct (unit_cases t Ft ltac:(lra)) as [[-> E]|[(_ & _ & E)|(_ & _ & E)]]; [|lra|lra]. exists a, a. repeat split; lra.
  - destruct (unit_cases t Ft ltac:(lra)) as [[-> E]|[(-> & -> & E)|(-> & -> & R)]].
    + exists a, b. repeat split; lra.
    + exists b, b. repeat split; lra.
    + exists (lerp a b t), b. split; [done|]. split; [done|]. destruct (lerp_within a b t Ta Tb Ft ltac:(lra)) as [_ [L1 L2]]. unfold Rmin, Rmax in *. repeat destruct (Rle_dec _ _); split; intros; lra.
  - destruct (unit_cases t Ft ltac:(lra)) as [[-> E]|[(_ & _ & E)|(-> & -> & R)]]; [|lra|].
    + exists a, (lerp a b t'). split; [done|]. split; [done|]. destruct (lerp_within a b t' Ta Tb Ft' ltac:(lra)) as [_ [L1 L2]]. unfold Rmin, Rmax in *. repeat destruct (Rle_dec _ _); split; intros; lra.
    + exists (lerp a b t), (lerp a b t'). split; [done|]. split; [done|]. apply lerp_forward; try done; lra.
Qed.
Theorem channels_forward a b (t t' : f32) : byte a -> byte b -> is_finite t = true -> is_finite t' = true -> (0 <= B2R t <= B2R t')%R -> (B2R t' < 1)%R ->
  ((a <= b)%Z -> (lerp_channel a b t <= lerp_channel a b t')%Z) /\ ((b <= a)%Z -> (lerp_channel a b t' <= lerp_channel a b t)%Z).
Proof.
  intros Ha Hb Ft Ft' Ht Ht'. destruct (byte_tame a Ha) as (Fa & Ea & Ta). destruct (byte_tame b Hb) as (Fb & Eb & Tb).
  destruct (lerp_forward (f_of a) (f_of b) t t' Ta Tb Ft Ft' Ht Ht') as [U D]. rewrite Ea, Eb in U, D.
  assert (C : forall s : f32, is_finite s = true -> (0 <= B2R s < 1)%R -> channel (Rmax (B2R (lerp (f_of a) (f_of b) s)) 0) (lerp_channel a b s)).
  { intros s Fs Rs. unfold lerp_channel. fold (lerp (f_of a) (f_of b) s). destruct (lerp_within _ _ s Ta Tb Fs Rs) as [Fl _]. destruct (fmax_real _ f0 Fl eq_refl) as [Fm Em].
    change (B2R f0) with 0%R in Em. rewrite <- Em. by apply as_u8_channel. }
  pose proof (C t Ft ltac:(lra)) as C1. pose proof (C t' Ft' ltac:(lra)) as C2. split; intros H; apply IZR_le in H.
  - eapply channel_mono; [|exact C1|exact C2]. apply Rle_max_compat_r. by apply U.
  - eapply channel_mono; [|exact C2|exact C1]. apply Rle_max_compat_r. by apply D.
Qed.
Theorem zero_jumps (u : Units) (b t : f32) : is_finite t = true -> (0 < B2R t < 1)%R ->
  animate CZero (CDimension (mkDim b u)) t = CZero \/ animate CZero (CDimension (mkDim b u)) t = CDimension (mkDim b u).
Proof.
  intros Ft Rt. unfold animate. destruct (unit_cases t Ft ltac:(lra)) as [[_ E]|[(_ & _ & E)|(E0 & E1 & _)]]; [lra|lra|]. rewrite E0, E1. destruct (flt t f_half); auto.
Qed.
