(** * Progress of animations (C35). *)
From stdpp Require Import gmap.
From RecordUpdate Require Import RecordUpdate.
From Coq Require Import ZArith Reals Lia Lra.
From Flocq Require Import Core.Core IEEE754.BinarySingleNaN.
From Verif Require Import Str F32 Res ResFacts PropKey Css Element Animation FloatFacts AnimFloat SpecAnim.
Close Scope R_scope.

(** ** Floats with infinities on the real line *)
Definition top : R := bpow radix2 128.
Definition wide (f : f32) : R := match f with B754_infinity s => if s then (- top)%R else top | _ => B2R f end.
Lemma top_pos : (0 < top)%R. Proof. apply bpow_gt_0. Qed.
Lemma wide_finite (f : f32) : is_finite f = true -> wide f = B2R f. Proof. by destruct f. Qed.
Lemma finite_top (f : f32) : is_finite f = true -> (- top < B2R f < top)%R.
Proof. intros _. apply Rabs_lt_inv. apply abs_B2R_lt_emax. Qed.
Lemma wide_cases (f : f32) : is_nan f = false -> (is_finite f = true /\ wide f = B2R f) \/ (f = B754_infinity true) \/ (f = B754_infinity false).
Proof. destruct f as [s|s| |s m e H]; intros Hn; try discriminate Hn; [left|destruct s; right; [left|right]|left]; done. Qed.
Lemma finite_not_nan (f : f32) : is_finite (f : f32) = true -> is_nan f = false. Proof. by destruct f. Qed.
Lemma flt_wide (a b : f32) : is_nan a = false -> is_nan b = false -> flt a b = true <-> (wide a < wide b)%R.
Proof.
  intros Ha Hb. pose proof top_pos. destruct (wide_cases a Ha) as [[Fa Wa]|[->| ->]]; destruct (wide_cases b Hb) as [[Fb Wb]|[->| ->]].
  - rewrite Wa, Wb. by apply flt_real.
  - rewrite Wa. pose proof (finite_top a Fa). cbn [wide]. split; intros K; [|lra]. by destruct a as [[]|[]| |[]].
  - rewrite Wa. pose proof (finite_top a Fa). cbn [wide]. split; intros K; [lra|]. by destruct a as [[]|[]| |[]].
  - rewrite Wb. pose proof (finite_top b Fb). cbn [wide]. split; intros K; [lra|]. by destruct b as [[]|[]| |[]].
  - cbn [wide]. split; intros K; [discriminate K|lra].
  - cbn [wide]. split; intros K; [lra|reflexivity].
  - rewrite Wb. pose proof (finite_top b Fb). cbn [wide]. split; intros K; [|lra]. by destruct b as [[]|[]| |[]].
  - cbn [wide]. split; intros K; [discriminate K|lra].
  - cbn [wide]. split; intros K; [discriminate K|lra].
Qed.
Lemma flt_wide_false (a b : f32) : is_nan a = false -> is_nan b = false -> flt a b = false <-> (wide b <= wide a)%R.
Proof.
  intros Ha Hb. pose proof (flt_wide a b Ha Hb) as H. destruct (flt a b); split; intros K; try done.
  - assert (wide a < wide b)%R by (by apply H). lra.
  - destruct (Rle_or_lt (wide b) (wide a)) as [L|L]; [exact L|]. apply H in L. discriminate L.
Qed.
Lemma fmin_wide (a b : f32) : is_nan a = false -> is_nan b = false -> is_nan (fmin a b) = false /\ wide (fmin a b) = Rmin (wide a) (wide b).
Proof.
  intros Ha Hb. unfold fmin. rewrite Ha, Hb. destruct (flt b a) eqn:E.
  - apply flt_wide in E; [|done|done]. rewrite Rmin_right by lra. done.
  - apply flt_wide_false in E; [|done|done]. rewrite Rmin_left by lra. done.
Qed.
Definition cut (r : R) : R := if Rle_dec top r then top else if Rle_dec r (- top) then (- top)%R else r.
Lemma cut_mono r r' : (r <= r')%R -> (cut r <= cut r')%R.
Proof. intros H. pose proof top_pos. unfold cut. repeat destruct (Rle_dec _ _); lra. Qed.
Lemma cut_in r : (- top < r < top)%R -> cut r = r.
Proof. intros H. unfold cut. repeat destruct (Rle_dec _ _); lra. Qed.
Lemma cut_pos r : (0 <= r)%R -> (0 <= cut r)%R.
Proof. intros H. pose proof top_pos. unfold cut. repeat destruct (Rle_dec _ _); lra. Qed.
Lemma sub_wide (x a : f32) : is_finite x = true -> is_finite a = true -> is_nan (fsub x a) = false /\ wide (fsub x a) = cut (rnd (B2R x - B2R a)).
Proof.
  intros Hx Ha. destruct (fsub_cases x a Hx Ha) as [[Hf E]|(E & Hov & Hs)].
  - split; [by apply finite_not_nan|]. rewrite (wide_finite _ Hf), E. symmetry. apply cut_in. rewrite <- E. by apply finite_top.
  - rewrite E. split; [done|]. pose proof top_pos. unfold top in *. cbn [wide]. unfold top. destruct (Bsign x) eqn:Sx; destruct (Bsign a) eqn:Sa; try discriminate Hs.
    + pose proof (sign_neg x Sx). pose proof (sign_pos a Sa). assert (rnd (B2R x - B2R a) <= 0)%R by (rewrite <- rnd_0; apply rnd_le; lra).
      rewrite Rabs_left1 in Hov by lra. unfold cut, top. repeat destruct (Rle_dec _ _); lra.
    + pose proof (sign_pos x Sx). pose proof (sign_neg a Sa). assert (0 <= rnd (B2R x - B2R a))%R by (rewrite <- rnd_0; apply rnd_le; lra).
      rewrite Rabs_pos_eq in Hov by lra. unfold cut, top. repeat destruct (Rle_dec _ _); lra.
Qed.
Lemma inf_sub s (a : f32) : is_finite a = true -> fsub (B754_infinity s) a = B754_infinity s.
Proof. by destruct a, s. Qed.
(** taking a finite time off keeps the order *)
Lemma sub_mono (x y a : f32) : is_finite a = true -> is_nan x = false -> is_nan y = false -> (wide x <= wide y)%R ->
  is_nan (fsub x a) = false /\ is_nan (fsub y a) = false /\ (wide (fsub x a) <= wide (fsub y a))%R.
Proof.
  intros Ha Hx Hy H. pose proof top_pos as Tp.
  assert (W : forall z, is_nan z = false -> is_nan (fsub z a) = false /\ (is_finite z = true /\ wide (fsub z a) = cut (rnd (B2R z - B2R a)) \/ (z = B754_infinity true \/ z = B754_infinity false) /\ wide (fsub z a) = wide z)).
  { intros z Hz. destruct (wide_cases z Hz) as [[F _]|[->| ->]]; [destruct (sub_wide z a F Ha) as [N E]; auto| |];
      rewrite inf_sub by done; auto. }
  destruct (W x Hx) as [Nx Ex]. destruct (W y Hy) as [Ny Ey]. split; [exact Nx|]. split; [exact Ny|]. clear W.
  assert (B : forall r, (- top <= cut r <= top)%R) by (intros r; unfold cut; repeat destruct (Rle_dec _ _); lra).
  destruct Ex as [[Fx ->]|[Ix ->]]; destruct Ey as [[Fy ->]|[Iy ->]].
  - apply cut_mono, rnd_le. rewrite (wide_finite x Fx), (wide_finite y Fy) in H. lra.
  - destruct Iy as [-> | ->]; [|apply B]. rewrite (wide_finite x Fx) in H. pose proof (finite_top x Fx). cbn [wide] in H. lra.
  - destruct Ix as [-> | ->]; [apply B|]. rewrite (wide_finite y Fy) in H. pose proof (finite_top y Fy). cbn [wide] in H. lra.
  - exact H.
Qed.
Lemma add_grows (x t : f32) : frame_time t -> is_nan x = false -> (0 <= wide x)%R -> is_nan (fadd x t) = false /\ (wide x <= wide (fadd x t))%R.
Proof.
  intros [Ht H0] Hx Hp. destruct (wide_cases x Hx) as [[Fx Wx]|[->| ->]].
  - rewrite Wx in *. destruct (fadd_cases x t Fx Ht) as [[Hf E]|(E & Hov & Hs)].
    + split; [by apply finite_not_nan|]. rewrite (wide_finite _ Hf), E. apply rnd_ge_fmt; [apply fmt|lra].
    + rewrite E. split; [done|]. pose proof (finite_top x Fx). cbn [wide]. destruct (Bsign x) eqn:S; [|lra]. exfalso.
      pose proof (sign_neg x S). symmetry in Hs. pose proof (sign_neg t Hs). assert (B2R x + B2R t = 0)%R as R0 by lra. rewrite R0, rnd_0, Rabs_R0 in Hov. pose proof (bpow_gt_0 radix2 128). lra.
  - pose proof top_pos. cbn [wide] in Hp. lra.
  - destruct t; try discriminate Ht; cbn; split; try done; lra.
Qed.

(** ** Laps *)
Section laps.
  Context (d : f32) (Hd : is_finite d = true) (Hd0 : (0 < B2R d)%R).
  Lemma fgt_wide (t : f32) : is_nan t = false -> fgt t d = true <-> (B2R d < wide t)%R.
  Proof. intros Hn. unfold fgt. change (Bltb d t) with (flt d t). rewrite (flt_wide d t (finite_not_nan d Hd) Hn), (wide_finite d Hd). done. Qed.
  Lemma wrap_laps fuel t u : wrap_time fuel d t = Ok u -> exists k, k <= fuel /\ laps d t k u.
  Proof.
    revert t. induction fuel as [|fuel IH]; intros t; cbn [wrap_time]; destruct (fgt t d) eqn:E.
    - discriminate 1.
    - intros [= <-]. exists 0. split; [lia|by constructor].
    - intros H. apply IH in H as (k & Hk & H). exists (S k). split; [lia|by constructor].
    - intros [= <-]. exists 0. split; [lia|by constructor].
  Qed.
  Lemma laps_wrap fuel t k u : laps d t k u -> k <= fuel -> wrap_time fuel d t = Ok u.
  Proof.
    intros H. revert fuel. induction H as [t E|t k u E _ IH]; intros fuel Hk; destruct fuel as [|fuel]; cbn [wrap_time]; rewrite E; try reflexivity; [lia|].
    apply IH. lia.
  Qed.
  Lemma lap_keeps (t : f32) : is_nan t = false -> (B2R d < wide t)%R -> is_nan (fsub t d) = false /\ (0 <= wide (fsub t d))%R.
  Proof.
    intros Hn H. destruct (wide_cases t Hn) as [[F W]|[->| ->]].
    - rewrite W in H. destruct (lap_less d t Hd Hd0 F H) as (F' & _ & B). split; [by apply finite_not_nan|]. rewrite (wide_finite _ F'). lra.
    - pose proof top_pos. cbn [wide] in H. lra.
    - rewrite inf_sub by done. split; [done|]. pose proof top_pos. cbn [wide]. lra.
  Qed.
  Lemma laps_range (t : f32) k (u : f32) : laps d t k u -> is_nan t = false -> (0 <= wide t)%R -> is_finite u = true /\ (0 <= B2R u <= B2R d)%R.
  Proof.
    induction 1 as [t E|t k u E _ IH]; intros Hn H0.
    - assert (L : (wide t <= B2R d)%R). { destruct (Rle_or_lt (wide t) (B2R d)) as [L|L]; [exact L|]. apply fgt_wide in L; [congruence|done]. }
      pose proof (finite_top d Hd) as T. destruct (wide_cases t Hn) as [[F W]|[->| ->]].
      + rewrite W in *. split; [done|lra].
      + pose proof top_pos. cbn [wide] in H0. lra.
      + cbn [wide] in L. lra.
    - apply fgt_wide in E; [|done]. destruct (lap_keeps t Hn E) as [N' P']. by apply IH.
  Qed.
  Lemma laps_mono (t : f32) k (u : f32) : laps d t k u -> forall t' k' u', laps d t' k' u' -> is_nan t = false -> is_nan t' = false -> (0 <= wide t <= wide t')%R ->
    k <= k' /\ (k = k' -> (B2R u <= B2R u')%R).
  Proof.
    induction 1 as [t E|t k u E Hl IH]; intros t' k' u' Hl' Hn Hn' [H0 H].
    - split; [lia|]. intros <-. inversion Hl'; subst. pose proof (laps_range _ _ _ (laps_last d t E) Hn H0) as [F _].
      pose proof (laps_range _ _ _ Hl' Hn' ltac:(lra)) as [F' _]. rewrite (wide_finite _ F), (wide_finite _ F') in H. exact H.
    - apply fgt_wide in E; [|done]. assert (E' : fgt t' d = true) by (apply fgt_wide; [done|lra]).
      inversion Hl' as [? E2|? k2 ? _ Hl2]; subst; [congruence|]. destruct (lap_keeps t Hn E) as [N1 P1].
      destruct (sub_mono t t' d Hd Hn Hn' H) as (_ & N2 & M). destruct (IH _ _ _ Hl2 N1 N2 (conj P1 M)) as [K1 K2]. split; [lia|]. intros [= ->]. by apply K2.
  Qed.
  Lemma laps_fun t k u k' u' : laps d t k u -> laps d t k' u' -> k = k' /\ u = u'.
  Proof.
    intros H. revert k' u'. induction H as [t E|t k u E Hl IH]; intros k' u' Hl'; inversion Hl'; subst; try congruence; [done|].
    destruct (IH _ _ ltac:(eassumption)) as [-> ->]. done.
  Qed.
  (** whole multiples of the duration end on the duration *)
  Lemma laps_even n : 0 < n -> (forall i, i <= n -> is_f32 (INR i * B2R d)) -> forall t : f32, is_finite t = true -> B2R t = (INR n * B2R d)%R ->
    exists u, laps d t (pred n) u /\ is_finite u = true /\ B2R u = B2R d.
  Proof.
    induction n as [|n IH]; intros Hn Hf t Ft Et; [lia|]. destruct n as [|n].
    - exists t. cbn [INR] in Et. rewrite Rmult_1_l in Et. split; [|done]. apply laps_last. destruct (fgt t d) eqn:E; [|done].
      apply fgt_wide in E; [|by apply finite_not_nan]. rewrite (wide_finite t Ft) in E. lra.
    - assert (Hlt : (B2R d < B2R t)%R). { rewrite Et. rewrite S_INR. assert (0 < INR (S n))%R by (apply lt_0_INR; lia). nra. }
      destruct (lap_less d t Hd Hd0 Ft Hlt) as (Fs & Es & _).
      destruct (Hf (S n) ltac:(lia)) as (g & Fg & Eg).
      assert (Es' : B2R (fsub t d) = (INR (S n) * B2R d)%R).
      { rewrite Es, Et. replace (INR (S (S n)) * B2R d - B2R d)%R with (INR (S n) * B2R d)%R by (rewrite (S_INR (S n)); ring). rewrite <- Eg. apply rnd_id. }
      destruct (IH ltac:(lia) ltac:(intros i Hi; apply Hf; lia) _ Fs Es') as (u & L & R). exists u. split; [|exact R]. cbn [pred]. constructor; [|exact L].
      apply fgt_wide; [by apply finite_not_nan|]. by rewrite (wide_finite t Ft).
  Qed.
End laps.

(** ** Histories of an animator *)
Definition same_timing (a b : Animator) : Prop :=
  a_duration a = a_duration b /\ a_delay a = a_delay b /\ a_iterations a = a_iterations b /\ a_running a = a_running b.
Lemma same_timing_trans a b c : same_timing a b -> same_timing b c -> same_timing a c.
Proof. unfold same_timing. intros (-> & -> & -> & ->). exact (fun H => H). Qed.
Lemma same_timing_timed a b : same_timing a b -> timed a -> timed b.
Proof. unfold same_timing, timed. intros (-> & -> & -> & _). exact (fun H => H). Qed.
Definition after_frame (t : f32) (a : Animator) : Animator := if a_running a && fgt (a_duration a) f0 then a <| a_time := fadd (a_time a) t |> else a.
Lemma after_same t a : same_timing a (after_frame t a).
Proof. unfold after_frame. by destruct (_ && _). Qed.
(** one frame: the time moves on, and the rest follows from it *)
Lemma update_frame fuel t a a' x : animator_update fuel t a = Ok (a', x) -> a' = after_frame t a /\
  (x = None /\ flt (elapsed a') f0 = true \/
   flt (elapsed a') f0 = false /\ exists k u, laps (a_duration a) (active_time a') k u /\ x = Some (fdiv u (a_duration a))).
Proof.
  unfold animator_update. fold (after_frame t a). cbv zeta. fold (elapsed (after_frame t a)). destruct (flt (elapsed (after_frame t a)) f0) eqn:E.
  - intros H. assert (E2 : (after_frame t a, None) = (a', x)) by congruence. injection E2 as <- <-. split; [done|]. by left.
  - pose proof (after_same t a) as (Sd & _ & _ & _). rewrite <- Sd. intros H. apply bindR_Ok in H as (u & Hu & H).
    assert (E2 : (after_frame t a, Some (fdiv u (a_duration a))) = (a', x)) by congruence. injection E2 as <- <-. split; [done|]. right. split; [exact E|].
    rewrite Sd in Hu. change (match a_iterations (after_frame t a) with AINumber n => _ | AIInfinite => _ end) with (active_time (after_frame t a)) in Hu. rewrite <- Sd in Hu.
    apply wrap_laps in Hu as (k & _ & Hl). exists k, u. split; [exact Hl|done].
Qed.
Definition clock (a : Animator) : Prop := is_nan (a_time a) = false /\ (0 <= wide (a_time a))%R.
Lemma clock_frame t a : frame_time t -> clock a -> clock (after_frame t a) /\ (wide (a_time a) <= wide (a_time (after_frame t a)))%R.
Proof.
  intros Ht [Hn H0]. unfold after_frame, clock. destruct (_ && _); cbn [a_time set]; [|split; [done|lra]].
  destruct (add_grows _ _ Ht Hn H0) as [N G]. unfold set. cbn [a_time]. repeat split; [exact N|lra|exact G].
Qed.
Lemma played_clock fuel a ts a' : played fuel a ts a' -> clock a -> Forall frame_time ts -> clock a' /\ same_timing a a' /\ (wide (a_time a) <= wide (a_time a'))%R.
Proof.
  induction 1 as [a|a ts a1 t a2 x _ IH Hu]; intros Hc Hts.
  - split; [done|]. split; [done|lra].
  - apply list.Forall_app in Hts as [Hts Ht]. apply list.Forall_cons in Ht as [Ht _]. destruct (IH Hc Hts) as (C1 & S1 & L1).
    apply update_frame in Hu as [-> _]. destruct (clock_frame t a1 Ht C1) as [C2 L2]. split; [exact C2|]. split; [exact (same_timing_trans _ _ _ S1 (after_same t a1))|lra].
Qed.
Lemma mul_wide (n d : f32) : is_finite n = true -> (0 <= B2R n)%R -> is_finite d = true -> (0 < B2R d)%R -> is_nan (fmul n d) = false /\ (0 <= wide (fmul n d))%R.
Proof.
  intros Hn Hn0 Hd Hd0. pose proof top_pos as Tp. assert (P : (0 <= rnd (B2R n * B2R d))%R) by (rewrite <- rnd_0; apply rnd_le; nra).
  destruct (Rlt_or_le (Rabs (rnd (B2R n * B2R d))) (bpow radix2 128)) as [H|H].
  - destruct (mul_real n d Hn Hd H) as [F E]. split; [by apply finite_not_nan|]. rewrite (wide_finite _ F), E. exact P.
  - pose proof (Bmult_correct 24 128 f32_prec f32_emax mode_NE n d) as Hm. cbn [round_mode] in Hm. rewrite Rlt_bool_false in Hm by exact H.
    assert (Sd : Bsign d = false) by (destruct (Bsign d) eqn:S; [apply sign_neg in S; lra|done]).
    assert (Sn : Bsign n = false).
    { destruct (Bsign n) eqn:S; [|done]. apply sign_neg in S. assert (B2R n = 0)%R as R0 by lra. rewrite R0, Rmult_0_l, rnd_0, Rabs_R0 in H. pose proof (bpow_gt_0 radix2 128). lra. }
    rewrite Sn, Sd in Hm. unfold fmul. cbn in Hm. destruct (Bmult mode_NE n d) as [s|s| |s m e Hb]; cbn in Hm; try discriminate Hm. injection Hm as ->. split; [done|]. cbn [wide]. lra.
Qed.
(** the active time is a time, and does not run backward *)
Lemma active_range a : timed a -> clock a -> flt (elapsed a) f0 = false -> is_nan (active_time a) = false /\ (0 <= wide (active_time a))%R.
Proof.
  intros (Hd & Hd0 & Hy & Hi) [Hn H0] E. destruct (sub_mono (a_time a) (a_time a) (a_delay a) Hy Hn Hn ltac:(lra)) as (N & _ & _). fold (elapsed a) in N.
  apply flt_wide_false in E; [|done|done]. change (wide f0) with 0%R in E. unfold active_time. destruct (a_iterations a) as [n|]; [|done].
  destruct Hi as [Fn Pn]. destruct (mul_wide n (a_duration a) Fn Pn Hd Hd0) as [Nm Pm]. destruct (fmin_wide _ _ N Nm) as [N' W]. split; [exact N'|]. rewrite W.
  by apply Rmin_glb.
Qed.
Lemma active_mono a b : timed a -> same_timing a b -> clock a -> clock b -> (wide (a_time a) <= wide (a_time b))%R ->
  (wide (active_time a) <= wide (active_time b))%R /\ (wide (elapsed a) <= wide (elapsed b))%R.
Proof.
  intros (Hd & Hd0 & Hy & Hi) (Sd & Sy & Si & _) [Na _] [Nb _] H. destruct (sub_mono (a_time a) (a_time b) (a_delay a) Hy Na Nb H) as (N1 & N2 & M).
  unfold active_time, elapsed. rewrite <- Si, <- Sd, <- Sy. split; [|exact M]. destruct (a_iterations a) as [n|]; [|done]. destruct Hi as [Fn Pn].
  destruct (mul_wide n (a_duration a) Fn Pn Hd Hd0) as [Nm _]. destruct (fmin_wide _ _ N1 Nm) as [_ ->]. destruct (fmin_wide _ _ N2 Nm) as [_ ->]. apply Rle_min_compat_r. exact M.
Qed.

(** ** The claims *)
Definition fresh_clock (a : Animator) : Prop := a_time a = f0.
Lemma fresh_is_clock a : fresh_clock a -> clock a.
Proof. unfold fresh_clock, clock. intros ->. split; [done|]. cbn. lra. Qed.
Lemma frame_facts fuel a ts a1 t a2 x : timed a -> fresh_clock a -> Forall frame_time ts -> frame_time t -> played fuel a ts a1 ->
  animator_update fuel t a1 = Ok (a2, Some x) ->
  timed a2 /\ clock a2 /\ same_timing a a2 /\ exists k u, laps (a_duration a) (active_time a2) k u /\ x = fdiv u (a_duration a) /\
  is_finite u = true /\ (0 <= B2R u <= B2R (a_duration a))%R /\ is_nan (active_time a2) = false /\ (0 <= wide (active_time a2))%R.
Proof.
  intros Ta Hf Hts Ht Hp Hu. destruct (played_clock _ _ _ _ Hp (fresh_is_clock a Hf) Hts) as (C1 & S1 & _).
  apply update_frame in Hu as [-> [[Hx _]|(E & k & u & Hl & Hx)]]; [discriminate Hx|]. injection Hx as ->.
  destruct (clock_frame t a1 Ht C1) as [C2 _]. pose proof (same_timing_trans _ _ _ S1 (after_same t a1)) as S2. pose proof (same_timing_timed _ _ S2 Ta) as T2.
  destruct S1 as (Sd & S1). rewrite <- Sd in *. split; [exact T2|]. split; [exact C2|]. split; [exact S2|]. exists k, u. split; [exact Hl|]. split; [done|].
  destruct (active_range _ T2 C2 E) as [N P]. destruct Ta as (Hd & Hd0 & _). destruct (laps_range _ Hd Hd0 _ _ _ Hl N P) as [Fu Ru]. done.
Qed.
Theorem progress_in_range fuel a ts a1 t a2 x : timed a -> a_time a = f0 -> Forall frame_time ts -> frame_time t -> played fuel a ts a1 ->
  animator_update fuel t a1 = Ok (a2, Some x) -> is_finite x = true /\ (0 <= B2R x <= 1)%R.
Proof.
  intros Ta Hf Hts Ht Hp Hu. destruct (frame_facts _ _ _ _ _ _ _ Ta Hf Hts Ht Hp Hu) as (_ & _ & _ & k & u & _ & -> & Fu & Ru & _).
  destruct Ta as (Hd & Hd0 & _). destruct (ratio_range u (a_duration a) Fu Ru Hd0) as (F & _ & B). done.
Qed.
Theorem never_decreases fuel a ts a1 t a2 x ts' a3 t' a4 x' : timed a -> a_time a = f0 -> Forall frame_time ts -> frame_time t ->
  Forall frame_time ts' -> frame_time t' -> played fuel a ts a1 -> animator_update fuel t a1 = Ok (a2, Some x) ->
  played fuel a2 ts' a3 -> animator_update fuel t' a3 = Ok (a4, Some x') ->
  exists k k', iteration a2 k /\ iteration a4 k' /\ k <= k' /\ (k = k' -> (B2R x <= B2R x')%R).
Proof.
  intros Ta Hf Hts Ht Hts' Ht' Hp Hu Hp' Hu'. destruct (frame_facts _ _ _ _ _ _ _ Ta Hf Hts Ht Hp Hu) as (T2 & C2 & S2 & k & u & Hl & -> & Fu & Ru & N2 & P2).
  assert (Hp2 : played fuel a (ts ++ t :: ts') a3).
  { clear -Hp Hu Hp'. assert (G : forall b bs c, played fuel b bs c -> b = a2 -> played fuel a ((ts ++ [t]) ++ bs) c).
    { induction 1 as [b|b bs c1 s c2 y _ IH Hs]; intros ->; [rewrite app_nil_r; by eapply played_frame|]. rewrite app_assoc. eapply played_frame; [by apply IH|exact Hs]. }
    specialize (G _ _ _ Hp' eq_refl). by rewrite <- app_assoc in G. }
  assert (Hts2 : Forall frame_time (ts ++ t :: ts')) by (apply list.Forall_app; split; [done|]; by apply list.Forall_cons).
  destruct (frame_facts _ _ _ _ _ _ _ Ta Hf Hts2 Ht' Hp2 Hu') as (T4 & C4 & S4 & k' & u' & Hl' & -> & Fu' & Ru' & N4 & P4).
  destruct (played_clock _ _ _ _ Hp' C2 Hts') as (C3 & S3 & L3). pose proof Hu' as Hu2. apply update_frame in Hu2 as [E4 _]. destruct (clock_frame t' a3 Ht' C3) as [_ L4]. rewrite <- E4 in L4.
  assert (S24 : same_timing a2 a4) by (rewrite E4; exact (same_timing_trans _ _ _ S3 (after_same t' a3))).
  destruct (active_mono a2 a4 T2 S24 C2 C4 ltac:(lra)) as [M _]. destruct Ta as (Hd & Hd0 & _).
  destruct (laps_mono _ Hd Hd0 _ _ _ Hl _ _ _ Hl' N2 N4 ltac:(lra)) as [K1 K2]. destruct S2 as (Sd2 & _). destruct S4 as (Sd4 & _).
  exists k, k'. unfold iteration. rewrite <- Sd2, <- Sd4. split; [by exists u|]. split; [by exists u'|]. split; [exact K1|]. intros E. specialize (K2 E).
  destruct (ratio_range u _ Fu Ru Hd0) as (_ & -> & _). destruct (ratio_range u' _ Fu' Ru' Hd0) as (_ & -> & _). apply rnd_le.
  apply Rmult_le_compat_r; [|exact K2]. apply Rlt_le, Rinv_0_lt_compat. exact Hd0.
Qed.

(** once over, always over, and the active time no longer moves *)
Lemma over_active a : timed a -> over a -> exists n, a_iterations a = AINumber n /\ is_finite (active_time a) = true /\ B2R (active_time a) = B2R (fmul n (a_duration a)).
Proof.
  unfold over, active_time. intros _. destruct (a_iterations a) as [n|]; [|done]. intros (Fe & Fm & H). exists n. split; [done|].
  unfold fmin. rewrite (finite_not_nan _ Fe), (finite_not_nan _ Fm). destruct (flt (fmul n (a_duration a)) (elapsed a)) eqn:E; [done|].
  split; [exact Fe|]. apply flt_wide_false in E; [|by apply finite_not_nan|by apply finite_not_nan]. rewrite (wide_finite _ Fe), (wide_finite _ Fm) in E. lra.
Qed.
Lemma over_running a : timed a -> forall b, same_timing a b -> over a -> over b \/ elapsed b = B754_infinity false \/ ~ (wide (elapsed a) <= wide (elapsed b))%R \/ is_nan (elapsed b) = true.
Proof.
  unfold over. intros Ta b (Sd & _ & Si & _) Ho. rewrite <- Si, <- Sd. destruct (a_iterations a) as [n|]; [|done]. destruct Ho as (Fe & Fm & H).
  destruct (is_nan (elapsed b)) eqn:N; [auto|]. destruct (wide_cases _ N) as [[F W]|[E|E]]; [|right; right; left|auto].
  - destruct (Rle_or_lt (wide (elapsed a)) (wide (elapsed b))) as [L|L]; [|right; right; left; lra]. left. rewrite (wide_finite _ Fe), W in L. repeat split; [done|done|lra].
  - rewrite E, (wide_finite _ Fe). pose proof (finite_top _ Fe). cbn [wide]. lra.
Qed.
(** the progress of an animation that is over: at [b] as at [a] *)
Lemma laps_same_value d t t' k u k' u' : is_finite d = true -> (0 < B2R d)%R -> is_finite t = true -> is_finite t' = true -> (0 <= B2R t)%R -> B2R t = B2R t' ->
  laps d t k u -> laps d t' k' u' -> k = k' /\ B2R u = B2R u'.
Proof.
  intros Hd Hd0 Ft Ft' H0 E Hl Hl'. pose proof (finite_not_nan _ Ft) as N. pose proof (finite_not_nan _ Ft') as N'. pose proof (wide_finite _ Ft) as W. pose proof (wide_finite _ Ft') as W'.
  destruct (laps_mono d Hd Hd0 _ _ _ Hl _ _ _ Hl' N N' ltac:(lra)) as [A1 A2]. destruct (laps_mono d Hd Hd0 _ _ _ Hl' _ _ _ Hl N' N ltac:(lra)) as [B1 B2].
  assert (k = k') by lia. subst k'. split; [done|]. specialize (A2 eq_refl). specialize (B2 eq_refl). lra.
Qed.
Lemma over_active_inf a n : a_iterations a = AINumber n -> is_finite (fmul n (a_duration a)) = true -> elapsed a = B754_infinity false ->
  active_time a = fmul n (a_duration a).
Proof.
  intros Hi Fm E. unfold active_time. rewrite Hi, E. unfold fmin. cbn [is_nan]. rewrite (finite_not_nan _ Fm). assert (flt (fmul n (a_duration a)) (B754_infinity false) = true) as ->; [|done].
  apply flt_wide; [by apply finite_not_nan|done|]. rewrite (wide_finite _ Fm). pose proof (finite_top _ Fm). cbn [wide]. lra.
Qed.
Lemma played_app fuel a ts a1 t a2 x ts' a3 : played fuel a ts a1 -> animator_update fuel t a1 = Ok (a2, x) -> played fuel a2 ts' a3 -> played fuel a (ts ++ t :: ts') a3.
Proof.
  intros Hp Hu Hp'. assert (G : forall b bs c, played fuel b bs c -> b = a2 -> played fuel a ((ts ++ [t]) ++ bs) c).
  { induction 1 as [b|b bs c1 s c2 y _ IH Hs]; intros ->; [rewrite app_nil_r; by eapply played_frame|]. rewrite app_assoc. eapply played_frame; [by apply IH|exact Hs]. }
  specialize (G _ _ _ Hp' eq_refl). by rewrite <- app_assoc in G.
Qed.
(** later frames of an animation that is over: the active time keeps its value *)
Lemma over_later fuel a ts a1 t a2 x ts' a3 t' a4 x' : timed a -> a_time a = f0 -> Forall frame_time ts -> frame_time t ->
  Forall frame_time ts' -> frame_time t' -> played fuel a ts a1 -> animator_update fuel t a1 = Ok (a2, Some x) -> over a2 ->
  played fuel a2 ts' a3 -> animator_update fuel t' a3 = Ok (a4, Some x') -> B2R x' = B2R x.
Proof.
  intros Ta Hf Hts Ht Hts' Ht' Hp Hu Ho Hp' Hu'. destruct (frame_facts _ _ _ _ _ _ _ Ta Hf Hts Ht Hp Hu) as (T2 & C2 & S2 & k & u & Hl & -> & Fu & Ru & N2 & P2).
  pose proof (played_app _ _ _ _ _ _ _ _ _ Hp Hu Hp') as Hp2.
  assert (Hts2 : Forall frame_time (ts ++ t :: ts')) by (apply list.Forall_app; split; [done|]; by apply list.Forall_cons).
  destruct (frame_facts _ _ _ _ _ _ _ Ta Hf Hts2 Ht' Hp2 Hu') as (T4 & C4 & S4 & k' & u' & Hl' & -> & Fu' & Ru' & N4 & P4).
  destruct (played_clock _ _ _ _ Hp' C2 Hts') as (C3 & S3 & L3). pose proof Hu' as Hu2. apply update_frame in Hu2 as [E4 _]. destruct (clock_frame t' a3 Ht' C3) as [_ L4]. rewrite <- E4 in L4.
  assert (S24 : same_timing a2 a4) by (rewrite E4; exact (same_timing_trans _ _ _ S3 (after_same t' a3))).
  destruct (active_mono a2 a4 T2 S24 C2 C4 ltac:(lra)) as [_ M]. destruct (over_active a2 T2 Ho) as (n & Hi & Fa & Ea).
  assert (Fm : is_finite (fmul n (a_duration a)) = true). { unfold over in Ho. rewrite Hi in Ho. destruct Ho as (_ & F & _). destruct S2 as (-> & _). exact F. }
  assert (K : is_finite (active_time a4) = true /\ B2R (active_time a4) = B2R (active_time a2)).
  { rewrite Ea. destruct (over_running a2 T2 a4 S24 Ho) as [O|[I|[O|O]]].
    - destruct (over_active a4 T4 O) as (n' & Hi' & F' & E'). destruct S24 as (Sd & _ & Si & _). rewrite Hi, Hi' in Si. injection Si as ->. rewrite Sd. done.
    - destruct S24 as (Sd & _ & Si & _). rewrite Sd. rewrite (over_active_inf a4 n); [|congruence| |done].
      + split; [|done]. destruct S4 as (S4 & _). rewrite <- S4. exact Fm.
      + destruct S4 as (S4 & _). rewrite <- S4. exact Fm.
    - done.
    - exfalso. destruct C4 as [N _]. destruct T4 as (_ & _ & Hy & _). destruct (sub_mono _ _ _ Hy N N ltac:(lra)) as (N' & _). unfold elapsed in O. congruence. }
  destruct K as [F4 E]. destruct Ta as (Hd & Hd0 & _). rewrite (wide_finite _ Fa) in P2.
  destruct (laps_same_value _ _ _ _ _ _ _ Hd Hd0 Fa F4 P2 (eq_sym E) Hl Hl') as [_ Eu].
  destruct (ratio_range u _ Fu Ru Hd0) as (_ & -> & _). destruct (ratio_range u' _ Fu' Ru' Hd0) as (_ & -> & _). by rewrite Eu.
Qed.
Theorem ends_at_one fuel a ts a1 t a2 x n : timed a -> a_time a = f0 -> even_laps a n -> Forall frame_time ts -> frame_time t -> played fuel a ts a1 ->
  animator_update fuel t a1 = Ok (a2, Some x) -> over a2 -> is_finite x = true /\ B2R x = 1%R.
Proof.
  intros Ta Hf (Hn & Hn0 & Hnb & He) Hts Ht Hp Hu Ho. destruct (frame_facts _ _ _ _ _ _ _ Ta Hf Hts Ht Hp Hu) as (T2 & C2 & S2 & k & u & Hl & -> & Fu & Ru & N2 & P2).
  destruct (over_active a2 T2 Ho) as (m & Hi & Fa & Ea). destruct S2 as (Sd & _ & Si & _). rewrite Hn, Hi in Si. injection Si as <-. rewrite <- Sd in Ea.
  destruct Ta as (Hd & Hd0 & _). destruct (f32_int (Z.of_nat n) ltac:(lia)) as [Fn En]. destruct (He n ltac:(lia)) as (g & Fg & Eg).
  assert (Em : B2R (fmul (f32_of_Z (Z.of_nat n)) (a_duration a)) = (INR n * B2R (a_duration a))%R).
  { destruct (mul_real (f32_of_Z (Z.of_nat n)) (a_duration a) Fn Hd) as [_ ->]; rewrite En, <- INR_IZR_INZ, <- Eg, rnd_id; [apply abs_B2R_lt_emax|done]. }
  destruct (laps_even _ Hd Hd0 n Hn0 He (active_time a2) Fa) as (u' & Hl' & Fu' & Eu'); [congruence|].
  destruct (laps_fun _ _ _ _ _ _ Hl Hl') as [_ ->]. destruct (ratio_range u' _ Fu' Ru Hd0) as (Fx & -> & _). split; [exact Fx|]. rewrite Eu'.
  replace (B2R (a_duration a) / B2R (a_duration a))%R with 1%R by (field; lra). apply round_generic; [typeclasses eauto|exact fmt_1].
Qed.
Theorem paused_stays fuel a ts a1 : a_running a = false -> played fuel a ts a1 -> a1 = a.
Proof.
  intros Hr. induction 1 as [a|a ts a1 t a2 x _ IH Hu]; [done|]. specialize (IH Hr). subst a1. apply update_frame in Hu as [-> _]. unfold after_frame. by rewrite Hr.
Qed.
(** the default: one iteration *)
Lemma one_iteration a : timed a -> a_iterations a = AINumber f1 -> even_laps a 1.
Proof.
  intros (Hd & _) Hi. split; [exact Hi|]. split; [lia|]. split; [lia|]. intros i Hi1. destruct i as [|[|i]]; [exists f0|exists (a_duration a)|lia].
  - split; [done|]. cbn. lra.
  - split; [done|]. cbn. lra.
Qed.
(** one iteration never runs back *)
Theorem one_iteration_grows fuel a ts a1 t a2 x ts' a3 t' a4 x' : timed a -> a_iterations a = AINumber f1 -> a_time a = f0 -> Forall frame_time ts -> frame_time t ->
  Forall frame_time ts' -> frame_time t' -> played fuel a ts a1 -> animator_update fuel t a1 = Ok (a2, Some x) ->
  played fuel a2 ts' a3 -> animator_update fuel t' a3 = Ok (a4, Some x') -> (B2R x <= B2R x')%R.
Proof.
  intros Ta Hi Hf Hts Ht Hts' Ht' Hp Hu Hp' Hu'.
  destruct (never_decreases _ _ _ _ _ _ _ _ _ _ _ _ Ta Hf Hts Ht Hts' Ht' Hp Hu Hp' Hu') as (k & k' & [u I1] & [u' I2] & _ & K). apply K.
  assert (Z : forall b c, same_timing a b -> iteration b c -> clock b -> c = 0).
  { intros b c (Sd & _ & Si & _) [v L] [Nb _]. inversion L as [|? ? ? E]; [done|]. exfalso. destruct Ta as (Hd & Hd0 & Hy & _). unfold active_time in E. rewrite <- Si, Hi, <- Sd in E.
    assert (Em : is_finite (fmul f1 (a_duration a)) = true /\ B2R (fmul f1 (a_duration a)) = B2R (a_duration a)).
    { destruct (f32_int 1 ltac:(lia)) as [F1 E1]. destruct (mul_real f1 (a_duration a) F1 Hd) as [F E2]; unfold f1 in *; rewrite E1, Rmult_1_l, rnd_id in *; [apply abs_B2R_lt_emax|]. done. }
    destruct Em as [Fm Em]. assert (Ne : is_nan (fmin (elapsed b) (fmul f1 (a_duration a))) = false /\ (wide (fmin (elapsed b) (fmul f1 (a_duration a))) <= B2R (a_duration a))%R).
    { destruct (is_nan (elapsed b)) eqn:N.
      - unfold fmin. rewrite N. split; [by apply finite_not_nan|]. rewrite (wide_finite _ Fm). lra.
      - destruct (fmin_wide _ _ N (finite_not_nan _ Fm)) as [N' ->]. split; [done|]. rewrite (wide_finite _ Fm), Em. apply Rmin_r. }
    destruct Ne as [N' L']. apply (fgt_wide _ Hd) in E; [|done]. lra. }
  destruct (frame_facts _ _ _ _ _ _ _ Ta Hf Hts Ht Hp Hu) as (_ & C2 & S2 & _).
  pose proof (played_app _ _ _ _ _ _ _ _ _ Hp Hu Hp') as Hp2.
  assert (Hts2 : Forall frame_time (ts ++ t :: ts')) by (apply list.Forall_app; split; [done|]; by apply list.Forall_cons).
  destruct (frame_facts _ _ _ _ _ _ _ Ta Hf Hts2 Ht' Hp2 Hu') as (_ & C4 & S4 & _).
  rewrite (Z _ _ S2 (ex_intro _ u I1) C2), (Z _ _ S4 (ex_intro _ u' I2) C4). done.
Qed.
Theorem first_iteration fuel a ts a1 t a2 x : timed a -> a_time a = f0 -> Forall frame_time ts -> frame_time t -> played fuel a ts a1 ->
  animator_update fuel t a1 = Ok (a2, Some x) -> iteration a2 0 -> B2R x = rnd32 (B2R (active_time a2) / B2R (a_duration a)).
Proof.
  intros Ta Hf Hts Ht Hp Hu [v Hv]. destruct (frame_facts _ _ _ _ _ _ _ Ta Hf Hts Ht Hp Hu) as (_ & _ & S2 & k & u & Hl & -> & Fu & Ru & _).
  destruct S2 as (Sd & _). rewrite <- Sd in Hv. destruct (laps_fun _ _ _ _ _ _ Hl Hv) as [-> ->]. inversion Hv; subst. destruct Ta as (Hd & Hd0 & _).
  destruct (ratio_range _ (a_duration a) Fu Ru Hd0) as (_ & -> & _). done.
Qed.
Theorem shows_after_delay fuel a t a' x : animator_update fuel t a = Ok (a', x) -> (x = None <-> flt (elapsed a') f0 = true).
Proof. intros Hu. apply update_frame in Hu as [-> [[-> E]|(E & k & u & _ & ->)]]; rewrite E; done. Qed.
Theorem clock_sums fuel a ts a' : timed a -> a_running a = true -> played fuel a ts a' -> a_time a' = fold_left fadd ts (a_time a).
Proof.
  intros Ta Hr Hp. assert (G : same_timing a a' /\ a_time a' = fold_left fadd ts (a_time a)); [|apply G]. induction Hp as [a|a ts a1 t a2 x _ IH Hu]; [done|].
  destruct (IH Ta Hr) as [S1 E1]. apply update_frame in Hu as [-> _]. split; [exact (same_timing_trans _ _ _ S1 (after_same t a1))|]. rewrite fold_left_app. cbn [fold_left]. rewrite <- E1.
  destruct S1 as (Sd & _ & _ & Sr). destruct Ta as (Hd & Hd0 & _). unfold after_frame. rewrite <- Sr, Hr. assert (fgt (a_duration a1) f0 = true) as ->; [|done].
  rewrite <- Sd. apply (flt_real f0 (a_duration a) eq_refl Hd). exact Hd0.
Qed.
