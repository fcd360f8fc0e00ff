(** * Floats of animations: interpolation and progress (C35-C38). *)
From Coq Require Import ZArith Reals Lia Lra Bool.
From Flocq Require Import Core.Core IEEE754.BinarySingleNaN Plus_error Relative.
From Verif Require Import F32 FloatFacts.
Open Scope R_scope.

Notation format := (generic_format radix2 fexp).
Lemma fmt (f : f32) : format (B2R f). Proof. apply generic_format_B2R. Qed.
Lemma rnd_fmt x : format (rnd x). Proof. apply generic_format_round; typeclasses eauto. Qed.
Lemma rnd_le_fmt x y : format y -> x <= y -> rnd x <= y.
Proof. intros Hy H. apply round_le_generic; [typeclasses eauto|typeclasses eauto|exact Hy|exact H]. Qed.
Lemma rnd_ge_fmt x y : format x -> x <= y -> x <= rnd y.
Proof. intros Hx H. apply round_ge_generic; [typeclasses eauto|typeclasses eauto|exact Hx|exact H]. Qed.
Lemma rnd_nearest x y : format y -> Rabs (rnd x - x) <= Rabs (y - x).
Proof. intros Hy. apply (round_N_pt radix2 fexp (fun z => negb (Z.even z)) x). exact Hy. Qed.
Lemma fmt_1 : format 1. Proof. change 1 with (bpow radix2 0). apply generic_format_bpow. cbv. discriminate. Qed.

(** ** A part of a rounded difference stays below the exact one *)
(** floats below 1 are at most 1 - 2^-24 *)
Lemma below_one t : format t -> t < 1 -> t <= 1 - bpow radix2 (-24).
Proof.
  intros Ht H. assert (Hp : t <= pred radix2 fexp 1) by (apply pred_ge_gt; [typeclasses eauto|exact Ht|exact fmt_1|exact H]).
  replace (1 - bpow radix2 (-24)) with (pred radix2 fexp 1); [exact Hp|]. change 1 with (bpow radix2 0). rewrite (pred_bpow radix2 fexp 0). reflexivity.
Qed.
Lemma part_below (a b t : R) : format a -> format b -> format t -> a < b -> 0 <= t < 1 -> 0 <= rnd (rnd (b - a) * t) <= b - a.
Proof.
  intros Fa Fb Ft Hab [Ht0 Ht1]. set (D := rnd (b - a)).
  assert (HD0 : 0 <= D) by (unfold D; rewrite <- rnd_0; apply rnd_le; lra).
  assert (FD : format D) by apply rnd_fmt.
  assert (HP0 : 0 <= rnd (D * t)) by (rewrite <- rnd_0; apply rnd_le; nra). split; [exact HP0|].
  set (P := rnd (D * t)) in *. assert (HPD : P <= D) by (apply rnd_le_fmt; [exact FD|nra]).
  destruct (Rle_or_lt D (b - a)) as [H|Hgt]; [lra|]. destruct (Rle_or_lt P (b - a)) as [H|HPgt]; [exact H|exfalso].
  assert (FP : format P) by apply rnd_fmt. pose proof (rnd_nearest (b - a) P FP) as Hn. fold D in Hn.
  rewrite !Rabs_pos_eq in Hn by lra. assert (EP : P = D) by lra. clear Hn HPgt HPD.
  (* D is at least the smallest normal number, otherwise the difference is exact *)
  assert (Hbig : bpow radix2 (-125) <= D).
  { destruct (Rle_or_lt (bpow radix2 (-125)) D) as [H|H]; [exact H|exfalso].
    assert (Hs : Rabs (b + - a) <= bpow radix2 (-125)). { rewrite Rabs_pos_eq by lra. apply Rlt_le. lra. }
    assert (Fs : format (b + - a)).
    { apply (FLT_format_plus_small radix2 (-149) 24 b (- a)); [exact Fb|apply generic_format_opp; exact Fa|exact Hs]. }
    assert (E : D = b - a). { unfold D. apply round_generic; [typeclasses eauto|exact Fs]. } lra. }
  assert (HDpos : 0 < D) by (pose proof (bpow_gt_0 radix2 (-125)); lra).
  set (q := pred radix2 fexp D). assert (Fq : format q) by (apply generic_format_pred; [typeclasses eauto|exact FD]).
  assert (Hq : bpow radix2 (-126) <= q).
  { apply pred_ge_gt; [typeclasses eauto|apply generic_format_bpow; cbv; discriminate|exact FD|]. eapply Rlt_le_trans; [|exact Hbig]. apply bpow_lt. lia. }
  assert (Hq0 : 0 <= q) by (pose proof (bpow_gt_0 radix2 (-126)); lra).
  assert (Hqu : D = q + ulp radix2 fexp q).
  { rewrite <- (succ_eq_pos radix2 fexp q Hq0). symmetry. apply succ_pred; [typeclasses eauto|exact FD]. }
  assert (Hu : ulp radix2 fexp q <= q * bpow radix2 (-23)).
  { pose proof (ulp_FLT_le radix2 (-149) 24 q) as Hx. rewrite (Rabs_pos_eq q Hq0) in Hx. apply Hx. exact Hq. }
  assert (Hu0 : 0 < ulp radix2 fexp q). { assert (q < D) by (apply pred_lt_id; lra). lra. }
  pose proof (rnd_nearest (D * t) q Fq) as Hn. fold P in Hn. rewrite EP in Hn.
  pose proof (below_one t Ft Ht1) as Hb. assert (B : bpow radix2 (-23) = 2 * bpow radix2 (-24)) by (change (-23)%Z with (1 + -24)%Z; rewrite bpow_plus; reflexivity).
  pose proof (bpow_gt_0 radix2 (-24)) as Hb0. rewrite B in Hu. set (e := bpow radix2 (-24)) in *. set (u := ulp radix2 fexp q) in *.
  assert (HDt : D * t <= D - D * e) by nra. rewrite (Rabs_pos_eq (D - D * t)) in Hn by nra.
  assert (Hue : u < 2 * e * D) by nra.
  unfold Rabs in Hn. destruct (Rcase_abs (q - D * t)) as [Hc|Hc]; nra.
Qed.
(** the exact interpolation lies between, and so does the rounded one *)
Lemma lerp_below (a b t : R) : format a -> format b -> format t -> a <= b -> 0 <= t < 1 -> a <= rnd (a + rnd (rnd (b - a) * t)) <= b.
Proof.
  intros Fa Fb Ft [Hab|Hab] Ht.
  - pose proof (part_below a b t Fa Fb Ft Hab Ht) as H. split; [apply rnd_ge_fmt; [exact Fa|lra]|apply rnd_le_fmt; [exact Fb|lra]].
  - subst b. replace (a - a) with 0 by ring. rewrite rnd_0, Rmult_0_l, rnd_0, Rplus_0_r. rewrite (round_generic radix2 fexp ZnearestE a Fa). lra.
Qed.
Lemma lerp_above (a b t : R) : format a -> format b -> format t -> b <= a -> 0 <= t < 1 -> b <= rnd (a + rnd (rnd (b - a) * t)) <= a.
Proof.
  intros Fa Fb Ft Hab Ht. pose proof (lerp_below (- a) (- b) t ltac:(apply generic_format_opp; exact Fa) ltac:(apply generic_format_opp; exact Fb) Ft ltac:(lra) Ht) as H.
  replace (- b - - a) with (- (b - a)) in H by ring. rewrite round_NE_opp in H. replace (- rnd (b - a) * t) with (- (rnd (b - a) * t)) in H by ring.
  rewrite round_NE_opp in H. replace (- a + - rnd (rnd (b - a) * t)) with (- (a + rnd (rnd (b - a) * t))) in H by ring. rewrite round_NE_opp in H. lra.
Qed.

(** ** The float operations *)
Lemma mul_real (a b : f32) : is_finite a = true -> is_finite b = true -> Rabs (rnd (B2R a * B2R b)) < bpow radix2 128 ->
  is_finite (fmul a b) = true /\ B2R (fmul a b) = rnd (B2R a * B2R b).
Proof.
  intros Ha Hb H. pose proof (Bmult_correct 24 128 f32_prec f32_emax mode_NE a b) as Hm. cbn [round_mode] in Hm. rewrite Rlt_bool_true in Hm by exact H.
  destruct Hm as (H1 & H2 & _). unfold fmul. rewrite H2, Ha, Hb. split; [reflexivity|exact H1].
Qed.
Lemma div_real (a b : f32) : is_finite a = true -> B2R b <> 0 -> Rabs (rnd (B2R a / B2R b)) < bpow radix2 128 ->
  is_finite (fdiv a b) = true /\ B2R (fdiv a b) = rnd (B2R a / B2R b).
Proof.
  intros Ha Hb H. pose proof (Bdiv_correct 24 128 f32_prec f32_emax mode_NE a b Hb) as Hm. cbn [round_mode] in Hm. rewrite Rlt_bool_true in Hm by exact H.
  destruct Hm as (H1 & H2 & _). unfold fdiv. rewrite H2, Ha. split; [reflexivity|exact H1].
Qed.
Lemma below_max (f : f32) x : Rabs x <= Rabs (B2R f) -> Rabs x < bpow radix2 128.
Proof. intros H. eapply Rle_lt_trans; [exact H|apply abs_B2R_lt_emax]. Qed.
Lemma sub_finite (a b : f32) : is_finite a = true -> is_finite b = true -> is_finite (fsub a b) = true -> B2R (fsub a b) = rnd (B2R a - B2R b).
Proof. intros Ha Hb H. destruct (fsub_cases a b Ha Hb) as [[_ E]|[E _]]; [exact E|]. rewrite E in H. discriminate H. Qed.
Lemma lerp_between (a b t : f32) : is_finite a = true -> is_finite b = true -> is_finite t = true -> is_finite (fsub b a) = true -> 0 <= B2R t < 1 ->
  is_finite (fadd a (fmul (fsub b a) t)) = true /\ Rmin (B2R a) (B2R b) <= B2R (fadd a (fmul (fsub b a) t)) <= Rmax (B2R a) (B2R b).
Proof.
  intros Ha Hb Ht Hs Hr. pose proof (sub_finite b a Hb Ha Hs) as Es.
  assert (HP : Rabs (rnd (B2R (fsub b a) * B2R t)) <= Rabs (B2R (fsub b a))).
  { rewrite <- (rnd_id (fsub b a)) at 2. rewrite <- !(round_NE_abs radix2 fexp). apply rnd_le. rewrite Rabs_mult, (Rabs_pos_eq (B2R t)) by lra.
    pose proof (Rabs_pos (B2R (fsub b a))). nra. }
  destruct (mul_real (fsub b a) t Hs Ht (below_max _ _ HP)) as [Hm Em]. rewrite Es in Em.
  assert (B : Rmin (B2R a) (B2R b) <= rnd (B2R a + B2R (fmul (fsub b a) t)) <= Rmax (B2R a) (B2R b)).
  { rewrite Em. destruct (Rle_or_lt (B2R a) (B2R b)) as [H|H].
    - rewrite Rmin_left, Rmax_right by exact H. apply lerp_below; try apply fmt; assumption.
    - rewrite Rmin_right, Rmax_left by lra. apply lerp_above; try apply fmt; try assumption. lra. }
  assert (Bm : Rabs (rnd (B2R a + B2R (fmul (fsub b a) t))) < bpow radix2 128).
  { pose proof (abs_B2R_lt_emax 24 128 a) as Ma. pose proof (abs_B2R_lt_emax 24 128 b) as Mb. apply Rabs_lt_inv in Ma, Mb. unfold Rmin, Rmax in B. destruct (Rle_dec _ _); apply Rabs_lt; lra. }
  destruct (fadd_cases a (fmul (fsub b a) t) Ha Hm) as [[Hf E]|[_ [Hov _]]]; [|lra]. split; [exact Hf|]. rewrite E. exact B.
Qed.

(** ** Progress *)
Lemma pos_finite_or_inf (t : f32) : is_nan t = false -> fge t f0 = true -> (is_finite t = true /\ 0 <= B2R t) \/ t = B754_infinity false.
Proof.
  intros Hn Hg. destruct t as [s|s| |s m e Hb]; try discriminate Hn.
  - left. split; [reflexivity|]. cbn. lra.
  - destruct s; [discriminate Hg|right; reflexivity].
  - left. split; [reflexivity|]. unfold fge in Hg. apply (proj1 (fle_real f0 (B754_finite s m e Hb) eq_refl eq_refl)) in Hg. exact Hg.
Qed.
Lemma lap_less (d t : f32) : is_finite d = true -> 0 < B2R d -> is_finite t = true -> B2R d < B2R t ->
  is_finite (fsub t d) = true /\ B2R (fsub t d) = rnd (B2R t - B2R d) /\ 0 <= B2R (fsub t d) <= B2R t.
Proof.
  intros Hd Hd0 Ht Hlt. assert (B : 0 <= rnd (B2R t - B2R d) <= B2R t).
  { split; [rewrite <- rnd_0; apply rnd_le; lra|]. apply rnd_le_fmt; [apply fmt|lra]. }
  destruct (fsub_cases t d Ht Hd) as [[Hf E]|[_ [Hov _]]].
  - rewrite E. split; [exact Hf|]. split; [reflexivity|exact B].
  - exfalso. pose proof (abs_B2R_lt_emax 24 128 t) as Mt. apply Rabs_lt_inv in Mt. rewrite Rabs_pos_eq in Hov by lra. lra.
Qed.
Lemma ratio_range (u d : f32) : is_finite u = true -> 0 <= B2R u <= B2R d -> 0 < B2R d -> is_finite (fdiv u d) = true /\ B2R (fdiv u d) = rnd (B2R u / B2R d) /\ 0 <= B2R (fdiv u d) <= 1.
Proof.
  intros Hu Hr Hd. assert (Q : 0 <= B2R u / B2R d <= 1).
  { split; [apply Rmult_le_pos; [lra|]; apply Rlt_le, Rinv_0_lt_compat; exact Hd|]. apply Rmult_le_reg_r with (B2R d); [exact Hd|]. field_simplify; lra. }
  assert (B : 0 <= rnd (B2R u / B2R d) <= 1) by (split; [rewrite <- rnd_0; apply rnd_le; lra|apply rnd_le_fmt; [exact fmt_1|lra]]).
  destruct (div_real u d Hu) as [H1 H2]; [lra| |rewrite H2; split; [exact H1|]; split; [reflexivity|exact B]].
  rewrite Rabs_pos_eq by lra. apply Rle_lt_trans with (bpow radix2 0); [change (bpow radix2 0) with 1; lra|apply bpow_lt; lia].
Qed.
