(** * Real-number meaning of the [f32] operations. *)
From Coq Require Import ZArith Reals Lia Lra Bool.
From Flocq Require Import Core.Core IEEE754.BinarySingleNaN Plus_error.
From Verif Require Import F32.
Open Scope R_scope.

Notation fexp := (SpecFloat.fexp 24 128).
Notation rnd := (round radix2 fexp ZnearestE).
Global Instance fexp_valid : Valid_exp fexp := fexp_correct 24 128 f32_prec.
Global Instance fexp_mono : Monotone_exp fexp := fexp_monotone 24 128.

Lemma rnd_le x y : x <= y -> rnd x <= rnd y.
Proof. apply round_le; typeclasses eauto. Qed.
Lemma rnd_id (f : f32) : rnd (B2R f) = B2R f.
Proof. apply round_generic; [typeclasses eauto|]. apply generic_format_B2R. Qed.
Lemma rnd_0 : rnd 0 = 0.
Proof. apply round_0. typeclasses eauto. Qed.

Lemma flt_real (a b : f32) : is_finite a = true -> is_finite b = true -> flt a b = true <-> B2R a < B2R b.
Proof.
  intros Ha Hb. unfold flt. rewrite (Bltb_correct _ _ a b Ha Hb). destruct (Rlt_bool_spec (B2R a) (B2R b)); split; intros; try lra; congruence.
Qed.
Lemma fle_real (a b : f32) : is_finite a = true -> is_finite b = true -> fle a b = true <-> B2R a <= B2R b.
Proof.
  intros Ha Hb. unfold fle. rewrite (Bleb_correct _ _ a b Ha Hb). destruct (Rle_bool_spec (B2R a) (B2R b)); split; intros; try lra; congruence.
Qed.

Lemma sign_pos (f : f32) : Bsign f = false -> 0 <= B2R f.
Proof. destruct f as [s|s| |s m e H]; cbn; intros Hs; try lra. subst. apply F2R_ge_0. cbn. lia. Qed.
Lemma sign_neg (f : f32) : Bsign f = true -> B2R f <= 0.
Proof. destruct f as [s|s| |s m e H]; cbn; intros Hs; try lra. subst. apply F2R_le_0. cbn. lia. Qed.

(** a difference, an overflow goes to an infinity of the right sign *)
Lemma fsub_cases (x a : f32) : is_finite x = true -> is_finite a = true ->
  (is_finite (fsub x a) = true /\ B2R (fsub x a) = rnd (B2R x - B2R a)) \/
  (fsub x a = B754_infinity (Bsign x) /\ bpow radix2 128 <= Rabs (rnd (B2R x - B2R a)) /\ Bsign x = negb (Bsign a)).
Proof.
  intros Hx Ha. pose proof (Bminus_correct 24 128 f32_prec f32_emax mode_NE x a Hx Ha) as H. cbn [round_mode] in H.
  destruct (Rlt_bool_spec (Rabs (rnd (B2R x - B2R a))) (bpow radix2 128)) as [Hlt|Hge]; destruct H as (H1 & H2).
  - left. split; [apply H2|exact H1].
  - right. split; [|split; [exact Hge|exact H2]]. unfold fsub. unfold binary_overflow in H1. cbn in H1. revert H1. destruct (Bminus mode_NE x a); cbn; intros; congruence.
Qed.
Lemma fadd_cases (x a : f32) : is_finite x = true -> is_finite a = true ->
  (is_finite (fadd x a) = true /\ B2R (fadd x a) = rnd (B2R x + B2R a)) \/
  (fadd x a = B754_infinity (Bsign x) /\ bpow radix2 128 <= Rabs (rnd (B2R x + B2R a)) /\ Bsign x = Bsign a).
Proof.
  intros Hx Ha. pose proof (Bplus_correct 24 128 f32_prec f32_emax mode_NE x a Hx Ha) as H. cbn [round_mode] in H.
  destruct (Rlt_bool_spec (Rabs (rnd (B2R x + B2R a))) (bpow radix2 128)) as [Hlt|Hge]; destruct H as (H1 & H2).
  - left. split; [apply H2|exact H1].
  - right. split; [|split; [exact Hge|exact H2]]. unfold fadd. unfold binary_overflow in H1. cbn in H1. revert H1. destruct (Bplus mode_NE x a); cbn; intros; congruence.
Qed.
(** the rounded difference is zero only for equal numbers *)
Lemma rnd_sub_neg (x a : f32) : B2R x < B2R a -> rnd (B2R x - B2R a) < 0.
Proof.
  intros H. assert (H1 : rnd (B2R x - B2R a) <= 0). { rewrite <- rnd_0. apply rnd_le. lra. }
  destruct H1 as [H1|H1]; [exact H1|]. exfalso.
  assert (Hne : rnd (B2R x + - B2R a) <> 0).
  { apply (round_plus_neq_0 radix2 fexp ZnearestE); [apply generic_format_B2R|apply generic_format_opp, generic_format_B2R|lra]. }
  apply Hne. replace (B2R x + - B2R a) with (B2R x - B2R a) by ring. exact H1.
Qed.
Lemma rnd_sub_zero (x a : f32) : 0 <= rnd (B2R x - B2R a) <-> B2R a <= B2R x.
Proof.
  split; intros H.
  - destruct (Rle_or_lt (B2R a) (B2R x)) as [?|Hlt]; [assumption|]. apply rnd_sub_neg in Hlt. lra.
  - rewrite <- rnd_0. apply rnd_le. lra.
Qed.

Lemma fge_zero (x a : f32) : is_finite x = true -> is_finite a = true -> fge (fsub x a) f0 = true <-> B2R a <= B2R x.
Proof.
  intros Hx Ha. destruct (fsub_cases x a Hx Ha) as [(Hf & Hr)|(He & Hov & Hs)].
  - change (fge (fsub x a) f0) with (fle f0 (fsub x a)). rewrite fle_real; [|reflexivity|exact Hf]. rewrite Hr. change (B2R f0) with 0. apply rnd_sub_zero.
  - rewrite He. destruct (Bsign x) eqn:Ex; destruct (Bsign a) eqn:Ea; try discriminate.
    + split; [discriminate|]. intros H. exfalso. assert (H1 := sign_neg x Ex). assert (H2 := sign_pos a Ea).
      assert (E : B2R x - B2R a = 0) by lra. rewrite E, rnd_0, Rabs_R0 in Hov. pose proof (bpow_gt_0 radix2 128). lra.
    + split; [|reflexivity]. intros _. assert (H1 := sign_pos x Ex). assert (H2 := sign_neg a Ea). lra.
Qed.
(** a hit is inside the real box *)
Lemma span_inside (x a w : f32) : is_finite x = true -> is_finite a = true -> is_finite w = true ->
  fge (fsub x a) f0 = true -> flt (fsub x a) w = true -> B2R a <= B2R x < B2R a + B2R w.
Proof.
  intros Hx Ha Hw H1 H2. split; [apply fge_zero; assumption|]. destruct (fsub_cases x a Hx Ha) as [(Hf & Hr)|(He & Hov & Hs)].
  - apply flt_real in H2; [|exact Hf|exact Hw]. rewrite Hr in H2. destruct (Rlt_or_le (B2R x) (B2R a + B2R w)) as [?|Hle]; [assumption|].
    exfalso. assert (Hx2 : B2R w <= B2R x - B2R a) by lra. apply rnd_le in Hx2. rewrite rnd_id in Hx2. lra.
  - rewrite He in H1, H2. destruct (Bsign x); [discriminate H1|]. destruct w; discriminate.
Qed.
(** the converse, when the difference is a float *)
Lemma span_exact (x a w : f32) : is_finite x = true -> is_finite a = true -> is_finite w = true ->
  rnd (B2R x - B2R a) = B2R x - B2R a -> B2R a <= B2R x < B2R a + B2R w -> fge (fsub x a) f0 = true /\ flt (fsub x a) w = true.
Proof.
  intros Hx Ha Hw He [H1 H2]. split; [apply fge_zero; assumption|]. destruct (fsub_cases x a Hx Ha) as [(Hf & Hr)|(_ & Hov & _)].
  - apply flt_real; [exact Hf|exact Hw|]. rewrite Hr, He. lra.
  - exfalso. rewrite He in Hov. rewrite Rabs_pos_eq in Hov by lra. pose proof (abs_B2R_lt_emax 24 128 w) as Hm. apply Rabs_lt_inv in Hm. lra.
Qed.
(** in general the upper edge may move inwards by a rounding, never outwards *)
Lemma span_round (x a w : f32) : is_finite x = true -> is_finite a = true -> is_finite w = true ->
  B2R a <= B2R x -> rnd (B2R x - B2R a) < B2R w -> fge (fsub x a) f0 = true /\ flt (fsub x a) w = true.
Proof.
  intros Hx Ha Hw H1 H2. split; [apply fge_zero; assumption|]. destruct (fsub_cases x a Hx Ha) as [(Hf & Hr)|(_ & Hov & _)].
  - apply flt_real; [exact Hf|exact Hw|]. rewrite Hr. exact H2.
  - exfalso. rewrite Rabs_pos_eq in Hov by (apply rnd_sub_zero; assumption). pose proof (abs_B2R_lt_emax 24 128 w) as Hm. apply Rabs_lt_inv in Hm. lra.
Qed.

(** integers up to 2^24 *)
Lemma int_format z : (Z.abs z <= 2 ^ 24)%Z -> rnd (IZR z) = IZR z.
Proof.
  intros H. apply round_generic; [typeclasses eauto|]. apply generic_format_FLT.
  assert (Hc : (Z.abs z < 2 ^ 24 \/ Z.abs z = 2 ^ 24)%Z) by lia. destruct Hc as [Hc|Hc].
  - apply FLT_spec with (Float radix2 z 0); [unfold F2R; cbn; ring|exact Hc|cbn; lia].
  - assert (Hz : (z = 2 ^ 24 \/ z = - 2 ^ 24)%Z) by lia. destruct Hz as [-> | ->].
    + apply FLT_spec with (Float radix2 1 24); [unfold F2R; cbn; lra|cbn; lia|cbn; lia].
    + apply FLT_spec with (Float radix2 (-1) 24); [unfold F2R; cbn; lra|cbn; lia|cbn; lia].
Qed.
Lemma f32_int z : (Z.abs z <= 2 ^ 24)%Z -> is_finite (f32_of_Z z) = true /\ B2R (f32_of_Z z) = IZR z.
Proof.
  intros H. pose proof (binary_normalize_correct 24 128 f32_prec f32_emax mode_NE z 0 false) as Hb. unfold f32_of_Z. cbv zeta in Hb. cbn [round_mode] in Hb.
  assert (E : F2R (Float radix2 z 0) = IZR z) by (unfold F2R; cbn; ring). rewrite E, int_format in Hb by exact H.
  rewrite Rlt_bool_true in Hb; [destruct Hb as (H1 & H2 & _); split; assumption|].
  apply Rle_lt_trans with (IZR (2 ^ 24)); [rewrite <- abs_IZR; apply IZR_le; exact H|]. change (2 ^ 24)%Z with (Zpower radix2 24). rewrite (IZR_Zpower radix2 24) by lia. apply bpow_lt. lia.
Qed.
