(** * When the laps of an animation end (C39). *)
From stdpp Require Import gmap.
From RecordUpdate Require Import RecordUpdate.
From Coq Require Import ZArith Reals Lia Lra.
From Flocq Require Import Core.Core IEEE754.BinarySingleNaN Relative.
From Verif Require Import Str F32 Res ResFacts Json PropKey Html Css Element Tree ViewModel Cascade Initial Animation Apply Styling Events View
  FloatFacts AnimFloat SpecAnim AnimProps SpecPage SpecEnds.
Close Scope R_scope.

(** ** Taking off a duration that is not too small *)
Lemma ulp_small (t d : R) : generic_format radix2 fexp d -> (0 < d)%R -> (0 < t)%R -> (t <= bpow radix2 23 * d)%R -> (ulp radix2 fexp t <= d)%R.
Proof.
  intros Fd Hd Ht H. rewrite ulp_neq_0 by lra. unfold cexp. destruct (mag radix2 t) as [e He]. cbn [mag_val]. specialize (He ltac:(lra)). rewrite Rabs_pos_eq in He by lra.
  unfold fexp, FLT_exp. apply Rle_trans with (bpow radix2 (Z.max (e - 24) (-149))); [apply Req_le; f_equal|].
  destruct (Z.max_spec (e - 24) (-149)) as [[_ ->]|[_ ->]].
  - assert (Fb : generic_format radix2 fexp (bpow radix2 (-149))) by (apply generic_format_bpow; cbv; discriminate).
    destruct (Rle_or_lt (bpow radix2 (-149)) d) as [K|K]; [exact K|]. exfalso.
    apply (succ_le_lt radix2 fexp 0 d) in Hd; [|apply generic_format_0|exact Fd]. rewrite succ_0 in Hd.
    assert (E : ulp radix2 fexp 0 = bpow radix2 (-149)) by (exact (ulp_FLT_0 radix2 (-149) 24)). rewrite E in Hd. lra.
  - replace (e - 24)%Z with ((e - 1) + - (23))%Z by lia. rewrite bpow_plus, bpow_opp. pose proof (bpow_gt_0 radix2 23) as B.
    apply Rmult_le_reg_r with (bpow radix2 23); [exact B|]. rewrite Rmult_assoc, Rinv_l by lra. lra.
Qed.
Lemma lap_shrinks (d t : f32) : is_finite d = true -> (0 < B2R d)%R -> is_finite t = true -> (B2R d < B2R t <= bpow radix2 23 * B2R d)%R ->
  is_finite (fsub t d) = true /\ (0 <= B2R (fsub t d) <= B2R t - B2R d / 2)%R.
Proof.
  intros Hd Hd0 Ht [H1 H2]. destruct (lap_less d t Hd Hd0 Ht H1) as (F & E & P & _). split; [exact F|]. split; [exact P|]. rewrite E.
  pose proof (error_le_half_ulp radix2 fexp (fun z => negb (Z.even z)) (B2R t - B2R d)) as He.
  assert (U : (ulp radix2 fexp (B2R t - B2R d) <= B2R d)%R) by (apply ulp_small; [apply fmt|lra|lra|lra]).
  apply Rabs_le_inv in He. lra.
Qed.
Lemma laps_end (d : f32) : is_finite d = true -> (0 < B2R d)%R -> forall n (t : f32), is_finite t = true -> (B2R t <= bpow radix2 23 * B2R d)%R -> (B2R t <= INR n * (B2R d / 2))%R ->
  exists k u, laps d t k u.
Proof.
  intros Hd Hd0. induction n as [|n IH]; intros t Ht H1 H2.
  - exists 0, t. constructor. destruct (fgt t d) eqn:E; [|done]. apply fgt_wide in E; [|done|by apply finite_not_nan]. rewrite (wide_finite t Ht) in E. cbn [INR] in H2. lra.
  - destruct (fgt t d) eqn:E; [|exists 0, t; by constructor]. pose proof E as E'. apply fgt_wide in E'; [|done|by apply finite_not_nan]. rewrite (wide_finite t Ht) in E'.
    destruct (lap_shrinks d t Hd Hd0 Ht) as [F Sh]; [lra|]. rewrite S_INR in H2. destruct (IH (fsub t d) F) as (k & u & L); [lra|lra|]. exists (S k), u. by constructor.
Qed.
Lemma few_end time a : few_laps time a -> ends (fun fuel => animator_update fuel time a).
Proof.
  unfold few_laps. cbv zeta. intros H. set (b := advanced time a) in *. unfold ends.
  assert (E : forall fuel, animator_update fuel time a = if flt (elapsed b) f0 then Ok (b, None) else do! t <- wrap_time fuel (a_duration b) (active_time b); Ok (b, Some (fdiv t (a_duration b)))) by reflexivity.
  destruct (flt (elapsed b) f0) eqn:Eb. { exists 0, (Ok (b, None)). split; [discriminate|]. intros fuel _. apply E. }
  destruct H as [H|H]; [discriminate H|].
  assert (L : exists k u, laps (a_duration b) (active_time b) k u).
  { destruct H as [H|(F & Fd & Hd & H)]; [exists 0, (active_time b); by constructor|].
    destruct (Rle_or_lt (B2R (active_time b)) 0) as [Hn|Hp].
    { exists 0, (active_time b). constructor. destruct (fgt (active_time b) (a_duration b)) eqn:G; [|done]. apply fgt_wide in G; [|done|by apply finite_not_nan]. rewrite (wide_finite _ F) in G. lra. }
    destruct (archimed (B2R (active_time b) / (B2R (a_duration b) / 2))) as [A _]. set (z := up _) in A.
    apply (laps_end _ Fd Hd (Z.to_nat z)); [exact F|exact H|]. rewrite INR_IZR_INZ.
    assert (Q : (0 < B2R (active_time b) / (B2R (a_duration b) / 2))%R) by (apply Rdiv_lt_0_compat; lra).
    assert (Hz : (0 <= z)%Z) by (apply le_IZR; lra). rewrite Z2Nat.id by exact Hz. apply Rgt_lt in A.
    apply (Rmult_lt_compat_r (B2R (a_duration b) / 2)) in A; [|lra]. unfold Rdiv in A at 1. rewrite Rmult_assoc, Rinv_l in A by lra. lra. }
  destruct L as (k & u & L). exists k, (Ok (b, Some (fdiv u (a_duration b)))). split; [discriminate|]. intros fuel Hf. rewrite E, (laps_wrap _ _ _ _ _ L Hf). reflexivity.
Qed.
Lemma update_advanced time a fuel a' x : animator_update fuel time a = Ok (a', x) -> a' = advanced time a.
Proof. intros H. apply update_frame in H as [-> _]. reflexivity. Qed.

(** ** Which timers go round few times *)
(** finitely many iterations: always *)
Lemma counted_few time a n : a_iterations a = AINumber n -> is_finite n = true -> (0 <= B2R n <= bpow radix2 23)%R ->
  is_finite (a_duration a) = true -> (0 <= B2R (a_duration a))%R -> is_finite (elapsed (advanced time a)) = true -> few_laps time a.
Proof.
  intros Hi Hn Hr Hd Hd0 He. unfold few_laps. cbv zeta. set (b := advanced time a) in *. assert (Sb : same_timing a b) by exact (after_same time a).
  destruct Sb as (Sd & _ & Si & _). rewrite <- Sd. destruct (flt (elapsed b) f0) eqn:E; [by left|right].
  assert (Ea : active_time b = fmin (elapsed b) (fmul n (a_duration a))) by (unfold active_time; rewrite <- Si, Hi, Sd; reflexivity). rewrite Ea.
  destruct Hd0 as [Hd0|Hd0].
  - destruct (mul_wide n (a_duration a) Hn ltac:(lra) Hd Hd0) as [Nm Pm].
    destruct (fmin_wide (elapsed b) (fmul n (a_duration a)) (finite_not_nan _ He) Nm) as [N W]. rewrite (wide_finite _ He) in W.
    destruct (Rle_or_lt (wide (fmin (elapsed b) (fmul n (a_duration a)))) (B2R (a_duration a))) as [L|L].
    { left. destruct (fgt _ _) eqn:G; [|done]. apply fgt_wide in G; [lra|done|done]. }
    right. pose proof (finite_top _ He) as Te. pose proof (finite_top _ Hd) as Td.
    assert (F : is_finite (fmin (elapsed b) (fmul n (a_duration a))) = true).
    { destruct (wide_cases _ N) as [[F _]|[X|X]]; [exact F| |]; rewrite X in W, L; cbn [wide] in W, L; exfalso; [pose proof top_pos; lra|].
      pose proof (Rmin_l (B2R (elapsed b)) (wide (fmul n (a_duration a)))). lra. }
    split; [exact F|]. split; [exact Hd|]. split; [exact Hd0|]. rewrite <- (wide_finite _ F), W.
    pose proof (bpow_gt_0 radix2 23) as B.
    destruct (wide_cases _ Nm) as [[Fm Wm]|[X|X]]; [|rewrite X in Pm; cbn [wide] in Pm; pose proof top_pos; lra|].
    + eapply Rle_trans; [apply Rmin_r|]. rewrite Wm.
      assert (Em : B2R (fmul n (a_duration a)) = rnd (B2R n * B2R (a_duration a))).
      { pose proof (Bmult_correct 24 128 f32_prec f32_emax mode_NE n (a_duration a)) as Hm. cbn [round_mode] in Hm. unfold fmul in *.
        destruct (Rlt_bool _ _) eqn:Q in Hm; [exact (proj1 Hm)|]. exfalso. destruct (Bmult mode_NE n (a_duration a)); try discriminate Fm; cbn in Hm; discriminate Hm. }
      rewrite Em. apply rnd_le_fmt.
      * apply generic_format_FLT. pose proof (fmt (a_duration a)) as G. apply FLT_format_generic in G; [|typeclasses eauto]. destruct G as [g G1 G2 G3].
        apply FLT_spec with (Float radix2 (Fnum g) (Fexp g + 23)); [rewrite G1; unfold F2R; cbn [Fnum Fexp]; rewrite bpow_plus; ring|exact G2|cbn [Fexp]; lia].
      * apply Rmult_le_compat_r; lra.
    + (* the product overflows: so would 2^23 times the duration *)
      eapply Rle_trans; [apply Rmin_l|]. pose proof (Bmult_correct 24 128 f32_prec f32_emax mode_NE n (a_duration a)) as Hm. cbn [round_mode] in Hm. unfold fmul in X.
      rewrite X in Hm. destruct (Rlt_bool _ _) eqn:Q in Hm; [exfalso; destruct Hm as (_ & Hm & _); rewrite Hn, Hd in Hm; discriminate Hm|].
      assert (K : (bpow radix2 128 <= Rabs (rnd (B2R n * B2R (a_duration a))))%R).
      { revert Q. case Rlt_bool_spec; [discriminate|]. intros Q _. exact Q. }
      rewrite Rabs_pos_eq in K by (rewrite <- rnd_0; apply rnd_le; apply Rmult_le_pos; lra).
      assert (K2 : (top <= bpow radix2 23 * B2R (a_duration a))%R).
      { destruct (Rle_or_lt top (bpow radix2 23 * B2R (a_duration a))) as [?|J]; [assumption|]. exfalso.
        assert (F2 : generic_format radix2 fexp (bpow radix2 23 * B2R (a_duration a))).
        { apply generic_format_FLT. pose proof (fmt (a_duration a)) as G. apply FLT_format_generic in G; [|typeclasses eauto]. destruct G as [g G1 G2 G3].
          apply FLT_spec with (Float radix2 (Fnum g) (Fexp g + 23)); [rewrite G1; unfold F2R; cbn [Fnum Fexp]; rewrite bpow_plus; ring|exact G2|cbn [Fexp]; lia]. }
        assert (K3 : (rnd (B2R n * B2R (a_duration a)) <= bpow radix2 23 * B2R (a_duration a))%R) by (apply rnd_le_fmt; [exact F2|apply Rmult_le_compat_r; lra]).
        unfold top in J. lra. }
      lra.
  - left. assert (Z : B2R (fmul n (a_duration a)) = 0%R /\ is_finite (fmul n (a_duration a)) = true).
    { destruct (mul_real n (a_duration a) Hn Hd) as [F Em]; [rewrite <- Hd0, Rmult_0_r, rnd_0, Rabs_R0; apply bpow_gt_0|].
      split; [|exact F]. rewrite Em, <- Hd0, Rmult_0_r. apply rnd_0. }
    destruct Z as [Z Fz]. destruct (fmin_wide (elapsed b) _ (finite_not_nan _ He) (finite_not_nan _ Fz)) as [N W].
    destruct (fgt _ _) eqn:G; [|done]. apply fgt_wide in G; [|done|done]. rewrite W, (wide_finite _ Fz), Z, <- Hd0 in G.
    pose proof (Rmin_r (wide (elapsed b)) 0). lra.
Qed.

(** ** Timers that go round forever *)
Lemma wrap_never (d : f32) (P : f32 -> Prop) : (forall t, P t -> fgt t d = true /\ P (fsub t d)) -> forall fuel t, P t -> wrap_time fuel d t = Hang.
Proof.
  intros H. induction fuel as [|fuel IH]; intros t Ht; destruct (H t Ht) as [E K]; cbn [wrap_time]; rewrite E; [done|]. by apply IH.
Qed.
(** a duration that is lost in rounding *)
Lemma absorbed (d t : f32) : is_finite d = true -> (0 < B2R d)%R -> is_finite t = true -> (bpow radix2 26 * B2R d < B2R t)%R -> (0 < B2R t)%R -> B2R (fsub t d) = B2R t /\ is_finite (fsub t d) = true.
Proof.
  intros Hd Hd0 Ht H Ht0. assert (B26 : bpow radix2 26 = 67108864%R) by reflexivity. rewrite B26 in H.
  destruct (lap_less d t Hd Hd0 Ht) as (F & E & P & L); [lra|]. split; [|exact F]. destruct L as [L|L]; [|exact L]. exfalso.
  rewrite E in L. set (x := (B2R t - B2R d)%R) in *. set (p := Ulp.pred radix2 fexp (B2R t)).
  assert (Hp : (rnd x <= p)%R) by (apply pred_ge_gt; [typeclasses eauto|apply rnd_fmt|apply fmt|exact L]).
  assert (Fp : generic_format radix2 fexp p) by (apply generic_format_pred; [typeclasses eauto|apply fmt]).
  assert (Hp0 : (0 <= p)%R) by (apply pred_ge_0; [typeclasses eauto|lra|apply fmt]).
  assert (Hs : (p + ulp radix2 fexp p = B2R t)%R) by (rewrite <- (succ_eq_pos radix2 fexp p Hp0); apply succ_pred; [typeclasses eauto|apply fmt]).
  assert (Hu : (p * bpow radix2 (-24) <= ulp radix2 fexp p)%R).
  { pose proof (ulp_FLT_gt radix2 (-149) 24 p) as G. rewrite (Rabs_pos_eq p Hp0) in G. apply Rlt_le, G. }
  assert (B24 : bpow radix2 (-24) = (/ 16777216)%R) by reflexivity. rewrite B24 in Hu.
  pose proof (rnd_nearest x (B2R t) (fmt t)) as Hn. rewrite (Rabs_pos_eq (B2R t - x)) in Hn by (unfold x; lra). apply Rabs_le_inv in Hn. unfold x in *. lra.
Qed.
Lemma short_never (d : f32) : is_finite d = true -> (0 < B2R d)%R -> forall (t : f32), is_finite t = true -> (bpow radix2 26 * B2R d < B2R t)%R -> never_ends (fun fuel => wrap_time fuel d t).
Proof.
  intros Hd Hd0 t Ht H fuel.
  apply (wrap_never d (fun t : f32 => is_finite t = true /\ (bpow radix2 26 * B2R d < B2R t)%R)); [|done]. clear t Ht H fuel.
  intros t [Ht H]. assert (B26 : bpow radix2 26 = 67108864%R) by reflexivity. assert (P : (0 < B2R t)%R) by (rewrite B26 in H; lra). split.
  - apply fgt_wide; [done|by apply finite_not_nan|]. rewrite (wide_finite _ Ht). rewrite B26 in H. lra.
  - destruct (absorbed d t Hd Hd0 Ht H P) as [E F]. split; [exact F|]. rewrite E. exact H.
Qed.
Lemma inf_never (d : f32) : is_finite d = true -> never_ends (fun fuel => wrap_time fuel d (B754_infinity false)).
Proof.
  intros Hd fuel. apply (wrap_never d (fun t => t = B754_infinity false)); [|done]. intros t ->. split; [by destruct d|]. by apply inf_sub.
Qed.
Lemma back_never (d : f32) : is_finite d = true -> (B2R d <= 0)%R -> forall (t : f32), is_nan t = false -> (B2R d < wide t)%R -> never_ends (fun fuel => wrap_time fuel d t).
Proof.
  intros Hd Hd0 t Ht H fuel. apply (wrap_never d (fun t : f32 => is_nan t = false /\ (B2R d < wide t)%R)); [|done]. clear t Ht H fuel.
  intros t [Ht H]. split.
  - unfold fgt. change (Bltb d t) with (flt d t). apply (flt_wide d t (finite_not_nan d Hd) Ht). by rewrite (wide_finite d Hd).
  - destruct (wide_cases t Ht) as [[F W]|[->| ->]].
    + destruct (sub_wide t d F Hd) as [N E]. split; [exact N|]. rewrite E. rewrite W in H. pose proof (finite_top t F) as T. pose proof (finite_top d Hd) as T'.
      eapply Rlt_le_trans; [exact H|]. apply Rle_trans with (cut (B2R t)); [rewrite (cut_in (B2R t) T); lra|]. apply cut_mono. apply rnd_ge_fmt; [apply fmt|lra].
    + pose proof (finite_top d Hd). cbn [wide] in H. lra.
    + rewrite inf_sub by done. split; [done|exact H].
Qed.
