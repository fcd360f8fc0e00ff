(** * Building an input, and the time it carries (C81, C82): proofs. *)
From Coq Require Import ZArith Reals Lra Lia.
From Flocq Require Import Core.Core IEEE754.BinarySingleNaN Relative.
From stdpp Require Import gmap.
From Verif Require Import F32 FloatFacts AnimFloat Element Events View Input SpecInput SpecAnim.
Local Open Scope R_scope.

Definition eps : R := bpow radix2 (-24).
Lemma eps_small : 0 < eps <= / 1000000.
Proof. unfold eps. split; [apply bpow_gt_0|]. change (bpow radix2 (-24)) with (/ IZR 16777216). apply Rinv_le; lra. Qed.
(** rounding moves a number of ordinary size by at most [eps] of it *)
Lemma rnd_near x : x = 0 \/ bpow radix2 (-126) <= x -> x * (1 - eps) <= rnd x <= x * (1 + eps).
Proof.
  intros [->|H]; [rewrite rnd_0; lra|]. pose proof (bpow_gt_0 radix2 (-126)) as Hp.
  pose proof (relative_error_N_FLT radix2 (-149) 24 eq_refl (fun x => negb (Z.even x)) x) as Hr. rewrite (Rabs_pos_eq x) in Hr by lra.
  specialize (Hr H). assert (E : / 2 * bpow radix2 (-24 + 1) = eps). { change (-24 + 1)%Z with (1 + (-24))%Z. rewrite bpow_plus. unfold eps. change (bpow radix2 1) with 2. field. }
  assert (Hr2 : Rabs (round radix2 (FLT_exp (-149) 24) ZnearestE x - x) <= eps * x) by (rewrite <- E; exact Hr). clear Hr. rename Hr2 into Hr. apply Rabs_le_inv in Hr. change (SpecFloat.fexp 24 128) with (FLT_exp (-149) 24). lra.
Qed.

Lemma of_Z z : (0 <= z <= 2 ^ 64)%Z -> is_finite (f32_of_Z z) = true /\ B2R (f32_of_Z z) = rnd (IZR z).
Proof.
  intros H. pose proof (binary_normalize_correct 24 128 f32_prec f32_emax mode_NE z 0 false) as Hb. unfold f32_of_Z. cbv zeta in Hb. cbn [round_mode] in Hb.
  assert (E : F2R (Float radix2 z 0) = IZR z) by (unfold F2R; cbn; ring). rewrite E in Hb.
  rewrite Rlt_bool_true in Hb; [destruct Hb as (H1 & H2 & _); split; assumption|].
  assert (H0 : 0 <= rnd (IZR z)). { rewrite <- rnd_0. apply rnd_le. apply IZR_le. lia. } rewrite Rabs_pos_eq by exact H0.
  apply Rle_lt_trans with (bpow radix2 64); [|apply bpow_lt; lia]. apply rnd_le_fmt; [apply generic_format_bpow; cbv; discriminate|].
  change (bpow radix2 64) with (IZR (2 ^ 64)). apply IZR_le. lia.
Qed.
Lemma whole_size z : (0 <= z)%Z -> IZR z = 0 \/ bpow radix2 (-126) <= IZR z.
Proof.
  intros H. destruct (Z.eq_dec z 0%Z) as [->|Hn]; [by left|right]. apply Rle_trans with 1; [|apply IZR_le; lia]. change 1 with (bpow radix2 0). apply bpow_le. lia.
Qed.
Definition billion : Z := (10 ^ 9)%Z.
Lemma billion_f : is_finite (f32_of_Z billion) = true /\ B2R (f32_of_Z billion) = IZR billion.
Proof.
  destruct (of_Z billion ltac:(unfold billion; lia)) as [H1 H2]. split; [exact H1|]. rewrite H2. apply round_generic; [typeclasses eauto|]. apply generic_format_FLT.
  apply FLT_spec with (Float radix2 1953125 9); [unfold F2R; cbn [Fnum Fexp]; change billion with (1953125 * 512)%Z; rewrite mult_IZR; reflexivity|reflexivity|discriminate].
Qed.
(** the steps of the conversion *)
Lemma seconds_steps nanos : is_duration nanos -> exists A N Q, let s := IZR (nanos / billion) in let n := IZR (nanos mod billion) in
  A = rnd s /\ N = rnd n /\ Q = rnd (N / IZR billion) /\ is_finite (as_secs_f32 nanos) = true /\ B2R (as_secs_f32 nanos) = rnd (A + Q) /\
  0 <= s <= IZR (2 ^ 64) /\ 0 <= n <= IZR (billion - 1) /\ IZR nanos = s * IZR billion + n.
Proof.
  intros [H1 H2]. cbv zeta. set (s := (nanos / billion)%Z). set (n := (nanos mod billion)%Z).
  assert (Hs : (0 <= s < 2 ^ 64)%Z). { split; [apply Z.div_pos; [lia|reflexivity]|]. apply Z.div_lt_upper_bound; [reflexivity|]. unfold billion. lia. }
  assert (Hn : (0 <= n < billion)%Z) by (apply Z.mod_pos_bound; reflexivity).
  destruct (of_Z s ltac:(lia)) as [Fs Es]. destruct (of_Z n ltac:(unfold billion in Hn; lia)) as [Fn En]. destruct billion_f as [Fb Eb].
  assert (Hb : 0 < IZR billion) by (apply IZR_lt; reflexivity).
  assert (HN : 0 <= rnd (IZR n) <= IZR billion).
  { split; [rewrite <- rnd_0; apply rnd_le, IZR_le; lia|]. rewrite <- Eb. apply rnd_le_fmt; [apply generic_format_B2R|]. rewrite Eb. apply IZR_le. lia. }
  assert (HQ : 0 <= rnd (rnd (IZR n) / IZR billion) <= 1).
  { split; [rewrite <- rnd_0; apply rnd_le; apply Rmult_le_pos; [lra|left; by apply Rinv_0_lt_compat]|]. apply rnd_le_fmt; [apply fmt_1|]. apply Rmult_le_reg_r with (IZR billion); [exact Hb|]. unfold Rdiv. rewrite Rmult_assoc, Rinv_l; lra. }
  destruct (div_real (f32_of_Z n) (f32_of_Z billion) Fn ltac:(rewrite Eb; lra)) as [Fq Eq].
  { rewrite En, Eb. rewrite Rabs_pos_eq by lra. apply Rle_lt_trans with 1; [lra|]. change 1 with (bpow radix2 0). apply bpow_lt. lia. }
  rewrite En, Eb in *.
  exists (rnd (IZR s)), (rnd (IZR n)), (rnd (rnd (IZR n) / IZR billion)). split; [done|]. split; [done|]. split; [done|].
  assert (HA : 0 <= rnd (IZR s) <= bpow radix2 64).
  { split; [rewrite <- rnd_0; apply rnd_le, IZR_le; lia|]. apply rnd_le_fmt; [apply generic_format_bpow; cbv; discriminate|]. change (bpow radix2 64) with (IZR (2 ^ 64)). apply IZR_le. lia. }
  destruct (fadd_cases (f32_of_Z s) (fdiv (f32_of_Z n) (f32_of_Z billion)) Fs Fq) as [(Hf & Hr)|(_ & Hov & _)].
  - split; [exact Hf|]. split; [change (10 ^ 9)%Z with billion in *; rewrite Es, Eq in Hr; exact Hr|]. split; [split; apply IZR_le; lia|]. split; [split; apply IZR_le; lia|].
    rewrite <- mult_IZR, <- plus_IZR. f_equal. unfold s, n. rewrite Z.mul_comm. apply Z.div_mod. discriminate.
  - exfalso. rewrite Es, Eq in Hov. assert (Hle : rnd (rnd (IZR s) + rnd (rnd (IZR n) / IZR billion)) <= bpow radix2 65).
    { apply rnd_le_fmt; [apply generic_format_bpow; cbv; discriminate|]. change 65%Z with (1 + 64)%Z. rewrite bpow_plus. change (bpow radix2 1) with 2. pose proof (bpow_ge_0 radix2 64). assert (1 <= bpow radix2 64) by (change 1 with (bpow radix2 0); apply bpow_le; lia). lra. }
    assert (H65 : bpow radix2 65 < bpow radix2 128) by (apply bpow_lt; lia). rewrite Rabs_pos_eq in Hov; [lra|]. rewrite <- rnd_0. apply rnd_le. lra.
Qed.

Lemma seconds_nonneg nanos : is_duration nanos -> frame_time (as_secs_f32 nanos).
Proof.
  intros H. destruct (seconds_steps nanos H) as (A & N & Q & -> & -> & -> & Hf & Hr & Hs & Hn & _). split; [exact Hf|]. rewrite Hr. rewrite <- rnd_0. apply rnd_le.
  assert (0 <= rnd (IZR (nanos / billion))) by (rewrite <- rnd_0; apply rnd_le; lra).
  assert (0 <= rnd (IZR (nanos mod billion))) by (rewrite <- rnd_0; apply rnd_le; lra).
  assert (0 <= rnd (rnd (IZR (nanos mod billion)) / IZR billion)); [|lra]. rewrite <- rnd_0. apply rnd_le. apply Rmult_le_pos; [lra|]. left. apply Rinv_0_lt_compat. apply IZR_lt. reflexivity.
Qed.
(** four parts in 2^24 *)
Lemma seconds_near nanos : is_duration nanos -> Rabs (B2R (as_secs_f32 nanos) - IZR nanos / IZR billion) <= bpow radix2 (-22) * (IZR nanos / IZR billion).
Proof.
  intros H. destruct (seconds_steps nanos H) as (A & N & Q & EA & EN & EQ & Hf & Hr & Hs & Hn & Hd). rewrite Hr. clear Hf Hr.
  set (s := IZR (nanos / billion)) in *. set (n := IZR (nanos mod billion)) in *. pose proof eps_small as He. assert (Hb : IZR billion = 1000000000) by reflexivity. rewrite Hb in *. rewrite Hd. clear Hd.
  assert (E22 : bpow radix2 (-22) = 4 * eps). { change (-22)%Z with (2 + (-24))%Z. rewrite bpow_plus. unfold eps. change (bpow radix2 2) with 4. reflexivity. } rewrite E22.
  replace ((s * 1000000000 + n) / 1000000000) with (s + n / 1000000000) by field.
  assert (H1 : s * (1 - eps) <= A <= s * (1 + eps)). { rewrite EA. apply rnd_near. apply whole_size. apply Z.div_pos; [apply H|reflexivity]. }
  assert (H2 : n * (1 - eps) <= N <= n * (1 + eps)). { rewrite EN. apply rnd_near. apply whole_size. apply Z.mod_pos_bound. reflexivity. }
  assert (Hn1 : n = 0 \/ 1 <= n). { destruct (Z.eq_dec (nanos mod billion)%Z 0%Z) as [E|E]; [left; unfold n; by rewrite E|right]. apply IZR_le. pose proof (Z.mod_pos_bound nanos billion eq_refl). lia. }
  assert (Hs1 : s = 0 \/ 1 <= s). { destruct (Z.eq_dec (nanos / billion)%Z 0%Z) as [E|E]; [left; unfold s; by rewrite E|right]. apply IZR_le. pose proof (Z.div_pos nanos billion ltac:(apply H) eq_refl). lia. }
  assert (Hsmall : bpow radix2 (-126) <= / 4000000000).
  { apply Rle_trans with (bpow radix2 (-32)); [apply bpow_le; lia|]. change (bpow radix2 (-32)) with (/ IZR 4294967296). apply Rinv_le; lra. }
  assert (H3 : N / 1000000000 * (1 - eps) <= Q <= N / 1000000000 * (1 + eps)).
  { rewrite EQ. apply rnd_near. destruct Hn1 as [E|Hn1]; [left; rewrite E in *; lra|right]. nra. }
  assert (H4 : (A + Q) * (1 - eps) <= rnd (A + Q) <= (A + Q) * (1 + eps)).
  { apply rnd_near. destruct Hn1 as [En|Hn1]; [destruct Hs1 as [Es|Hs1]|].
    - left. rewrite En, Es in *. nra.
    - right. assert (0 <= Q) by (rewrite EQ, <- rnd_0; apply rnd_le; nra). nra.
    - right. assert (0 <= A) by nra. assert (/ 4000000000 <= Q) by nra. lra. }
  clear EA EN EQ. set (q := n / 1000000000) in *.
  assert (Hq : 0 <= q) by (unfold q; lra).
  assert (H5 : q * (1 - eps) <= N / 1000000000 <= q * (1 + eps)) by (unfold q; lra).
  assert (H6 : q * (1 - 2 * eps) <= Q <= q * (1 + 2 * eps + eps * eps)) by nra.
  assert (H7 : (s + q) * (1 - 2 * eps) <= A + Q <= (s + q) * (1 + 2 * eps + eps * eps)) by nra.
  assert (Hd : 0 <= s + q) by lra. set (d := s + q) in *. set (B := A + Q) in *.
  apply Rabs_le. assert (Hee : 0 <= eps * eps <= eps / 1000000) by nra.
  assert (Hup : B * (1 + eps) <= d * (1 + 2 * eps + eps * eps) * (1 + eps)) by (apply Rmult_le_compat_r; lra).
  assert (Hlo : d * (1 - 2 * eps) * (1 - eps) <= B * (1 - eps)) by (apply Rmult_le_compat_r; lra).
  assert (Hup2 : (1 + 2 * eps + eps * eps) * (1 + eps) <= 1 + 4 * eps) by nra.
  assert (Hlo2 : 1 - 4 * eps <= (1 - 2 * eps) * (1 - eps)) by nra.
  assert (d * ((1 + 2 * eps + eps * eps) * (1 + eps)) <= d * (1 + 4 * eps)) by (apply Rmult_le_compat_l; lra).
  assert (d * (1 - 4 * eps) <= d * ((1 - 2 * eps) * (1 - eps))) by (apply Rmult_le_compat_l; lra).
  split; lra.
Qed.
(** longer times are not shorter, as long as seconds are exact *)
Lemma seconds_mono a b : is_duration a -> (a <= b < 2 ^ 24 * 10 ^ 9)%Z -> B2R (as_secs_f32 a) <= B2R (as_secs_f32 b).
Proof.
  intros Ha [Hab Hb]. assert (Hdb : is_duration b) by (destruct Ha; unfold is_duration; lia).
  destruct (seconds_steps a Ha) as (A & N & Q & EA & EN & EQ & _ & Hr & Hs & Hn & _). destruct (seconds_steps b Hdb) as (A' & N' & Q' & EA' & EN' & EQ' & _ & Hr' & Hs' & Hn' & _).
  rewrite Hr, Hr'. apply rnd_le. assert (Hbil : 0 < / IZR billion) by (apply Rinv_0_lt_compat, IZR_lt; reflexivity).
  assert (Hex : forall z, (0 <= z < 2 ^ 24 * 10 ^ 9)%Z -> rnd (IZR (z / billion)) = IZR (z / billion)).
  { intros z Hz. apply int_format. rewrite Z.abs_eq by (apply Z.div_pos; [lia|reflexivity]). apply Z.lt_le_incl, Z.div_lt_upper_bound; [reflexivity|]. unfold billion. lia. }
  rewrite Hex in EA, EA' by (destruct Ha; lia).
  assert (Hle : (a / billion <= b / billion)%Z) by (apply Z.div_le_mono; [reflexivity|lia]).
  assert (HQ : forall N, N <= IZR billion -> rnd (N / IZR billion) <= 1). { intros M HM. apply rnd_le_fmt; [apply fmt_1|]. unfold Rdiv. apply Rmult_le_reg_r with (IZR billion); [apply IZR_lt; reflexivity|]. rewrite Rmult_assoc, Rinv_l; [lra|]. apply not_0_IZR. discriminate. }
  assert (HQ0 : 0 <= Q'). { rewrite EQ', <- rnd_0. apply rnd_le. apply Rmult_le_pos; [|lra]. rewrite EN', <- rnd_0. apply rnd_le. lra. }
  destruct (Z.eq_dec (a / billion)%Z (b / billion)%Z) as [E|E].
  - rewrite EA, EA', <- E. apply Rplus_le_compat_l. rewrite EQ, EQ'. apply rnd_le. apply Rmult_le_compat_r; [lra|]. rewrite EN, EN'. apply rnd_le. apply IZR_le.
    pose proof (Z.div_mod a billion ltac:(discriminate)). pose proof (Z.div_mod b billion ltac:(discriminate)). lia.
  - assert (IZR (a / billion) + 1 <= IZR (b / billion)) by (rewrite <- plus_IZR; apply IZR_le; lia).
    assert (Q <= 1); [|lra]. rewrite EQ. apply HQ. rewrite EN. destruct billion_f as [_ <-]. apply rnd_le_fmt; [apply generic_format_B2R|]. destruct billion_f as [_ ->].
    apply Rle_trans with (IZR (billion - 1)); [apply Hn|]. apply IZR_le. lia.
Qed.
Close Scope R_scope.

Lemma build_snoc calls c : build (calls ++ [c]) = call c (build calls).
Proof. unfold build. by rewrite fold_left_app. Qed.
Lemma build_app pre post : build (pre ++ post) = fold_left (fun i c => call c i) post (build pre).
Proof. unfold build. by rewrite fold_left_app. Qed.
Lemma keeps_time post i : Forall (fun c => ~ sets_time c) post -> ib_time (fold_left (fun i c => call c i) post i) = ib_time i.
Proof. intros H. revert i. induction H as [|c post Hc _ IH]; intros i; [done|]. cbn [fold_left]. rewrite IH. destruct c; [by destruct Hc| | |]; reflexivity. Qed.
Lemma keeps_viewport post i : Forall (fun c => ~ sets_viewport c) post -> ib_viewport (fold_left (fun i c => call c i) post i) = ib_viewport i.
Proof. intros H. revert i. induction H as [|c post Hc _ IH]; intros i; [done|]. cbn [fold_left]. rewrite IH. destruct c; [|by destruct Hc| |]; reflexivity. Qed.
Lemma keeps_events post i : Forall (fun c => ~ sets_events c) post -> ib_events (fold_left (fun i c => call c i) post i) = ib_events i ++ flat_map added post.
Proof.
  intros H. revert i. induction H as [|c post Hc _ IH]; intros i; [by rewrite app_nil_r|]. cbn [fold_left flat_map]. rewrite IH. destruct c; [| |by destruct Hc|]; cbn [added]; rewrite ?app_nil_l; [reflexivity..|].
  rewrite app_assoc. reflexivity.
Qed.
Lemma seconds_whole s : (0 <= s < 2 ^ 24)%Z -> B2R (as_secs_f32 (s * 10 ^ 9)) = IZR s.
Proof.
  intros H. destruct (seconds_steps (s * 10 ^ 9)) as (A & N & Q & -> & -> & -> & _ & -> & _).
  { unfold is_duration. lia. }
  change (10 ^ 9)%Z with billion. rewrite Z.div_mul, Z.mod_mul by discriminate. unfold Rdiv. rewrite rnd_0, Rmult_0_l, rnd_0, Rplus_0_r. rewrite int_format by lia. apply int_format. lia.
Qed.
