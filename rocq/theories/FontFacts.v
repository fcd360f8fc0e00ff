(** * Measuring texts: lemmas for PropFont.v. *)
From Coq Require Import ZArith Reals Lia Lra.
From Flocq Require Import Core.Core IEEE754.BinarySingleNaN.
From stdpp Require Import gmap.
From Verif Require Import Str F32 Element Tree Fonts FloatFacts.
Local Open Scope R_scope.

Lemma floor_spec (a : f32) : is_finite a = true -> is_finite (f_floor a) = true /\ B2R (f_floor a) = IZR (Zfloor (B2R a)).
Proof.
  intros Ha. unfold f_floor. destruct (Bnearbyint_correct 24 128 f32_emax mode_DN a) as (H1 & H2 & _). split; [by rewrite H2|].
  rewrite H1. apply (round_FIX_IZR Zfloor).
Qed.
Lemma rnd_whole (q : R) : 0 <= q <= IZR (2 ^ 23) -> 0 <= rnd q <= IZR (2 ^ 23) /\ (Zfloor q <= Zfloor (rnd q) <= Zceil q)%Z.
Proof.
  intros [H0 H1]. assert (Hf : (0 <= Zfloor q <= 2 ^ 23)%Z).
  { split; [apply Zfloor_lub; exact H0|]. apply le_IZR. eapply Rle_trans; [apply Zfloor_lb|done]. }
  assert (Hc : (0 <= Zceil q <= 2 ^ 23)%Z).
  { split; [|apply Zceil_glb; exact H1]. apply le_IZR. eapply Rle_trans; [exact H0|apply Zceil_ub]. }
  assert (L : IZR (Zfloor q) <= rnd q). { rewrite <- (int_format (Zfloor q)) by lia. apply rnd_le, Zfloor_lb. }
  assert (U : rnd q <= IZR (Zceil q)). { rewrite <- (int_format (Zceil q)) by lia. apply rnd_le, Zceil_ub. }
  split; [split|split].
  - eapply Rle_trans; [|exact L]. apply IZR_le. lia.
  - eapply Rle_trans; [exact U|]. apply IZR_le. lia.
  - by apply Zfloor_lub.
  - apply le_IZR. eapply Rle_trans; [apply Zfloor_lb|exact U].
Qed.
Lemma div_rnd (w m : f32) : is_finite w = true -> 0 < B2R m -> 0 <= B2R w / B2R m <= IZR (2 ^ 23) ->
  is_finite (fdiv w m) = true /\ B2R (fdiv w m) = rnd (B2R w / B2R m).
Proof.
  intros Hw Hm Hq. pose proof (Bdiv_correct 24 128 f32_prec f32_emax mode_NE w m ltac:(lra)) as H. cbn [round_mode] in H.
  rewrite Rlt_bool_true in H; [destruct H as (H1 & H2 & _); split; [unfold fdiv; rewrite H2; exact Hw|exact H1]|].
  destruct (rnd_whole _ Hq) as ((R1 & R2) & _). rewrite Rabs_pos_eq by done. eapply Rle_lt_trans; [exact R2|]. change (2 ^ 23)%Z with (radix2 ^ 23)%Z. rewrite (IZR_Zpower radix2 23) by lia. apply bpow_lt. lia.
Qed.
Definition line_count (w m : f32) : Z := (1 + Zfloor (rnd (B2R w / B2R m)))%Z.
Lemma lines_count (w m : f32) : is_finite w = true -> 0 < B2R m -> 0 <= B2R w / B2R m <= IZR (2 ^ 23) ->
  fadd f1 (f_floor (fdiv w m)) = f32_of_Z (line_count w m) /\ (1 <= line_count w m <= 2 ^ 23 + 1)%Z.
Proof.
  intros Hw Hm Hq. destruct (div_rnd w m Hw Hm Hq) as (D1 & D2). destruct (floor_spec _ D1) as (F1 & F2). rewrite D2 in F2.
  destruct (rnd_whole _ Hq) as ((R1 & R2) & _). unfold line_count.
  assert (Hk : (0 <= Zfloor (rnd (B2R w / B2R m)) <= 2 ^ 23)%Z).
  { split; [by apply Zfloor_lub|]. apply le_IZR. eapply Rle_trans; [apply Zfloor_lb|done]. }
  set (k := Zfloor (rnd (B2R w / B2R m))) in *. split; [|lia].
  destruct (f32_int 1 ltac:(lia)) as (O1 & O2). change (f32_of_Z 1) with f1 in *. destruct (f32_int (1 + k) ltac:(lia)) as (K1 & K2).
  destruct (fadd_cases f1 (f_floor (fdiv w m)) O1 F1) as [[A1 A2]|[_ [A2 _]]]; rewrite O2, F2, <- plus_IZR, int_format in A2 by lia.
  - apply (B2R_inj 24 128).
    + destruct (fadd f1 _); try done. change (B2R (B754_zero s : f32)) with 0 in A2. assert (E : IZR 0 = IZR (1 + k)) by exact A2. apply eq_IZR in E. lia.
    + destruct (f32_of_Z (1 + k)); try done. change (B2R (B754_zero s : f32)) with 0 in K2. assert (E : IZR 0 = IZR (1 + k)) by exact K2. apply eq_IZR in E. lia.
    + by rewrite A2, K2.
  - exfalso. rewrite Rabs_pos_eq in A2 by (apply IZR_le; lia). assert (bpow radix2 128 <= bpow radix2 24).
    { eapply Rle_trans; [exact A2|]. rewrite <- (IZR_Zpower radix2 24) by lia. apply IZR_le. cbn. lia. }
    apply (Rle_not_lt _ _ H). apply bpow_lt. lia.
Qed.
Lemma text_fits text face m w h : dummy_fonts text face None = (w, h) -> is_finite w = true -> is_finite m = true -> 0 < B2R m -> 0 <= B2R w ->
  B2R w <= IZR (2 ^ 23) * B2R m ->
  exists k, dummy_fonts text face (Some m) = (m, fmul (f32_of_Z k) (f_size face)) /\ (1 <= k <= 2 ^ 23 + 1)%Z /\
    B2R w < IZR k * B2R m /\ (IZR k - 2) * B2R m < B2R w.
Proof.
  unfold dummy_fonts. intros [= Hwd _] Hw Hm Hm0 Hw0 Hle. subst w. set (w := fmul _ f_three_quarters) in *.
  assert (Hq : 0 <= B2R w / B2R m <= IZR (2 ^ 23)).
  { split; [apply Rmult_le_pos; [done|]; left; by apply Rinv_0_lt_compat|]. apply Rmult_le_reg_r with (B2R m); [done|]. unfold Rdiv. rewrite Rmult_assoc, Rinv_l by lra. lra. }
  assert (Hne : feq m f0 = false).
  { unfold feq. rewrite (Beqb_correct 24 128 m f0 Hm eq_refl). change (B2R f0) with 0. apply Req_bool_false. lra. }
  rewrite Hne. destruct (lines_count w m Hw Hm0 Hq) as (-> & Hk). exists (line_count w m). split; [done|]. split; [done|].
  destruct (rnd_whole _ Hq) as (_ & F1 & F2). unfold line_count.
  assert (Hr : B2R w = B2R w / B2R m * B2R m) by (field; lra). set (q := B2R w / B2R m) in *. clearbody q.
  set (z := Zfloor (rnd q)) in *. clearbody z. pose proof (Zfloor_ub q) as U. rewrite plus_IZR. split.
  - rewrite Hr. apply Rmult_lt_compat_r; [done|]. eapply Rlt_le_trans; [exact U|]. apply IZR_le in F1. lra.
  - rewrite Hr. apply Rmult_lt_compat_r; [done|]. assert (C : IZR (Zceil q) < q + 1).
    { destruct (Req_dec (IZR (Zfloor q)) q) as [E|E]; [rewrite <- E at 1; rewrite Zceil_IZR; lra|]. rewrite (Zceil_floor_neq q E), plus_IZR. pose proof (Zfloor_lb q). lra. }
    apply IZR_le in F2. lra.
Qed.
Lemma mul_mono (a b s : f32) : is_finite a = true -> is_finite b = true -> is_finite s = true -> 0 <= B2R s -> 0 <= B2R a <= B2R b ->
  is_finite (fmul b s) = true -> is_finite (fmul a s) = true /\ B2R (fmul a s) <= B2R (fmul b s).
Proof.
  intros Ha Hb Hs H0 Hab Hf. pose proof (Bmult_correct 24 128 f32_prec f32_emax mode_NE a s) as A. pose proof (Bmult_correct 24 128 f32_prec f32_emax mode_NE b s) as B.
  cbn [round_mode] in A, B. assert (L : 0 <= rnd (B2R a * B2R s) <= rnd (B2R b * B2R s)).
  { split; [rewrite <- rnd_0; apply rnd_le; apply Rmult_le_pos; lra|]. apply rnd_le. apply Rmult_le_compat_r; lra. }
  destruct (Rlt_bool_spec (Rabs (rnd (B2R b * B2R s))) (bpow radix2 128)) as [Hlt|Hge].
  - destruct B as (B1 & _). rewrite Rabs_pos_eq in Hlt by lra. rewrite Rlt_bool_true in A by (rewrite Rabs_pos_eq; lra).
    destruct A as (A1 & A2 & _). unfold fmul in *. rewrite A1, A2, B1, Ha, Hs. split; [done|]. lra.
  - exfalso. unfold fmul in Hf. unfold binary_overflow in B. cbn in B. destruct (Bmult mode_NE b s); cbn in B; done.
Qed.
Lemma narrower_higher text face m m' w h h1 h2 : dummy_fonts text face None = (w, h) -> is_finite w = true -> is_finite m = true -> is_finite m' = true ->
  0 < B2R m <= B2R m' -> 0 <= B2R w <= IZR (2 ^ 23) * B2R m -> 0 <= B2R (f_size face) -> is_finite (f_size face) = true ->
  dummy_fonts text face (Some m) = (m, h1) -> dummy_fonts text face (Some m') = (m', h2) -> is_finite h1 = true ->
  is_finite h2 = true /\ B2R h2 <= B2R h1.
Proof.
  unfold dummy_fonts. intros [= Hwd _] Hw Hm Hm' [Hm0 Hmm] [Hw0 Hle] Hs0 Hs. subst w. set (w := fmul _ f_three_quarters) in *.
  assert (Hz : forall m : f32, is_finite m = true -> 0 < B2R m -> feq m f0 = false).
  { intros y Hy Hy0. unfold feq. rewrite (Beqb_correct 24 128 y f0 Hy eq_refl). change (B2R f0) with 0. apply Req_bool_false. lra. }
  rewrite (Hz m Hm Hm0), (Hz m' Hm' ltac:(lra)). intros Hh1 Hh2 Hf. apply (f_equal snd) in Hh1, Hh2. cbn [snd] in Hh1, Hh2. subst h1 h2.
  assert (Hinv : 0 < / B2R m' <= / B2R m) by (split; [apply Rinv_0_lt_compat; lra|apply Rinv_le; lra]).
  assert (Hqq : 0 <= B2R w / B2R m' <= B2R w / B2R m) by (unfold Rdiv; split; [apply Rmult_le_pos; lra|apply Rmult_le_compat_l; lra]).
  assert (Hq : B2R w / B2R m <= IZR (2 ^ 23)).
  { apply Rmult_le_reg_r with (B2R m); [done|]. unfold Rdiv. rewrite Rmult_assoc, Rinv_l by lra. lra. }
  destruct (lines_count w m Hw Hm0 ltac:(lra)) as (E & Hk). destruct (lines_count w m' Hw ltac:(lra) ltac:(lra)) as (E' & Hk'). rewrite E in Hf |- *. rewrite E'.
  destruct (f32_int (line_count w m) ltac:(lia)) as (K1 & K2). destruct (f32_int (line_count w m') ltac:(lia)) as (K1' & K2').
  apply mul_mono; [done..| |done]. rewrite K2, K2'. split; [apply IZR_le; lia|]. apply IZR_le. unfold line_count. apply Zplus_le_compat_l. apply Zfloor_le. apply rnd_le. lra.
Qed.

(** ** The width of a line, exactly *)
Lemma small_bpow (r : R) : Rabs r <= IZR (2 ^ 24) -> Rabs r < bpow radix2 128.
Proof. intros H. eapply Rle_lt_trans; [exact H|]. change (2 ^ 24)%Z with (radix2 ^ 24)%Z. rewrite (IZR_Zpower radix2 24) by lia. apply bpow_lt. lia. Qed.
Lemma quarter : bpow radix2 (-2) = / 4.
Proof. reflexivity. Qed.
Lemma quarters_format z : (Z.abs z < 2 ^ 24)%Z -> rnd (IZR z / 4) = IZR z / 4.
Proof.
  intros H. apply round_generic; [typeclasses eauto|]. apply generic_format_FLT.
  apply FLT_spec with (Float radix2 z (-2)); [unfold F2R; cbn [Fnum Fexp]; rewrite quarter; unfold Rdiv; reflexivity|exact H|unfold SpecFloat.emin; cbn [Fexp]; lia].
Qed.
Lemma three_quarters : is_finite f_three_quarters = true /\ B2R f_three_quarters = 3 / 4.
Proof.
  pose proof (binary_normalize_correct 24 128 f32_prec f32_emax mode_NE 3 (-2) false) as Hb. cbv zeta in Hb. cbn [round_mode] in Hb.
  assert (E : F2R (Float radix2 3 (-2)) = IZR 3 / 4) by (unfold F2R; cbn [Fnum Fexp]; rewrite quarter; unfold Rdiv; reflexivity). rewrite E, quarters_format in Hb by lia.
  rewrite Rlt_bool_true in Hb; [|apply small_bpow; rewrite Rabs_pos_eq by lra; assert (IZR 3 <= IZR (2 ^ 24)) by (apply IZR_le; lia); lra].
  destruct Hb as (H1 & H2 & _). split; [exact H2|exact H1].
Qed.
Lemma line_width text face s : is_finite (f_size face) = true -> B2R (f_size face) = IZR s -> (0 <= s)%Z -> (Z.of_nat (String.length text) <= 2 ^ 22)%Z ->
  (3 * (Z.of_nat (String.length text) * s) < 2 ^ 24)%Z ->
  let r := dummy_fonts text face None in is_finite (fst r) = true /\ B2R (fst r) = INR (String.length text) * IZR s * (3 / 4) /\ snd r = f_size face.
Proof.
  intros Hf Hs Hs0 Hn H. cbv zeta. unfold dummy_fonts. cbn [fst snd]. set (n := Z.of_nat (String.length text)) in *.
  assert (Hn0 : (0 <= n)%Z) by (unfold n; lia). destruct (f32_int n ltac:(lia)) as (N1 & N2). destruct three_quarters as (T1 & T2).
  pose proof (Bmult_correct 24 128 f32_prec f32_emax mode_NE (f32_of_Z n) (f_size face)) as M. cbn [round_mode] in M.
  fold (rnd (B2R (f32_of_Z n) * B2R (f_size face))) in M. rewrite N2, Hs, <- mult_IZR, int_format in M by nia.
  rewrite Rlt_bool_true in M; [|apply small_bpow; rewrite <- abs_IZR; apply IZR_le; nia]. destruct M as (M1 & M2 & _). rewrite N1, Hf in M2.
  pose proof (Bmult_correct 24 128 f32_prec f32_emax mode_NE (fmul (f32_of_Z n) (f_size face)) f_three_quarters) as P. cbn [round_mode] in P.
  fold (rnd (B2R (fmul (f32_of_Z n) (f_size face)) * B2R f_three_quarters)) in P. unfold fmul in P at 1 2. rewrite M1, T2 in P.
  replace (IZR (n * s) * (3 / 4)) with (IZR (3 * (n * s)) / 4) in P by (rewrite (mult_IZR 3); lra). rewrite quarters_format in P by nia.
  rewrite Rlt_bool_true in P.
  2: { apply small_bpow. assert (0 <= IZR (3 * (n * s)) <= IZR (2 ^ 24)) by (split; apply IZR_le; nia). rewrite Rabs_pos_eq by lra. lra. }
  destruct P as (P1 & P2 & _). split; [|split; [|done]].
  - unfold fmul at 1. rewrite P2, T1. unfold fmul. by rewrite M2.
  - unfold fmul in *. rewrite P1, M1. replace (IZR (n * s) * (3 / 4)) with (IZR (3 * (n * s)) / 4) by (rewrite (mult_IZR 3); lra).
    rewrite quarters_format, (mult_IZR 3), mult_IZR by nia. unfold n. rewrite <- INR_IZR_INZ. lra.
Qed.
