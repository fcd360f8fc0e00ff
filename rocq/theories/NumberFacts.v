(** * Reading decimal numbers: the result is the correctly rounded one. *)
From Coq Require Import ZArith Reals Lia Lra.
From Flocq Require Import Core.Core IEEE754.BinarySingleNaN Calc.Bracket Calc.Div.
From Verif Require Import Str StrFacts SpecText F32 Number PegFacts.
Local Open Scope R_scope.

Lemma digit_is c : digit c = is_digit c.
Proof. by destruct c as [[] [] [] [] [] [] [] []]. Qed.
Lemma digit_value_is c : is_digit c = true -> digit_value c = Z.of_N (digit_val c).
Proof. by destruct c as [[] [] [] [] [] [] [] []]. Qed.
Lemma digit_value_pos c : is_digit c = true -> (0 <= digit_value c)%Z.
Proof. intros H. rewrite digit_value_is by done. apply N2Z.is_nonneg. Qed.

Lemma parse_digits_spec s acc : all digit s -> parse_digits acc s = Some (Z.to_N (whole_value (Z.of_N acc) s)).
Proof.
  revert acc. induction s as [|c s IH]; intros acc; [intros _; cbn [parse_digits whole_value]; by rewrite N2Z.id|].
  intros [Hc Hs]. cbn [parse_digits whole_value]. rewrite digit_is in Hc. rewrite Hc, IH by done. do 3 f_equal.
  rewrite digit_value_is by done. lia.
Qed.
Lemma whole_value_pos s acc : all digit s -> (0 <= acc)%Z -> (0 <= whole_value acc s)%Z.
Proof.
  revert acc. induction s as [|c s IH]; intros acc H Ha; cbn [whole_value]; [done|]. destruct H as [Hc Hs].
  apply IH; [done|]. rewrite digit_is in Hc. pose proof (digit_value_pos c Hc). lia.
Qed.
Lemma digits_of_spec t r : all digit t -> stops is_digit r -> digits_of (t +:+ r) = (t, r).
Proof.
  induction t as [|c t IH]; intros Ht Hr.
  - change ("" +:+ r) with r. destruct r as [|d r]; [done|]. cbn in Hr |- *. by rewrite Hr.
  - destruct Ht as [Hc Ht]. rewrite sapp_cons. cbn [digits_of]. rewrite <- digit_is, Hc, IH by done. done.
Qed.
Lemma all_app p a b : all p (a +:+ b) <-> all p a /\ all p b.
Proof. induction a as [|c a IH]; [change ("" +:+ b) with b; cbn; tauto|]. rewrite sapp_cons. cbn. rewrite IH. tauto. Qed.

(** ** The rounded quotient. *)
Definition is_nearest (neg : bool) (m : Z) (k : nat) (x : f32) : Prop :=
  let r := (IZR m / IZR (10 ^ Z.of_nat k))%R in
  ((nearest r < IZR (2 ^ 128))%R ->
     is_finite x = true /\ B2R x = (if neg then - nearest r else nearest r)%R /\ Bsign x = neg) /\
  (~ (nearest r < IZR (2 ^ 128))%R -> x = B754_infinity neg).

Lemma is_nearest_fun neg m k x y : is_nearest neg m k x -> is_nearest neg m k y -> x = y.
Proof.
  intros [H1 H2] [K1 K2]. destruct (Rlt_dec (nearest (IZR m / IZR (10 ^ Z.of_nat k))) (IZR (2 ^ 128))) as [Hr|Hr].
  - destruct (H1 Hr) as (a & b & c), (K1 Hr) as (a' & b' & c'). apply B2R_Bsign_inj; congruence.
  - by rewrite (H2 Hr), (K2 Hr).
Qed.

Lemma pow10_pos k : 0 < IZR (10 ^ Z.of_nat k).
Proof. apply IZR_lt. lia. Qed.

Lemma f32_of_SF_valid z (h : SpecFloat.valid_binary 24 128 z = true) : f32_of_SF z = SF2B z h.
Proof.
  unfold f32_of_SF. destruct (Bool.bool_dec _ true) as [h'|n]; [|by contradiction n]. apply B2SF_inj. by rewrite !B2SF_SF2B.
Qed.

Lemma nearest_mode (y : R) : round radix2 (SpecFloat.fexp 24 128) (round_mode mode_NE) y = nearest y.
Proof. reflexivity. Qed.
Lemma nearest_opp (y : R) : nearest (- y) = - nearest y.
Proof. unfold nearest. apply round_NE_opp. Qed.
Lemma nearest_0 : nearest 0 = 0.
Proof. unfold nearest. apply round_0. typeclasses eauto. Qed.
Lemma nearest_pos (y : R) : 0 <= y -> 0 <= nearest y.
Proof.
  intros H. rewrite <- nearest_0. unfold nearest at 1 2. apply round_le; [apply FLT_exp_valid; done|typeclasses eauto|done].
Qed.

Theorem decimal_nearest neg (m : N) k : is_nearest neg (Z.of_N m) k (f32_of_decimal neg m k).
Proof.
  pose proof (pow10_pos k) as Hk. unfold f32_of_decimal. destruct m as [|p].
  - unfold is_nearest. cbv zeta. change (IZR (Z.of_N 0)) with 0. unfold Rdiv. rewrite Rmult_0_l, nearest_0. split.
    + intros _. split; [done|]. split; [|done]. cbn [B2R]. destruct neg; ring.
    + intros H. exfalso. apply H. apply IZR_lt. reflexivity.
  - pose proof (Fdiv_correct (beta := radix2) (SpecFloat.fexp 24 128) (Float radix2 (Zpos p) 0) (Float radix2 (10 ^ Z.of_nat k) 0)) as HF.
    assert (E1 : F2R (Float radix2 (Zpos p) 0) = IZR (Zpos p)) by (unfold F2R; cbn [Fnum Fexp]; change (bpow radix2 0) with 1; ring).
    assert (E2 : F2R (Float radix2 (10 ^ Z.of_nat k) 0) = IZR (10 ^ Z.of_nat k)) by (unfold F2R; cbn [Fnum Fexp]; change (bpow radix2 0) with 1; ring).
    rewrite E1, E2 in HF. assert (Hp : 0 < IZR (Zpos p)) by (apply IZR_lt; lia).
    specialize (HF Hp Hk).
    destruct (Fdiv _ _ _) as [[mz ez] lz]. destruct HF as [Hc Hi].
    change (Z.of_N (N.pos p)) with (Zpos p).
    set (q := IZR (Zpos p) / IZR (10 ^ Z.of_nat k)) in *.
    assert (Hq : 0 < q) by (unfold q; apply Rdiv_lt_0_compat; done).
    set (x := if neg then - q else q).
    assert (Hx : x <> 0) by (unfold x; destruct neg; lra).
    assert (Habs : Rabs x = q) by (unfold x; destruct neg; [rewrite Rabs_Ropp|]; apply Rabs_pos_eq; lra).
    assert (Hneg : Rlt_bool x 0 = neg).
    { unfold x. destruct neg; [apply Rlt_bool_true; lra|apply Rlt_bool_false; lra]. }
    assert (Hce : (ez <= cexp radix2 (SpecFloat.fexp 24 128) x)%Z).
    { rewrite <- cexp_abs, Habs. exact Hc. }
    pose proof (binary_round_aux_correct' 24 128 f32_prec f32_emax mode_NE x mz ez lz Hx) as HB.
    rewrite Habs in HB. specialize (HB Hi Hce). cbv zeta in HB. rewrite Hneg in HB. destruct HB as [Hv HB].
    rewrite (f32_of_SF_valid _ Hv). rewrite nearest_mode in HB.
    assert (Hbp : bpow radix2 128 = IZR (2 ^ 128)) by (symmetry; apply (IZR_Zpower radix2 128); lia). rewrite Hbp in HB.
    assert (Hn : nearest x = if neg then - nearest q else nearest q) by (unfold x; destruct neg; [apply nearest_opp|done]).
    assert (Ha : Rabs (nearest x) = nearest q).
    { pose proof (nearest_pos q ltac:(lra)). rewrite Hn. destruct neg; [rewrite Rabs_Ropp|]; by apply Rabs_pos_eq. }
    rewrite Ha in HB. unfold is_nearest. cbv zeta. fold q. split; intros Hlt.
    + rewrite Rlt_bool_true in HB by done. destruct HB as (H1 & H2 & H3).
      split; [by rewrite is_finite_SF2B|]. split; [by rewrite B2R_SF2B, H1|by rewrite Bsign_SF2B].
    + rewrite Rlt_bool_false in HB by lra. apply B2SF_inj. rewrite B2SF_SF2B, HB. reflexivity.
Qed.

(** ** Whole texts. *)
Lemma sign_split (neg : bool) t : stops (fun c => Ascii.eqb c "-" || Ascii.eqb c "+") t ->
  (match (if neg then "-" else "") +:+ t with
   | String "-" r => (true, r)
   | String "+" r => (false, r)
   | _ => (false, (if neg then "-" else "") +:+ t)
   end) = (neg, t).
Proof.
  intros H. destruct neg.
  - reflexivity.
  - change ("" +:+ t) with t. destruct t as [|c t]; [done|]. cbn in H. by destruct c as [[] [] [] [] [] [] [] []].
Qed.
Lemma digits_sign t r : all digit t -> stops (fun c => Ascii.eqb c "-" || Ascii.eqb c "+") r -> stops (fun c => Ascii.eqb c "-" || Ascii.eqb c "+") (t +:+ r).
Proof.
  destruct t as [|c t]; [done|]. intros [Hc _] _. cbn. by destruct c as [[] [] [] [] [] [] [] []].
Qed.
Lemma length_zero (s : string) : s <> "" -> (String.length s <> 0)%nat.
Proof. by destruct s. Qed.

Theorem denotes_reads t x : denotes t x -> read_f32 t = x.
Proof.
  intros (neg & m & k & Hd & Hx). fold (is_nearest neg m k x) in Hx.
  assert (H : exists n, parse_f32 t = Some (f32_of_decimal neg n k) /\ Z.of_N n = m).
  { unfold parse_f32. destruct Hd as [neg ds Hds Hn|neg ds fs Hds Hfs Hn].
    - rewrite sign_split by (rewrite <- (sapp_nil ds); by apply digits_sign).
      pose proof (digits_of_spec ds "" Hds I) as Ed. rewrite sapp_nil in Ed. rewrite Ed.
      change (String.length "") with 0%nat. rewrite Nat.add_0_r.
      destruct (Nat.eqb_spec (String.length ds) 0) as [E|_]; [by apply length_zero in Hn|].
      rewrite sapp_nil, (parse_digits_spec ds 0 Hds). eexists. split; [reflexivity|].
      rewrite Z2N.id; [done|]. by apply whole_value_pos.
    - rewrite sign_split by (by apply digits_sign).
      rewrite (digits_of_spec ds (String "." fs) Hds eq_refl).
      pose proof (digits_of_spec fs "" Hfs I) as Ed. rewrite sapp_nil in Ed. rewrite Ed.
      rewrite <- sapp_length. destruct (Nat.eqb_spec (String.length (ds +:+ fs)) 0) as [E|_]; [by apply length_zero in Hn|].
      assert (Hall : all digit (ds +:+ fs)) by (by apply all_app).
      rewrite (parse_digits_spec _ 0 Hall). eexists. split; [reflexivity|].
      rewrite Z2N.id; [done|]. by apply whole_value_pos. }
  destruct H as (n & Hp & <-). unfold read_f32. rewrite Hp.
  eapply is_nearest_fun; [apply decimal_nearest|exact Hx].
Qed.
(** Every numeral denotes a number. *)
Theorem decimal_denotes t neg m k : decimal t neg m k -> exists x, denotes t x.
Proof.
  intros Hd. assert (Hm : (0 <= m)%Z).
  { destruct Hd; apply whole_value_pos; try done. by apply all_app. }
  exists (f32_of_decimal neg (Z.to_N m) k). exists neg, m, k. split; [done|].
  pose proof (decimal_nearest neg (Z.to_N m) k) as H. rewrite Z2N.id in H by done. exact H.
Qed.
