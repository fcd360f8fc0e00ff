(** * Spans of time as texts: lemmas for PropPipe.v. *)
From Coq Require Import ZArith Reals Lia Lra.
From Flocq Require Import Core.Core IEEE754.BinarySingleNaN.
From stdpp Require Import gmap.
From RecordUpdate Require Import RecordUpdate.
From Verif Require Import Str StrFacts F32 Res ResFacts Json Tree ViewModel SpecText SpecRead SpecTime Transform Number NumberFacts PegFacts ReadFacts.
Close Scope R_scope.
Local Open Scope Z_scope.

Lemma half_even a b : 0 < b -> div_half_even a b = ZnearestE (IZR a / IZR b).
Proof.
  intros Hb. pose proof (Z.div_mod a b ltac:(lia)) as E. pose proof (Z.mod_pos_bound a b Hb) as Hr. unfold div_half_even.
  set (q := a / b) in *. set (r := a mod b) in *.
  assert (Hx : (IZR a / IZR b = IZR q + IZR r / IZR b)%R).
  { rewrite E, plus_IZR, mult_IZR. field. apply IZR_lt in Hb. lra. }
  pose proof (IZR_lt _ _ Hb) as Hb'. rewrite Hx. clear Hx.
  assert (Hd : (IZR r / IZR b * IZR b = IZR r)%R) by (field; lra). set (d := (IZR r / IZR b)%R) in *.
  destruct (Z.ltb_spec (2 * r) b) as [K|K].
  - symmetry. apply Znearest_imp. assert (H0 : (0 <= d < / 2)%R).
    { destruct Hr as [Hr _]. apply IZR_le in Hr. apply IZR_lt in K. rewrite mult_IZR in K. split.
      - apply Rmult_le_reg_r with (IZR b); lra.
      - apply Rmult_lt_reg_r with (IZR b); [lra|]. rewrite Hd. lra. }
    replace (IZR q + d - IZR q)%R with d by ring. rewrite Rabs_pos_eq by lra. lra.
  - destruct (Z.ltb_spec b (2 * r)) as [K'|K'].
    + symmetry. apply Znearest_imp. rewrite plus_IZR.
      assert (H0 : (/ 2 < d < 1)%R).
      { destruct Hr as [_ Hr]. apply IZR_lt in Hr. apply IZR_lt in K'. rewrite mult_IZR in K'. split.
        - apply Rmult_lt_reg_r with (IZR b); [lra|]. rewrite Hd. lra.
        - apply Rmult_lt_reg_r with (IZR b); [lra|]. rewrite Hd. lra. }
      replace (IZR q + d - (IZR q + 1))%R with (- (1 - d))%R by ring. rewrite Rabs_Ropp, Rabs_pos_eq by lra. lra.
    + assert (Hh : d = (/ 2)%R).
      { assert (2 * r = b) by lia. assert (E2 : (2 * IZR r = IZR b)%R) by (rewrite <- mult_IZR; by f_equal).
        apply Rmult_eq_reg_r with (IZR b); [rewrite Hd; lra|lra]. }
      rewrite Hh. unfold Znearest.
      assert (Hf : Zfloor (IZR q + / 2) = q) by (apply Zfloor_imp; rewrite plus_IZR; lra).
      assert (Hc : Zceil (IZR q + / 2) = q + 1).
      { rewrite Zceil_floor_neq; [by rewrite Hf|]. rewrite Hf. lra. }
      rewrite Hf, Hc. replace (IZR q + / 2 - IZR q)%R with (/ 2)%R by ring. rewrite Rcompare_Eq by done. by destruct (Z.even q).
Qed.

Lemma pow2_IZR e : 0 <= e -> IZR (2 ^ e) = bpow radix2 e.
Proof. intros H. apply (IZR_Zpower radix2 e H). Qed.
(** [Duration::from_secs_f64] *)
Lemma secs_ok (f : f64) : is_finite f = true -> (0 <= B2R f < IZR (2 ^ 64))%R -> from_secs_f64 f = Some (ZnearestE (B2R f * IZR (10 ^ 9))).
Proof.
  intros Hf [H0 H1]. destruct f as [s|s| |s m e Hb]; try done.
  - change (B2R (B754_zero s : f64)) with 0%R. rewrite Rmult_0_l. cbn [from_secs_f64]. f_equal. symmetry. apply (Zrnd_IZR ZnearestE 0).
  - destruct s.
    { exfalso. cbn [B2R cond_Zopp] in H0. pose proof (F2R_lt_0 radix2 (Float radix2 (- Zpos m) e)) as K. cbn [Fnum] in K. unfold cond_Zopp in H0. specialize (K ltac:(lia)). cbn [Z.opp] in *. lra. }
    cbn [from_secs_f64]. cbn [B2R cond_Zopp] in H0, H1 |- *. unfold F2R in *. cbn [Fnum Fexp] in *.
    destruct (Z.leb_spec 0 e) as [K|K].
    + rewrite <- (pow2_IZR e K), <- mult_IZR in H1 |- *. apply lt_IZR in H1. apply Z.ltb_lt in H1. cbv zeta. rewrite H1. f_equal.
      rewrite <- mult_IZR. symmetry. apply (Zrnd_IZR ZnearestE).
    + f_equal. rewrite half_even by (apply Z.pow_pos_nonneg; lia). f_equal. rewrite (pow2_IZR (- e)) by lia. rewrite bpow_opp. rewrite mult_IZR.
      pose proof (bpow_gt_0 radix2 e). field. lra.
Qed.
Lemma secs_negative (f : f64) : is_finite f = true -> (B2R f < 0)%R -> from_secs_f64 f = None.
Proof.
  intros Hf H0. destruct f as [s|s| |s m e Hb]; try done.
  - change (B2R (B754_zero s : f64)) with 0%R in H0. lra.
  - destruct s; [done|]. exfalso. cbn [B2R cond_Zopp] in H0. pose proof (F2R_gt_0 radix2 (Float radix2 (Zpos m) e)) as K. cbn [Fnum] in K. specialize (K ltac:(lia)). lra.
Qed.
Lemma secs_long (f : f64) : is_finite f = true -> (IZR (2 ^ 64) <= B2R f)%R -> from_secs_f64 f = None.
Proof.
  intros Hf H1. destruct f as [s|s| |s m e Hb]; try done.
  - change (B2R (B754_zero s : f64)) with 0%R in H1. apply le_IZR in H1. lia.
  - destruct s; [done|]. cbn [from_secs_f64]. cbn [B2R cond_Zopp] in H1. unfold F2R in H1. cbn [Fnum Fexp] in H1.
    destruct (Z.leb_spec 0 e) as [K|K].
    + rewrite <- (pow2_IZR e K), <- mult_IZR in H1. apply le_IZR in H1. cbv zeta. destruct (Z.ltb_spec (Zpos m * 2 ^ e) (2 ^ 64)); [lia|done].
    + exfalso. assert (Hm : Zpos m < 2 ^ 53).
      { pose proof Hb as Hb'. unfold bounded in Hb'. apply andb_prop in Hb' as [Hc _]. apply Zeq_bool_eq in Hc.
        unfold SpecFloat.fexp, SpecFloat.emin in Hc. rewrite Digits.Zpos_digits2_pos in Hc.
        assert (Hd : Digits.Zdigits radix2 (Zpos m) <= 53) by lia.
        apply (Digits.Zpower_gt_Zdigits radix2 53 (Zpos m)) in Hd. cbn in Hd. lia. }
      assert (Hs : (IZR (Zpos m) * bpow radix2 e <= IZR (2 ^ 53) * 1)%R).
      { apply Rmult_le_compat; [apply IZR_le; lia|apply bpow_ge_0|apply IZR_le; lia|]. change 1%R with (bpow radix2 0). apply bpow_le. lia. }
      assert (H2 : (IZR (2 ^ 64) <= IZR (2 ^ 53))%R) by lra. apply le_IZR in H2. lia.
Qed.

(** ** Digits. *)
Lemma whole_acc s acc : whole_value acc s = acc * 10 ^ Z.of_nat (String.length s) + whole_value 0 s.
Proof.
  revert acc. induction s as [|c s IH]; intros acc; cbn [whole_value String.length]; [change (10 ^ Z.of_nat 0) with 1; lia|].
  rewrite (IH (10 * acc + digit_value c)), (IH (10 * 0 + digit_value c)). rewrite Nat2Z.inj_succ, Z.pow_succ_r by lia. ring.
Qed.
Lemma whole_app a b : whole_value 0 (a +:+ b) = whole_value 0 a * 10 ^ Z.of_nat (String.length b) + whole_value 0 b.
Proof.
  assert (H : forall acc, whole_value acc (a +:+ b) = whole_value (whole_value acc a) b).
  { induction a as [|c a IH]; intros acc; [done|]. rewrite sapp_cons. cbn [whole_value]. apply IH. }
  rewrite H, whole_acc. done.
Qed.
Lemma pretty_digit z : 0 <= z < 10 -> digit (pretty_N_char (Z.to_N z)) = true /\ digit_value (pretty_N_char (Z.to_N z)) = z.
Proof.
  intros H. destruct (digit_char (Z.to_N z) ltac:(lia)) as [H1 H2]. split; [by rewrite digit_is|]. rewrite digit_value_is, H2 by done. lia.
Qed.
Lemma fraction_spec places : forall part, 0 <= part < 10 ^ Z.of_nat places ->
  all digit (fraction places part) /\ (String.length (fraction places part) <= places)%nat /\
  whole_value 0 (fraction places part) * 10 ^ (Z.of_nat places - Z.of_nat (String.length (fraction places part))) = part.
Proof.
  induction places as [|p IH]; intros part H; cbn [fraction]; [change (10 ^ Z.of_nat 0) with 1 in H; cbn; repeat split; lia|].
  destruct (Z.eqb_spec part 0) as [->|Hne]; [cbn [all String.length whole_value]; repeat split; lia|].
  assert (H10 : 0 < 10 ^ Z.of_nat p) by (apply Z.pow_pos_nonneg; lia).
  rewrite Nat2Z.inj_succ, Z.pow_succ_r in H by lia.
  destruct (IH (part mod 10 ^ Z.of_nat p)) as (Hd & Hl & Hv); [apply Z.mod_pos_bound; lia|].
  destruct (pretty_digit (part / 10 ^ Z.of_nat p)) as (Hc & Hcv); [split; [apply Z.div_pos; lia|apply Z.div_lt_upper_bound; lia]|].
  set (f := fraction p (part mod 10 ^ Z.of_nat p)) in *. cbn [all String.length whole_value]. split; [done|]. split; [lia|].
  rewrite Hcv, whole_acc. replace (Z.of_nat (S p) - Z.of_nat (S (String.length f))) with (Z.of_nat p - Z.of_nat (String.length f)) by lia.
  rewrite Z.mul_add_distr_r, Hv. pose proof (Z.div_mod part (10 ^ Z.of_nat p) ltac:(lia)) as E.
  replace ((10 * 0 + part / 10 ^ Z.of_nat p) * 10 ^ Z.of_nat (String.length f) * 10 ^ (Z.of_nat p - Z.of_nat (String.length f)))
    with (10 ^ Z.of_nat p * (part / 10 ^ Z.of_nat p)); [lia|].
  replace (Z.of_nat p) with (Z.of_nat (String.length f) + (Z.of_nat p - Z.of_nat (String.length f))) at 1 by lia.
  rewrite Z.pow_add_r by lia. ring.
Qed.
Lemma fraction_last places : forall part, 0 <= part < 10 ^ Z.of_nat places -> part <> 0 ->
  exists ds d, fraction places part = ds +:+ String d "" /\ d <> "0"%char.
Proof.
  induction places as [|p IH]; intros part H Hne; [change (10 ^ Z.of_nat 0) with 1 in H; lia|]. cbn [fraction].
  destruct (Z.eqb_spec part 0) as [|_]; [done|].
  assert (H10 : 0 < 10 ^ Z.of_nat p) by (apply Z.pow_pos_nonneg; lia).
  rewrite Nat2Z.inj_succ, Z.pow_succ_r in H by lia. set (c := pretty_N_char _).
  destruct (Z.eq_dec (part mod 10 ^ Z.of_nat p) 0) as [Hz|Hz].
  - rewrite Hz. exists "", c. assert (E : fraction p 0 = "") by (by destruct p). rewrite E. split; [done|].
    destruct (pretty_digit (part / 10 ^ Z.of_nat p)) as (Hc & Hcv); [split; [apply Z.div_pos; lia|apply Z.div_lt_upper_bound; lia]|].
    fold c in Hcv. intros K. rewrite K in Hcv. change (digit_value "0") with 0 in Hcv. pose proof (Z.div_mod part (10 ^ Z.of_nat p) ltac:(lia)) as E'. rewrite Hz, <- Hcv in E'. lia.
  - destruct (IH (part mod 10 ^ Z.of_nat p)) as (ds & d & -> & Hd); [apply Z.mod_pos_bound; lia|done|].
    exists (String c ds), d. split; [by rewrite sapp_cons|done].
Qed.
Lemma fmt_whole n : 0 <= n ->
  all digit (fmt_N (Z.to_N n)) /\ whole_value 0 (fmt_N (Z.to_N n)) = n /\
  (fmt_N (Z.to_N n) = "0" \/ exists d r, fmt_N (Z.to_N n) = String d r /\ d <> "0"%char).
Proof.
  intros Hn. assert (Hall : forall n s, all digit s -> all digit (pretty_N_go n s)).
  { clear. intros n. induction (N.lt_wf_0 n) as [n _ IH]; intros s Hs. destruct (decide (n = 0)%N) as [->|Hn]; [by rewrite pretty_N_go_0|].
    rewrite pretty_N_go_step by lia. apply IH; [apply N.div_lt; lia|]. split; [|done]. rewrite digit_is. apply digit_char. apply N.mod_lt. lia. }
  assert (Hd : all digit (fmt_N (Z.to_N n))).
  { unfold fmt_N, pretty, pretty_N. destruct (decide _); [by split|]. by apply Hall. }
  split; [done|]. split.
  - pose proof (parse_digits_spec (fmt_N (Z.to_N n)) 0%N Hd) as Hp. assert (Hq : parse_digits 0 (fmt_N (Z.to_N n)) = Some (Z.to_N n)).
    { unfold fmt_N, pretty, pretty_N. destruct (decide _) as [H|H]; [by rewrite H|]. by rewrite parse_pretty_go. }
    rewrite Hq in Hp. injection Hp as Hp. change (Z.of_N 0) with 0 in Hp. pose proof (whole_value_pos (fmt_N (Z.to_N n)) 0 Hd ltac:(lia)). lia.
  - unfold fmt_N, pretty, pretty_N. destruct (decide _) as [H|H]; [by left|]. right.
    destruct (pretty_go_first (Z.to_N n) "" H) as (c & r & -> & d & Hd' & ->). exists (pretty_N_char d), r. split; [done|].
    assert (Hx : (d = 1 \/ d = 2 \/ d = 3 \/ d = 4 \/ d = 5 \/ d = 6 \/ d = 7 \/ d = 8 \/ d = 9)%N) by lia.
    by repeat (destruct Hx as [->|Hx]); [..|subst].
Qed.

Definition time_text (s : string) (nanos : Z) : Prop := written_time s nanos /\ neat_time s nanos.
Lemma decimal_text nanos places unit u : 0 <= nanos -> 10 ^ Z.of_nat places = u -> In (unit, u) time_units ->
  (u <= nanos \/ unit = "ns") -> (forall unit' u', In (unit', u') time_units -> u' <= nanos -> u' <= u) ->
  time_text (fmt_decimal (nanos / u) (nanos mod u) places unit) nanos.
Proof.
  intros Hn Hu Hin Hle Hbig. assert (Hu0 : 0 < u) by (rewrite <- Hu; apply Z.pow_pos_nonneg; lia).
  destruct (fmt_whole (nanos / u)) as (W1 & W2 & W3); [apply Z.div_pos; lia|].
  pose proof (Z.mod_pos_bound nanos u Hu0) as Hm. rewrite <- Hu in Hm at 3.
  destruct (fraction_spec places (nanos mod u) Hm) as (F1 & F2 & F3).
  unfold fmt_decimal. cbv zeta. set (w := fmt_N (Z.to_N (nanos / u))) in *.
  pose proof (fraction_last places (nanos mod u) Hm) as F4. set (f := fraction places (nanos mod u)) in *.
  pose proof (Z.div_mod nanos u ltac:(lia)) as E.
  assert (Hw : w <> "") by (destruct W3 as [->|(d & r & -> & _)]; done).
  split.
  - destruct f as [|c f'] eqn:Ef.
    + exists w, (nanos / u), 0%nat, unit, u. change (("" : string) +:+ unit) with unit. split; [done|]. split.
      { rewrite <- W2. apply (decimal_whole false); done. }
      split; [done|]. cbn [whole_value] in F3. change (10 ^ Z.of_nat 0) with 1. lia.
    + rewrite <- Ef in *. clear Ef c f'. exists (w +:+ String "." f), (whole_value 0 (w +:+ f)), (String.length f), unit, u. split.
      { rewrite !sapp_assoc. f_equal. }
      split. { apply (decimal_point false w f); [done|done|]. destruct W3 as [->|(d & r & -> & _)]; done. }
      split; [done|]. rewrite whole_app, W2.
      rewrite <- F3 in E. set (l := Z.of_nat (String.length f)) in *. rewrite Z.mul_add_distr_r.
      replace u with (10 ^ l * 10 ^ (Z.of_nat places - l)) at 2 3 by (rewrite <- Z.pow_add_r by lia; rewrite <- Hu; f_equal; lia).
      rewrite E at 2. rewrite <- Hu at 2. replace (10 ^ Z.of_nat places) with (10 ^ l * 10 ^ (Z.of_nat places - l)) by (rewrite <- Z.pow_add_r by lia; f_equal; lia). ring.
  - exists w, (match f with "" => "" | _ => "." +:+ f end), unit, u. repeat (split; [done|]).
    destruct f as [|c f'] eqn:Ef; [by left|]. rewrite <- Ef in *. right. destruct F4 as (ds & d & Hf & Hd).
    { intros K. rewrite K in F3. subst f. rewrite K in Ef. destruct places; cbn in Ef; done. }
    exists ds, d. split; [by rewrite <- Hf|]. split; [by rewrite <- Hf|done].
Qed.
Lemma duration_text nanos : 0 <= nanos -> time_text (fmt_duration nanos) nanos.
Proof.
  intros Hn. unfold fmt_duration.
  assert (Hu : forall unit u, In (unit, u) time_units -> u = 10 ^ 9 \/ u = 10 ^ 6 \/ u = 10 ^ 3 \/ u = 1).
  { intros unit u [[= <- <-]|[[= <- <-]|[[= <- <-]|[[= <- <-]|[]]]]]; auto. }
  destruct (Z.leb_spec (10 ^ 9) nanos) as [K|K]; [|destruct (Z.leb_spec (10 ^ 6) nanos) as [K1|K1]; [|destruct (Z.leb_spec (10 ^ 3) nanos) as [K2|K2]]].
  - apply decimal_text; [done|done|by left|by left|]. intros unit' u' H' H0. destruct (Hu _ _ H') as [->|[->|[->| ->]]]; lia.
  - apply decimal_text; [done|done|right; by left|by left|]. intros unit' u' H' H0. destruct (Hu _ _ H') as [->|[->|[->| ->]]]; lia.
  - apply decimal_text; [done|done|do 2 right; by left|by left|]. intros unit' u' H' H0. destruct (Hu _ _ H') as [->|[->|[->| ->]]]; lia.
  - replace (fmt_decimal nanos 0 0 "ns") with (fmt_decimal (nanos / 1) (nanos mod 1) 0 "ns") by (by rewrite Z.div_1_r, Z.mod_1_r).
    apply decimal_text; [done|done|do 3 right; by left|by right|]. intros unit' u' H' H0. destruct (Hu _ _ H') as [->|[->|[->| ->]]]; lia.
Qed.

(** ** The transformer. *)
Lemma number_double n r : num_wf n = true -> number_is n r -> is_finite (num_as_f64 n) = true /\ B2R (num_as_f64 n) = double r.
Proof.
  destruct n as [n|z|f]; cbn [num_wf num_as_f64 number_is]; intros Hw Hr.
  - subst r. apply N.leb_le in Hw. unfold u64_max in Hw. apply f64_int. lia.
  - subst r. apply andb_prop in Hw as [H1 H2]. apply f64_int. lia.
  - destruct Hr as [_ ->]. split; [done|]. symmetry. apply round_generic; [typeclasses eauto|]. apply (generic_format_B2R 53 1024).
Qed.
Lemma double_pos r : (0 <= r)%R -> (0 <= double r)%R.
Proof. intros H. unfold double. rewrite <- (round_0 radix2 (FLT_exp (-1074) 53) ZnearestE). by apply rnd64_le. Qed.
Lemma nearest_pos (r : R) : (0 <= r)%R -> 0 <= ZnearestE r.
Proof. intros H. rewrite <- (Zrnd_IZR ZnearestE 0). by apply (Zrnd_le ZnearestE). Qed.
Lemma duration_shows n r : num_wf n = true -> number_is n r -> (0 <= r)%R -> (double r < IZR (2 ^ 64))%R ->
  exists s, duration (JNum n) = Ok (JStr s) /\ written_time s (nearest_whole (double r * IZR (10 ^ 9))) /\ neat_time s (nearest_whole (double r * IZR (10 ^ 9))).
Proof.
  intros Hw Hr H0 H1. destruct (number_double n r Hw Hr) as [Hf Hb]. pose proof (double_pos r H0) as Hd. unfold duration. cbn [as_f64].
  rewrite secs_ok by (rewrite ?Hb; done). rewrite Hb. eexists. split; [done|]. apply duration_text. apply nearest_pos. apply Rmult_le_pos; [done|]. apply IZR_le. lia.
Qed.
Lemma duration_panics n r : num_wf n = true -> number_is n r -> (double r < 0)%R \/ (IZR (2 ^ 64) <= double r)%R -> duration (JNum n) = Panic.
Proof.
  intros Hw Hr H. destruct (number_double n r Hw Hr) as [Hf Hb]. unfold duration. cbn [as_f64]. rewrite <- Hb in H.
  destruct H as [H|H]; [by rewrite secs_negative|by rewrite secs_long].
Qed.
Lemma duration_other v : (forall n, v <> JNum n) -> duration v = Ok v.
Proof. intros H. destruct v; try done. by destruct (H n). Qed.
Lemma duration_negative n r : num_wf n = true -> number_is n r -> (r < 0)%R -> duration (JNum n) = Panic.
Proof.
  intros Hw Hr H. eapply duration_panics; [done|exact Hr|]. left. destruct n as [n|z|f]; cbn [num_wf number_is] in *.
  - subst r. apply lt_IZR in H. lia.
  - subst r. apply lt_IZR in H. assert (Hd : (double (IZR z) <= double (IZR (-1)))%R) by (apply rnd64_le; apply IZR_le; lia).
    unfold double in Hd at 2. rewrite (f64_small (-1)) in Hd by lia. lra.
  - destruct Hr as [_ ->]. unfold double. rewrite round_generic; [done|typeclasses eauto|]. apply (generic_format_B2R 53 1024).
Qed.
Lemma whole_seconds n : (0 < n <= 2 ^ 53)%N -> duration (JNum (NPos n)) = Ok (JStr (fmt_N n +:+ "s")).
Proof.
  intros Hn. destruct (f64_int (Z.of_N n)) as [Hf Hb]; [lia|]. rewrite f64_small in Hb by lia.
  unfold duration. cbn [as_f64 num_as_f64]. rewrite secs_ok; [|done|].
  2:{ rewrite Hb. split; [apply IZR_le; lia|apply IZR_lt; lia]. }
  rewrite Hb, <- mult_IZR, (Zrnd_IZR ZnearestE). do 2 f_equal. unfold fmt_duration.
  destruct (Z.leb_spec (10 ^ 9) (Z.of_N n * 10 ^ 9)) as [K|K]; [|lia]. rewrite Z.div_mul, Z.mod_mul by lia. unfold fmt_decimal. cbn [fraction]. rewrite N2Z.id. done.
Qed.

(** ** A text writes one time. *)
Definition numeral_char (c : ascii) : bool := digit c || Ascii.eqb c ".".
Lemma all_weaken (p q : ascii -> bool) s : (forall c, p c = true -> q c = true) -> all p s -> all q s.
Proof. intros H. induction s as [|c s IH]; [done|]. intros [Hc Hs]. split; [by apply H|by apply IH]. Qed.
Lemma decimal_chars t m k : decimal t false m k -> all numeral_char t.
Proof.
  assert (Hw : forall s, all digit s -> all numeral_char s) by (intros s; apply all_weaken; unfold numeral_char; intros c ->; done).
  intros H. inversion H; subst.
  - change (("" : string) +:+ ds) with ds. by apply Hw.
  - change (("" : string) +:+ (ds +:+ String "." fs)) with (ds +:+ String "." fs). apply all_app. split; [by apply Hw|]. split; [done|by apply Hw].
Qed.
Lemma split_unique (p : ascii -> bool) a : forall b x y, all p a -> all p b -> stops p x -> stops p y -> a +:+ x = b +:+ y -> a = b /\ x = y.
Proof.
  induction a as [|c a IH]; intros [|d b] x y Ha Hb Hx Hy E.
  - done.
  - change (("" : string) +:+ x) with x in E. rewrite sapp_cons in E. destruct Hb as [Hd _]. subst x. cbn in Hx. congruence.
  - change (("" : string) +:+ y) with y in E. rewrite sapp_cons in E. destruct Ha as [Hc _]. subst y. cbn in Hy. congruence.
  - rewrite !sapp_cons in E. injection E as -> E. destruct Ha as [_ Ha], Hb as [_ Hb]. destruct (IH b x y Ha Hb Hx Hy E) as [-> ->]. done.
Qed.
Lemma decimal_unique t m k m' k' : decimal t false m k -> decimal t false m' k' -> m = m' /\ k = k'.
Proof.
  intros H H'. assert (Hx : forall s, s = ("" : string) +:+ s) by done.
  inversion H as [neg ds A1 A2 E1 E2|neg ds fs A1 A2 A3 E1 E2]; inversion H' as [neg' ds' B1 B2 F1 F2|neg' ds' fs' B1 B2 B3 F1 F2]; subst; cbv iota in *; rewrite <- ?Hx in *.
  - subst. done.
  - exfalso. subst ds. apply all_app in A1 as [_ [A1 _]]. done.
  - exfalso. subst ds'. apply all_app in B1 as [_ [B1 _]]. done.
  - destruct (split_unique digit ds' ds (String "." fs') (String "." fs)) as [-> E]; [done..|]. injection E as ->. done.
Qed.
Lemma written_one s a b : written_time s a -> written_time s b -> a = b.
Proof.
  intros (t & m & k & unit & u & -> & Hd & Hu & Hv) (t' & m' & k' & unit' & u' & E & Hd' & Hu' & Hv').
  assert (Hst : forall unit u, In (unit, u) time_units -> stops numeral_char unit).
  { intros ? ? [[= <- <-]|[[= <- <-]|[[= <- <-]|[[= <- <-]|[]]]]]; done. }
  destruct (split_unique numeral_char t t' unit unit' (decimal_chars _ _ _ Hd) (decimal_chars _ _ _ Hd') (Hst _ _ Hu) (Hst _ _ Hu') E) as [-> ->].
  destruct (decimal_unique _ _ _ _ _ Hd Hd') as [-> ->].
  assert (u = u') as ->.
  { clear - Hu Hu'. destruct Hu as [[= <- <-]|[[= <- <-]|[[= <- <-]|[[= <- <-]|[]]]]]; destruct Hu' as [[= <-]|[[= <-]|[[= <-]|[[= <-]|[]]]]]; done. }
  rewrite Hv in Hv'. apply Z.mul_reg_r in Hv'; [done|]. pose proof (Z.pow_pos_nonneg 10 (Z.of_nat k') ltac:(lia) ltac:(lia)). lia.
Qed.
