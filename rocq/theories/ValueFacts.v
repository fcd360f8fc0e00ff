(** * Shorthands, lengths, colour functions (C56, C57, C59). *)
From Coq Require Import ZArith Reals Lia Lra.
From Flocq Require Import Core.Core IEEE754.BinarySingleNaN Relative.
From stdpp Require Import gmap.
From Verif Require Import Str F32 Res PropKey Css Element Cascade Apply SpecStyle SpecShow SpecCss SpecValues ResFacts CascadeFacts FloatFacts.
Close Scope R_scope.
Notation modest := SpecValues.modest (only parsing).

(** ** Shorthands *)
Definition longhand (key : PropertyKey) : bool :=
  match key with
  | KBackground | KBackgroundPosition | KBorder | KBorderTop | KBorderRight | KBorderBottom | KBorderLeft | KBorderWidth | KBorderColor | KBorderRadius
  | KOverflow | KInset | KGap | KPadding | KMargin | KTransition | KAnimation => false
  | _ => true
  end.
Lemma expand_longhand key v : longhand key = true -> expand key [v] = [(key, v)].
Proof. by destruct key. Qed.
Lemma animation_part_longhand timed v k : animation_part timed v = Some k -> longhand k = true.
Proof.
  destruct v; cbn [animation_part]; intros H; try discriminate H; injection H as <-; [|by destruct timed|reflexivity].
  repeat match goal with |- context [if ?b then _ else _] => destruct b end; reflexivity.
Qed.
Lemma animation_parts_longhands vs : forall timed l, animation_parts timed vs = Some l -> Forall (fun '(k, _) => longhand k = true) l.
Proof.
  induction vs as [|v vs IH]; intros timed l H; cbn [animation_parts] in H; [injection H as <-; constructor|].
  destruct (animation_part timed v) as [k|] eqn:E; [|discriminate H]. destruct (animation_parts _ vs) as [l'|] eqn:E'; [|discriminate H]. injection H as <-.
  constructor; [by eapply animation_part_longhand|by eapply IH].
Qed.
Lemma animation_parts_values vs : forall timed l, animation_parts timed vs = Some l -> map snd l = vs.
Proof.
  induction vs as [|v vs IH]; intros timed l H; cbn [animation_parts] in H; [by injection H as <-|].
  destruct (animation_part timed v) as [k|] eqn:E; [|discriminate H]. destruct (animation_parts _ vs) as [l'|] eqn:E'; [|discriminate H]. injection H as <-. cbn. f_equal. by eapply IH.
Qed.
Lemma expand_border a b c : expand KBorder [a; b; c] = border_all a c.
Proof. by destruct a. Qed.
Definition last_of_unique l k v : NoDup (map fst l) -> In (k, v) l -> last_given l k = Some v.
Proof.
  induction l as [|[k' v'] l IH]; intros Hn Hi; [destruct Hi|]. cbn [map] in Hn. apply list.NoDup_cons in Hn as [Hk Hn]. cbn [last_given]. destruct Hi as [[= -> ->]|Hi].
  - destruct (last_given l k) as [w|] eqn:E; [|by rewrite decide_True]. exfalso. apply Hk. apply last_given_in in E. apply elem_of_list_In. apply in_map_iff. by exists (k, w).
  - by rewrite (IH Hn Hi).
Qed.
Lemma shorthand_keys key vs l : css_shorthand key vs = Some l -> Forall (fun '(k, _) => longhand k = true) l /\ NoDup (map fst l).
Proof.
  intros H. destruct key; try discriminate H; cbn [css_shorthand] in H.
  1: { unfold css_animation in H. destruct (animation_parts false vs) as [l'|] eqn:E; [|discriminate H]. destruct (bool_decide _) eqn:B; [|discriminate H]. injection H as <-.
       apply bool_decide_eq_true in B. split; [by eapply animation_parts_longhands|exact B]. }
  all: unfold box, pair_of, sides in H; destruct vs as [|a [|b [|c [|d [|? ?]]]]]; try discriminate H; try (injection H as <-; split; [repeat constructor|apply (bool_decide_unpack _); vm_compute; exact I]).
  all: destruct a as [kw0| | | | | |col| |]; try discriminate H; try (destruct (String.eqb kw0 "none"); [|discriminate H]); injection H as <-; (split; [repeat constructor|apply (bool_decide_unpack _); vm_compute; exact I]).
Qed.
Lemma shorthand_longhands key vs l : css_shorthand key vs = Some l -> Forall (fun '(k, _) => longhand k = true) l.
Proof. intros H. by apply shorthand_keys in H as [H _]. Qed.
Lemma delay_part timed v : animation_part timed v = Some KAnimationDelay -> exists y, v = CTime y.
Proof. destruct v; cbn [animation_part]; intros H; try discriminate H; [|by eauto]. exfalso. revert H. repeat match goal with |- context [if ?b then _ else _] => destruct b end; discriminate. Qed.
Lemma count_part timed v : animation_part timed v = Some KAnimationIterationCount -> forall y, v <> CTime y.
Proof. intros H y ->. cbn in H. by destruct timed. Qed.
Lemma part_of vs : forall timed l i k v, animation_parts timed vs = Some l -> l !! i = Some (k, v) -> exists timed', animation_part timed' v = Some k.
Proof.
  induction vs as [|w vs IH]; intros timed l i k v H Hi; cbn [animation_parts] in H; [by injection H as <-|].
  destruct (animation_part timed w) as [k'|] eqn:E; [|discriminate H]. destruct (animation_parts _ vs) as [l'|] eqn:E'; [|discriminate H]. injection H as <-.
  destruct i as [|i]; [injection Hi as <- <-; by exists timed|]. by eapply IH.
Qed.
Ltac same := apply NoDup_Permutation; [apply (NoDup_fmap_1 fst); apply (bool_decide_unpack _); vm_compute; exact I..|intros ?x; rewrite ?elem_of_cons, ?elem_of_nil; clear; tauto].
Lemma animation_expands vs l : css_animation vs = Some l -> css_like KAnimation vs -> expand KAnimation vs ≡ₚ l.
Proof.
  intros H (l' & Hl' & Hin). unfold css_animation in H. rewrite Hl' in H. destruct (bool_decide _); [|discriminate H]. injection H as <-.
  pose proof (fun v => part_of _ _ _ 2 KAnimationDelay v Hl') as Hd. pose proof (fun v => part_of _ _ _ 2 KAnimationIterationCount v Hl') as Hn.
  pose proof (animation_parts_values _ _ _ Hl') as Hv. clear Hl'. subst vs.
  cbn [In] in Hin. destruct l' as [|[k1 v1] [|[k2 v2] [|[k3 v3] [|[k4 v4] [|? ?]]]]]; cbn [map fst snd] in *;
    repeat (destruct Hin as [Hin|Hin]; [try discriminate Hin|]); try (by destruct Hin).
  - injection Hin as <- <-. reflexivity.
  - injection Hin as <- <- <-. assert (Ex : expand KAnimation [v1; v2; v3] = [(KAnimationDuration, v1); (KAnimationName, v3); (KAnimationTimingFunction, v2)]) by (by destruct v3). rewrite Ex. same.
  - injection Hin as <- <- <- <-. destruct (Hd v3 eq_refl) as (tm & E). apply delay_part in E as (y & ->). cbn [expand]. same.
  - injection Hin as <- <- <- <-. destruct (Hn v3 eq_refl) as (tm & E). pose proof (count_part _ _ E) as Hy.
    assert (Ex : expand KAnimation [v1; v2; v3; v4] = [(KAnimationDuration, v1); (KAnimationIterationCount, v3); (KAnimationName, v4); (KAnimationTimingFunction, v2)]).
    { destruct v3; try reflexivity. by destruct (Hy f). }
    rewrite Ex. same.
Qed.
Lemma last_given_perm l l' k : NoDup (map fst l) -> l' ≡ₚ l -> last_given l' k = last_given l k.
Proof.
  intros Hn Hp. assert (Hn' : NoDup (map fst l')). { by rewrite Hp. }
  destruct (last_given l k) as [v|] eqn:E.
  - apply last_given_in in E. apply (last_of_unique l' k v Hn'). apply elem_of_list_In. rewrite Hp. by apply elem_of_list_In.
  - destruct (last_given l' k) as [v|] eqn:E'; [|done]. apply last_given_in in E'. apply elem_of_list_In in E'. rewrite Hp in E'. apply elem_of_list_In in E'. by rewrite (last_of_unique l k v Hn E') in E.
Qed.
Lemma shorthand_expands key vs l : css_shorthand key vs = Some l -> css_like key vs -> forall k, last_given (expand key vs) k = last_given l k.
Proof.
  intros H Hl k. pose proof (shorthand_keys _ _ _ H) as [_ Hn]. apply last_given_perm; [exact Hn|]. destruct key; try discriminate H; cbn [css_shorthand] in H.
  1: by apply animation_expands.
  all: unfold box, pair_of, sides in H; destruct vs as [|a [|b [|c [|d [|? ?]]]]]; try discriminate H; cbn [css_like List.length] in Hl; try lia;
    try (injection H as <-; first [reflexivity|rewrite expand_border; unfold border_all; same]; fail).
  8: { assert (E : border_all a c ≡ₚ l). { unfold border_all. destruct a; injection H as <-; same. } by rewrite expand_border. }
  all: destruct a as [kw0| | | | | |col| |]; try discriminate H; try (injection H as <-; unfold expand, kw_none; same).
  cbn [expand]. destruct (String.eqb kw0 "none"); [|discriminate H]. injection H as <-. unfold border_all, kw_currentcolor. same.
Qed.
Lemma overwrite_app i l l' s : overwrite_all i (l ++ l') s = overwrite_all i l' (overwrite_all i l s).
Proof. unfold overwrite_all. by rewrite foldl_app. Qed.
Lemma overwrite_same i l l' s : (forall k, last_given l k = last_given l' k) -> overwrite_all i l s = overwrite_all i l' s.
Proof.
  intros H. unfold ComputedStyle. apply (map_eq (overwrite_all i l s) (overwrite_all i l' s)). intros [k j].
  etransitivity; [exact (last_given_overwrite i l s k j)|]. etransitivity; [|symmetry; exact (last_given_overwrite i l' s k j)]. by rewrite H.
Qed.
Definition give_all (l : list (PropertyKey * ComputedValue)) : list Declaration := map (fun '(k, v) => DeclProperty (mkProperty k [[DExplicit v]])) l.
Lemma block_longhands fuel vars l : forall s, Forall (fun '(k, _) => longhand k = true) l -> fuel <> 0 ->
  compute_declaration_block fuel (give_all l) (vars, s) = Ok (vars, overwrite_all 0 l s).
Proof.
  unfold compute_declaration_block. induction l as [|[k v] l IH]; intros s Hl Hf; [reflexivity|]. inversion Hl as [|? ? Hk Hl']; subst.
  cbn [give_all map foldR]. destruct fuel as [|fuel]; [done|].
  assert (E : compute_declaration (S fuel) (vars, s) (DeclProperty (mkProperty k [[DExplicit v]])) = Ok (vars, overwrite_all 0 [(k, v)] s)).
  { cbn [compute_declaration p_key p_values compute_values]. unfold compute_style, compute_shorthand. cbn [mapR compute_definition bindR List.concat app].
    by rewrite (expand_longhand k v Hk). }
  rewrite E. cbn [bindR]. rewrite (IH _ Hl' Hf). by rewrite <- overwrite_app.
Qed.
Theorem shorthand_block fuel key sh vs l pre post st :
  (forall vars s, compute_declaration_block fuel pre st = Ok (vars, s) -> compute_shorthand fuel vars sh = Ok vs) -> css_shorthand key vs = Some l -> css_like key vs ->
  compute_declaration_block fuel (pre ++ DeclProperty (mkProperty key [sh]) :: post) st = compute_declaration_block fuel (pre ++ give_all l ++ post) st.
Proof.
  intros Hs Hl Hc. unfold compute_declaration_block in *. rewrite !foldR_app.
  destruct (foldR (compute_declaration fuel) st pre) as [[vars s]| | |]; cbn [bindR]; [|reflexivity..].
  specialize (Hs vars s eq_refl). rewrite !foldR_app. cbn [foldR].
  assert (Hf : fuel <> 0). { intros ->. destruct sh as [|d sh]; [|done]. cbn in Hs. injection Hs as <-. destruct key; try discriminate Hl. destruct Hc as (l' & [= <-] & Hin). cbn in Hin. repeat (destruct Hin as [Hin|Hin]; [discriminate Hin|]). destruct Hin. }
  fold (compute_declaration_block fuel (give_all l) (vars, s)). rewrite (block_longhands _ _ _ s (shorthand_longhands _ _ _ Hl) Hf). cbn [bindR].
  assert (Ed : compute_declaration fuel (vars, s) (DeclProperty (mkProperty key [sh])) = Ok (vars, overwrite_all 0 l s)).
  { cbn [compute_declaration p_key p_values compute_values]. unfold compute_style. rewrite Hs. cbn [bindR]. rewrite (overwrite_same 0 _ _ s (shorthand_expands _ _ _ Hl Hc)). reflexivity. }
  rewrite Ed. reflexivity.
Qed.
Theorem shorthand_gives vars key sh vs l k i v : mean_all vars sh vs -> css_shorthand key vs = Some l -> css_like key vs ->
  gives vars (DeclProperty (mkProperty key [sh])) k i v <-> i = 0 /\ In (k, v) l.
Proof.
  intros Hm Hl Hc. split.
  - intros (p & sh' & vs' & [= <-] & Hi & Hm' & Hg). cbn [p_values] in Hi. cbn [p_key] in Hg. destruct i as [|i]; [|by rewrite lookup_cons, lookup_nil in Hi].
    injection Hi as <-. rewrite (mean_all_fun _ _ _ _ Hm' Hm) in Hg. rewrite (shorthand_expands _ _ _ Hl Hc) in Hg. split; [done|by apply last_given_in].
  - intros [-> Hin]. eexists _, sh, vs. split; [reflexivity|]. split; [done|]. split; [exact Hm|]. cbn [p_key]. rewrite (shorthand_expands _ _ _ Hl Hc).
    apply last_of_unique; [by apply (shorthand_keys key vs)|exact Hin].
Qed.

(** ** Colour channels *)
Lemma as_u8_channel (f : f32) : is_finite f = true -> channel (B2R f) (f32_as_u8 f).
Proof.
  intros Hf. assert (E : f32_as_u8 f = saturate 255 (Btrunc f)) by (destruct f as [[]|[]| |]; done). rewrite E. clear E.
  assert (Et : Btrunc f = Ztrunc (B2R f)). { apply eq_IZR. rewrite (Btrunc_correct 24 128 f32_emax f). apply round_FIX_IZR. }
  rewrite Et. clear Et Hf. generalize (B2R f). intros r. unfold channel, saturate. destruct (Rle_or_lt r 0) as [H0|H0].
  - left. split; [exact H0|]. rewrite Ztrunc_ceil by exact H0. pose proof (Zceil_le _ _ H0) as Hc. rewrite (Zceil_IZR 0) in Hc. lia.
  - assert (H0' : (0 <= r)%R) by lra. rewrite Ztrunc_floor by exact H0'. pose proof (Zfloor_lb r) as Lb. pose proof (Zfloor_ub r) as Ub.
    pose proof (Zfloor_le 0 r H0') as Hf. rewrite (Zfloor_IZR 0) in Hf. right. destruct (Rle_or_lt 255 r) as [H1|H1].
    + left. split; [exact H1|]. pose proof (Zfloor_le 255 r H1) as Hg. rewrite (Zfloor_IZR 255) in Hg. lia.
    + right. assert (Zfloor r < 255)%Z. { apply lt_IZR. lra. } replace (Z.max 0 (Z.min 255 (Zfloor r))) with (Zfloor r) by lia. lra.
Qed.
Lemma channel_fun r z z' : channel r z -> channel r z' -> z = z'.
Proof.
  unfold channel. intros [[H ->]|[[H ->]|[H K]]] [[H' ->]|[[H' ->]|[H' K']]]; try reflexivity; try lra.
  - assert (r = 0)%R by lra. subst r. assert (G : (IZR z' <= IZR 0)%R) by lra. apply le_IZR in G. assert (G' : (IZR (-1) < IZR z')%R) by lra. apply lt_IZR in G'. lia.
  - assert (r = 255)%R by lra. subst r. assert (G : (IZR z' <= IZR 255)%R) by lra. apply le_IZR in G. assert (G' : (IZR 254 < IZR z')%R) by lra. apply lt_IZR in G'. lia.
  - assert (r = 0)%R by lra. subst r. assert (G : (IZR z <= IZR 0)%R) by lra. apply le_IZR in G. assert (G' : (IZR (-1) < IZR z)%R) by lra. apply lt_IZR in G'. lia.
  - assert (r = 255)%R by lra. subst r. assert (G : (IZR z <= IZR 255)%R) by lra. apply le_IZR in G. assert (G' : (IZR 254 < IZR z)%R) by lra. apply lt_IZR in G'. lia.
  - assert (G : (IZR z < IZR (z' + 1))%R) by (rewrite plus_IZR; lra). assert (G' : (IZR z' < IZR (z + 1))%R) by (rewrite plus_IZR; lra). apply lt_IZR in G, G'. lia.
Qed.
Lemma as_u8_int z : (0 <= z <= 255)%Z -> f32_as_u8 (f32_of_Z z) = z.
Proof.
  intros Hz. destruct (f32_int z ltac:(lia)) as [Hf Hr]. apply (channel_fun (IZR z)); [rewrite <- Hr; by apply as_u8_channel|].
  right; right. assert (0 <= IZR z <= 255)%R by (split; apply IZR_le; lia). lra.
Qed.
Lemma fmul_real (a b : f32) : is_finite a = true -> is_finite b = true -> (Rabs (rnd (B2R a * B2R b)) < bpow radix2 128)%R ->
  is_finite (fmul a b) = true /\ B2R (fmul a b) = rnd (B2R a * B2R b).
Proof.
  intros Ha Hb H. pose proof (Bmult_correct 24 128 f32_prec f32_emax mode_NE a b) as Hm. cbn [round_mode] in Hm. rewrite Rlt_bool_true in Hm by exact H.
  destruct Hm as (H1 & H2 & _). unfold fmul. rewrite H2, Ha, Hb. split; [reflexivity|exact H1].
Qed.
Lemma fdiv_real (a b : f32) : is_finite a = true -> B2R b <> 0%R -> (Rabs (rnd (B2R a / B2R b)) < bpow radix2 128)%R ->
  is_finite (fdiv a b) = true /\ B2R (fdiv a b) = rnd (B2R a / B2R b).
Proof.
  intros Ha Hb H. pose proof (Bdiv_correct 24 128 f32_prec f32_emax mode_NE a b Hb) as Hm. cbn [round_mode] in Hm. rewrite Rlt_bool_true in Hm by exact H.
  destruct Hm as (H1 & H2 & _). unfold fdiv. rewrite H2, Ha. split; [reflexivity|exact H1].
Qed.
Lemma small_fits x : (Rabs x <= 1024)%R -> (Rabs (rnd x) < bpow radix2 128)%R.
Proof.
  intros H. apply Rle_lt_trans with 1024%R.
  - assert (E : rnd 1024 = 1024%R) by (apply (int_format 1024); lia). apply Rabs_le. apply Rabs_le_inv in H. split.
    + rewrite <- E. rewrite <- round_NE_opp. apply rnd_le. lra.
    + rewrite <- E. apply rnd_le. lra.
  - change 1024%R with (IZR (Zpower radix2 10)). rewrite (IZR_Zpower radix2 10) by lia. apply bpow_lt. lia.
Qed.
Lemma percent_channel (p : f32) : is_finite p = true -> (0 <= B2R p <= 1)%R -> channel (rnd (B2R p * 255)) (f32_as_u8 (fmul p f255)).
Proof.
  intros Hp H. destruct (f32_int 255 ltac:(lia)) as [Hf Hr]. fold f255 in Hf, Hr.
  destruct (fmul_real p f255 Hp Hf) as [H1 H2]; [rewrite Hr; apply small_fits; rewrite Rabs_pos_eq by nra; nra|].
  rewrite Hr in H2. rewrite <- H2. by apply as_u8_channel.
Qed.

(** ** Lengths *)
Lemma fmax_real (a b : f32) : is_finite a = true -> is_finite b = true -> is_finite (fmax a b) = true /\ B2R (fmax a b) = Rmax (B2R a) (B2R b).
Proof.
  intros Ha Hb. unfold fmax, fgt, flt. destruct a as [| | |], b as [| | |]; try discriminate; cbn [is_nan].
  all: match goal with |- context [Bltb ?x ?y] => pose proof (flt_real x y eq_refl eq_refl) as Hl; unfold flt in Hl; destruct (Bltb x y) end.
  all: split; [reflexivity|]; unfold Rmax; destruct (Rle_dec _ _); try reflexivity.
  all: first [destruct Hl as [Hl _]; specialize (Hl eq_refl); lra | destruct Hl as [_ Hl]; apply Rle_antisym; try lra; apply Rnot_lt_le; intros Hx; discriminate (Hl ltac:(lra))].
Qed.
Lemma fmin_real (a b : f32) : is_finite a = true -> is_finite b = true -> is_finite (fmin a b) = true /\ B2R (fmin a b) = Rmin (B2R a) (B2R b).
Proof.
  intros Ha Hb. unfold fmin, fgt, flt. destruct a as [| | |], b as [| | |]; try discriminate; cbn [is_nan].
  all: match goal with |- context [Bltb ?x ?y] => pose proof (flt_real x y eq_refl eq_refl) as Hl; unfold flt in Hl; destruct (Bltb x y) end.
  all: split; [reflexivity|]; unfold Rmin; destruct (Rle_dec _ _); try reflexivity.
  all: first [destruct Hl as [Hl _]; specialize (Hl eq_refl); lra | destruct Hl as [_ Hl]; apply Rle_antisym; try lra; apply Rnot_lt_le; intros Hx; discriminate (Hl ltac:(lra))].
Qed.
Lemma rnd_error x : (Rabs (rnd x - x) <= bpow radix2 (-24) * Rabs x + bpow radix2 (-150))%R.
Proof.
  destruct (error_N_FLT radix2 (-149) 24 ltac:(lia) (fun z => negb (Z.even z)) x) as (eps & eta & H1 & H2 & _ & E).
  assert (E2 : rnd x = (x * (1 + eps) + eta)%R) by exact E. rewrite E2. replace (x * (1 + eps) + eta - x)%R with (x * eps + eta)%R by ring.
  assert (B : forall n, (/ 2 * bpow radix2 (n + 1) = bpow radix2 n)%R) by (intros n; rewrite bpow_plus; change (bpow radix2 1) with 2%R; lra).
  pose proof (B (-24)%Z) as B1. pose proof (B (-150)%Z) as B2. change (-150 + 1)%Z with (-149)%Z in B2.
  assert (H1' : (Rabs eps <= bpow radix2 (-24))%R) by (rewrite <- B1; exact H1). assert (H2' : (Rabs eta <= bpow radix2 (-150))%R) by (rewrite <- B2; exact H2).
  eapply Rle_trans; [apply Rabs_triang|]. rewrite Rabs_mult. pose proof (Rabs_pos x). nra.
Qed.

Lemma rnd_modest x n : (Rabs x <= bpow radix2 n)%R -> (-100 <= n < 128)%Z -> (Rabs (rnd x) <= bpow radix2 n)%R.
Proof.
  intros H Hn. assert (E : rnd (bpow radix2 n) = bpow radix2 n).
  { apply round_generic; [typeclasses eauto|]. apply generic_format_bpow. unfold SpecFloat.fexp, SpecFloat.emin. lia. }
  apply Rabs_le. apply Rabs_le_inv in H. split; [rewrite <- E, <- round_NE_opp; apply rnd_le; lra|rewrite <- E; apply rnd_le; lra].
Qed.
Lemma modest_mul (a b : f32) : modest a -> modest b -> (Rabs (B2R a * B2R b) <= bpow radix2 120)%R.
Proof.
  intros [_ Ha] [_ Hb]. rewrite Rabs_mult. change 120%Z with (60 + 60)%Z. rewrite bpow_plus. change (bpow radix2 60) with (IZR (2 ^ 60)).
  apply Rmult_le_compat; [apply Rabs_pos|apply Rabs_pos|exact Ha|exact Hb].
Qed.
Lemma product_near (a b : f32) : modest a -> modest b -> is_finite (fmul a b) = true /\ (Rabs (B2R (fmul a b)) <= bpow radix2 120)%R /\
  (Rabs (B2R (fmul a b) - B2R a * B2R b) <= bpow radix2 (-24) * Rabs (B2R a * B2R b) + bpow radix2 (-150))%R.
Proof.
  intros Ha Hb. pose proof (modest_mul a b Ha Hb) as Hm. pose proof (rnd_modest _ 120 Hm ltac:(lia)) as Hr.
  destruct (fmul_real a b (proj1 Ha) (proj1 Hb)) as [H1 H2]; [eapply Rle_lt_trans; [exact Hr|apply bpow_lt; lia]|].
  rewrite H2. split; [exact H1|]. split; [exact Hr|apply rnd_error].
Qed.
Lemma hundredth_near (a b : f32) : modest a -> modest b -> is_finite (fdiv (fmul a b) f100) = true /\
  (Rabs (B2R (fdiv (fmul a b) f100) - B2R a * B2R b / 100) <= bpow radix2 (-22) * Rabs (B2R a * B2R b / 100) + bpow radix2 (-149))%R.
Proof.
  intros Ha Hb. destruct (product_near a b Ha Hb) as (H1 & H2 & H3). destruct (f32_int 100 ltac:(lia)) as [_ Hh]. fold f100 in Hh.
  set (y := B2R (fmul a b)) in *. set (x := (B2R a * B2R b)%R) in *.
  assert (Hy : (Rabs (y / 100) <= bpow radix2 120)%R). { unfold Rdiv. rewrite Rabs_mult, (Rabs_pos_eq (/ 100)) by lra. pose proof (Rabs_pos y). lra. }
  pose proof (rnd_modest _ 120 Hy ltac:(lia)) as Hr.
  destruct (fdiv_real (fmul a b) f100 H1) as [K1 K2]; [rewrite Hh; lra|rewrite Hh; eapply Rle_lt_trans; [exact Hr|apply bpow_lt; lia]|].
  rewrite Hh in K2. fold y in K2. rewrite K2. split; [exact K1|]. pose proof (rnd_error (y / 100)) as He.
  assert (Ex : (Rabs (x / 100) = Rabs x / 100)%R) by (unfold Rdiv; rewrite Rabs_mult, (Rabs_pos_eq (/ 100)) by lra; reflexivity).
  assert (Ey : (Rabs (y / 100) = Rabs y / 100)%R) by (unfold Rdiv; rewrite Rabs_mult, (Rabs_pos_eq (/ 100)) by lra; reflexivity).
  rewrite Ex. rewrite Ey in He.
  assert (B0 : (bpow radix2 (-22) = 4 * bpow radix2 (-24))%R) by (change (-22)%Z with (2 + -24)%Z; rewrite bpow_plus; reflexivity).
  assert (B1 : (bpow radix2 (-149) = 2 * bpow radix2 (-150))%R) by (change (-149)%Z with (1 + -150)%Z; rewrite bpow_plus; reflexivity).
  assert (B2 : (0 < bpow radix2 (-24) <= 1)%R) by (split; [apply bpow_gt_0|apply (bpow_le radix2 (-24) 0); lia]).
  assert (B3 : (0 < bpow radix2 (-150))%R) by apply bpow_gt_0. rewrite B0, B1. set (e := bpow radix2 (-24)) in *. set (h := bpow radix2 (-150)) in *.
  assert (T : (Rabs (rnd (y / 100) - x / 100) <= Rabs (rnd (y / 100) - y / 100) + Rabs (y - x) / 100)%R).
  { replace (Rabs (y - x) / 100)%R with (Rabs (y / 100 - x / 100))%R.
    - replace (rnd (y / 100) - x / 100)%R with ((rnd (y / 100) - y / 100) + (y / 100 - x / 100))%R by ring. apply Rabs_triang.
    - replace (y / 100 - x / 100)%R with ((y - x) * / 100)%R by field. rewrite Rabs_mult, (Rabs_pos_eq (/ 100)) by lra. reflexivity. }
  assert (Y : (Rabs y <= Rabs x + Rabs (y - x))%R). { replace y with (x + (y - x))%R at 1 by ring. apply Rabs_triang. }
  pose proof (Rabs_pos x). pose proof (Rabs_pos (y - x)). set (X := Rabs x) in *. set (D := Rabs (y - x)) in *. set (Y' := Rabs y) in *.
  assert (P : (e * Y' <= e * X + e * (e * X + h))%R) by nra.
  assert (Q : (e * (e * X + h) <= e * X + h)%R) by nra. lra.
Qed.
Definition modest_sizes (s : Sizes) : Prop :=
  modest (root_font_size s) /\ modest (parent_font_size s) /\ modest (viewport_width s) /\ modest (viewport_height s).
Lemma modest_max a b : modest a -> modest b -> modest (fmax a b) /\ modest (fmin a b).
Proof.
  intros [Ha Ha'] [Hb Hb']. destruct (fmax_real a b Ha Hb) as [M1 M2]. destruct (fmin_real a b Ha Hb) as [N1 N2]. split; split; [exact M1| |exact N1|].
  - rewrite M2. unfold Rmax. by destruct (Rle_dec _ _).
  - rewrite N2. unfold Rmin. by destruct (Rle_dec _ _).
Qed.
Theorem pixels_near s d : modest_sizes s -> modest (d_value d) -> is_finite (pixels s d) = true /\
  let exact := css_pixels (B2R (parent_font_size s)) (B2R (root_font_size s)) (B2R (viewport_width s)) (B2R (viewport_height s)) d in
  (Rabs (B2R (pixels s d) - exact) <= bpow radix2 (-22) * Rabs exact + bpow radix2 (-149))%R.
Proof.
  intros (H1 & H2 & H3 & H4) Hd. unfold pixels, css_pixels. cbv zeta. destruct (modest_max _ _ H3 H4) as [H5 H6].
  destruct (fmax_real _ _ (proj1 H3) (proj1 H4)) as [_ E5]. destruct (fmin_real _ _ (proj1 H3) (proj1 H4)) as [_ E6].
  assert (W : forall x y, (Rabs y <= bpow radix2 (-24) * Rabs x + bpow radix2 (-150) -> Rabs y <= bpow radix2 (-22) * Rabs x + bpow radix2 (-149))%R).
  { intros x y H. eapply Rle_trans; [exact H|]. apply Rplus_le_compat; [apply Rmult_le_compat_r; [apply Rabs_pos|]|]; apply bpow_le; lia. }
  destruct (d_unit d).
  all: lazymatch goal with
  | |- context [fdiv (fmul ?a ?b) f100] => destruct (hundredth_near a b ltac:(assumption) ltac:(assumption)) as (K1 & K3); rewrite ?E5, ?E6 in K3; (split; [exact K1|exact K3])
  | |- context [fmul ?a ?b] => destruct (product_near a b ltac:(assumption) ltac:(assumption)) as (K1 & _ & K3); split; [exact K1|apply W; exact K3]
  | _ => split; [exact (proj1 Hd)|]; apply W; replace (B2R (d_value d) - B2R (d_value d))%R with 0%R by ring; rewrite Rabs_R0;
         pose proof (bpow_ge_0 radix2 (-24)); pose proof (bpow_ge_0 radix2 (-150)); pose proof (Rabs_pos (B2R (d_value d))); nra
  end.
Qed.
