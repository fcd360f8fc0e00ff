(** * Pages that count the laps of their animations (C39). *)
From Coq Require Import ZArith Reals Lia Lra Classical_Prop.
From stdpp Require Import gmap.
From RecordUpdate Require Import RecordUpdate.
From Flocq Require Import Core.Core IEEE754.BinarySingleNaN.
From Verif Require Import Str StrFacts F32 Res ResFacts Json PropKey Html Css Element Tree ViewModel Render Update Matching
  Cascade Initial Animation Apply Styling Events View
  SpecLive SpecLog SpecView SpecRender SpecTree SpecEvents FrameFacts EventFacts EventFrame EventPage EventProps
  RenderTree RenderNode RenderProps RenderAny RenderMore LiveFacts LiveUpdate LiveView LiveHistory LiveOrder
  SpecSelect SelectFacts SelectLive SelectFresh SpecStyle SpecShow SpecPage ApplyFacts ShowFacts CascadeFacts AnimationFacts StyleTrace StyleView StylePage StyleRest StyleMore
  SpecAnim SpecEnds FloatFacts AnimFloat AnimProps EndsTimer EndsFacts EndsPage EndsMore SpecMove MoveFacts SpecCounted.
Close Scope R_scope.

(** ** Timers *)
Definition mild_timer (a : Animator) : Prop := exists n, a_iterations a = AINumber n /\ few n /\ modest (a_duration a).
Lemma mild_product (n d : f32) : few n -> modest d -> is_finite (fmul n d) = true /\ (B2R (fmul n d) <= bpow radix2 23 * B2R d)%R /\ (B2R d = 0%R -> B2R (fmul n d) = 0%R).
Proof.
  intros [Hn Rn] [Hd Rd].
  assert (G : generic_format radix2 fexp (bpow radix2 23 * B2R d)).
  { apply generic_format_FLT. pose proof (fmt d) as G. apply FLT_format_generic in G; [|typeclasses eauto]. destruct G as [g G1 G2 G3].
    apply FLT_spec with (Float radix2 (Fnum g) (Fexp g + 23)); [rewrite G1; unfold F2R; cbn [Fnum Fexp]; rewrite bpow_plus; ring|exact G2|cbn [Fexp]; lia]. }
  assert (K : (rnd (B2R n * B2R d) <= bpow radix2 23 * B2R d)%R) by (apply rnd_le_fmt; [exact G|apply Rmult_le_compat_r; lra]).
  assert (P : (0 <= rnd (B2R n * B2R d))%R) by (rewrite <- rnd_0; apply rnd_le; apply Rmult_le_pos; lra).
  destruct (mul_real n d Hn Hd) as [F E].
  { rewrite Rabs_pos_eq by exact P. eapply Rle_lt_trans; [exact K|]. eapply Rle_lt_trans; [apply Rmult_le_compat_l; [apply bpow_ge_0|apply Rd]|].
    rewrite <- bpow_plus. apply bpow_lt. lia. }
  split; [exact F|]. rewrite E. split; [exact K|]. intros ->. rewrite Rmult_0_r. apply rnd_0.
Qed.
Lemma mild_few time a : mild_timer a -> few_laps time a.
Proof.
  intros (n & Hi & Hn & Hd). pose proof Hd as [Fd Rd]. destruct (is_finite (elapsed (advanced time a))) eqn:He.
  { eapply counted_few; [exact Hi|apply Hn|apply Hn|exact Fd|apply Rd|exact He]. }
  unfold few_laps. cbv zeta. set (b := advanced time a) in *. assert (Sb : same_timing a b) by exact (after_same time a).
  destruct Sb as (Sd & _ & Si & _). rewrite <- Sd. destruct (flt (elapsed b) f0) eqn:E; [by left|right].
  assert (Ea : active_time b = fmin (elapsed b) (fmul n (a_duration a))) by (unfold active_time; rewrite <- Si, Hi, Sd; reflexivity).
  destruct (mild_product n (a_duration a) Hn Hd) as (Fm & Lm & Zm).
  assert (Em : fmin (elapsed b) (fmul n (a_duration a)) = fmul n (a_duration a)).
  { unfold fmin. rewrite (finite_not_nan _ Fm). destruct (elapsed b) as [s|s| |s m x Hb]; try discriminate He; [|reflexivity]. destruct s; [discriminate E|]. cbn [is_nan].
    destruct (flt (fmul n (a_duration a)) (B754_infinity false)) eqn:Q; [reflexivity|]. exfalso. apply (flt_wide_false (fmul n (a_duration a)) (B754_infinity false) (finite_not_nan _ Fm) eq_refl) in Q. rewrite (wide_finite _ Fm) in Q. cbn [wide] in Q. pose proof (finite_top _ Fm). lra. }
  rewrite Ea, Em. destruct (proj1 Rd) as [P|Z].
  - right. split; [exact Fm|]. split; [exact Fd|]. split; [exact P|exact Lm].
  - left. destruct (fgt _ _) eqn:G; [|done]. apply fgt_wide in G; [|exact Fd|by apply finite_not_nan]. rewrite (wide_finite _ Fm), (Zm (eq_sym Z)), <- Z in G. lra.
Qed.
Lemma mild_default : mild_timer animator_default.
Proof.
  exists f1. split; [reflexivity|]. split; (split; [reflexivity|]).
  - unfold f1. destruct (f32_int 1 ltac:(lia)) as [_ ->]. split; [lra|]. change (bpow radix2 23) with 8388608%R. lra.
  - change (B2R (a_duration animator_default)) with 0%R. split; [lra|apply bpow_ge_0].
Qed.


(** ** Pages whose animations keep an invariant *)
Section careful.
  Context (V : PropertyKey -> ComputedValue -> Prop) (T : nat -> Animator -> Prop) (F : f32 -> Prop) (N : nat).
  Context (HV : forall k v, moving k = false -> V k v).
  Context (Tmono : forall j a, T j a -> T (S j) a).
  Context (Tapply : forall j sizes k i v st, place_of k = PlAnimators -> V k v -> Forall (T j) (e_animators (snd st)) -> Forall (T j) (e_animators (snd (apply sizes k i v st)))).
  Context (Ttick : forall j fuel css time a a', j < N -> F time -> ticks fuel css time a a' -> T j a -> T (S j) a').
  Context (Tfew : forall j time a, j < N -> F time -> T j a -> few_laps time a).
(** ** What the declarations of such a page give *)
Definition calm_entry (k : PropertyKey) (v : ComputedValue) : Prop := place_of k <> PlTransitions /\ V k v.
Definition calm (s : ComputedStyle) : Prop := forall k i v, s !! (k, i) = Some v -> calm_entry k v.
Lemma quiet_entry k v : moving k = false -> calm_entry k v.
Proof. intros H. split; [|by apply HV]. unfold moving in H. by destruct k. Qed.
Lemma explicit_means vars vs ws : mean_all vars (map DExplicit vs) ws -> ws = vs.
Proof.
  revert ws. induction vs as [|v vs IH]; intros ws H; cbn [map] in H; inversion H as [|d sh us ws' Hd Hs]; subst; [done|]. inversion Hd; subst. cbn. f_equal. by apply IH.
Qed.
Lemma expand_calm key vs k v : key = KAnimation \/ place_of key = PlAnimators -> In (k, v) (expand key vs) -> place_of k <> PlTransitions.
Proof.
  intros Hk Hin.
  assert (Hdef : forall key', place_of key' <> PlTransitions -> In (k, v) (match vs with [v] => [(key', v)] | _ => [] end) -> place_of k <> PlTransitions).
  { intros key' H H'. destruct vs as [|w [|]]; try done. destruct H' as [[= <- _]|[]]. done. }
  destruct Hk as [->|Hk]; [|destruct key; try discriminate Hk; (eapply Hdef; [|exact Hin]; discriminate)]. cbn [expand] in Hin.
  repeat (match type of Hin with context [match ?x with _ => _ end] => destruct x end; cbn [In] in Hin);
    repeat (destruct Hin as [Hin|Hin]; [injection Hin as <- _; discriminate|]); try done.
Qed.
Lemma gives_calm vars d k i v : (careful_declaration V) d -> gives vars d k i v -> calm_entry k v.
Proof.
  intros Hc (p & sh & vs & -> & Hp & Hm & Hl). apply last_given_in in Hl. destruct Hc as [Hq|[Hk Hc]]; [apply quiet_entry; by eapply expand_quiet|].
  destruct (Hc sh) as (ws & -> & Hw); [apply elem_of_list_In; by eapply elem_of_list_lookup_2|]. apply explicit_means in Hm as ->.
  split; [by eapply expand_calm|by apply Hw].
Qed.
Lemma block_calm fuel ds : forall st st', Forall (careful_declaration V) ds -> compute_declaration_block fuel ds st = Ok st' -> calm (snd st) -> calm (snd st').
Proof.
  intros [vars s] [vars' s'] Hq H Hs k i v Hv. destruct (block_wins _ _ _ _ _ _ H) as (_ & W1 & W2 & W3). cbn [snd] in *.
  destruct (W3 k i) as [(w & Hw)|Hu]; [|rewrite (W2 _ _ Hu) in Hv; by eapply Hs].
  pose proof (W1 _ _ _ Hw) as Hv'. rewrite Hv in Hv'. apply (inj Some) in Hv'. subst w.
  destruct Hw as (pre & d & post & -> & Hg & _). apply list.Forall_app in Hq as [_ Hq]. apply list.Forall_cons in Hq as [Hq _]. by eapply gives_calm.
Qed.
Definition careful_rule (es : ElementStyle) : Prop := Forall (careful_declaration V) (s_declaration (style_of es)).
Lemma rules_calm fuel debug n t l : Forall careful_rule l -> forall st st', cascade_rules fuel debug n t l st = Ok st' -> calm (snd st) -> calm (snd st').
Proof.
  intros Hl. unfold cascade_rules. induction Hl as [|es l Ht _ IH]; intros st st' H Hs; cbn [foldR] in H; [by injection H as <-|].
  apply bindR_Ok in H as (st1 & H1 & H). apply (IH _ _ H). destruct es as [s|s]; [by eapply block_calm|].
  apply bindR_Ok in H1 as (b & _ & H1). destruct b; [by eapply block_calm|by injection H1 as <-].
Qed.
Lemma empty_calm : calm ∅.
Proof. intros k i v Hv. assert (Some v = None) as [=]. etransitivity; [symmetry; exact Hv|]. exact (lookup_empty (k, i)). Qed.

(** ** Key frames *)
Lemma values_quiet fuel vars key values s s' : moving key = false -> compute_values fuel vars key 0 values s = Ok s' -> quiet s -> quiet s'.
Proof.
  intros Ht H Hs k i v Hv. destruct (values_given _ _ _ _ _ _ _ H) as (I0 & I1 & I2).
  destruct (values !! i) as [sh|] eqn:E.
  - destruct (I0 _ _ E) as [vs Hvs]. destruct (last_given (expand key vs) k) as [w|] eqn:Ew.
    + eapply expand_quiet; [exact Ht|by apply last_given_in].
    + rewrite I2 in Hv; [by eapply Hs|]. intros w (j & sh' & vs' & Hij & Hj & Hm & Hw). cbn in Hij. subst j. rewrite E in Hj. injection Hj as <-.
      rewrite (mean_all_fun _ _ _ _ Hm Hvs) in Hw. congruence.
  - rewrite I2 in Hv; [by eapply Hs|]. intros w (j & sh' & vs' & Hij & Hj & Hm & Hw). cbn in Hij. subst j. congruence.
Qed.
Lemma keyframe_quiet fuel vars ds : Forall quiet_declaration ds -> forall s, keyframe_style fuel vars ds = Ok s -> quiet s.
Proof.
  intros Ht. unfold keyframe_style. assert (H0 : quiet ∅). { intros k i v Hv. assert (Some v = None) as [=]. etransitivity; [symmetry; exact Hv|]. exact (lookup_empty (k, i)). }
  revert H0. generalize (∅ : ComputedStyle) as s0.
  induction Ht as [|d ds Hd _ IH]; intros s0 H0 s H; cbn [foldR] in H; [by injection H as <-|].
  apply bindR_Ok in H as (s1 & H1 & H). apply (IH s1); [|exact H]. destruct d as [v|p]; [by injection H1 as <-|]. by eapply values_quiet.
Qed.
Lemma tracks_quiet fuel vars an style trs : (forall kf, kf ∈ an_keyframes an -> Forall quiet_declaration (kf_declaration kf)) ->
  compute_animation_tracks fuel vars an style = Ok trs -> forall tr, tr ∈ trs -> moving (fst (tr_descriptor tr)) = false.
Proof.
  intros Ht H tr Htr. unfold compute_animation_tracks in H. apply bindR_Ok in H as ([animated kfs] & Hf & [= <-]).
  assert (Hin : tr_descriptor tr ∈ elements animated).
  { rewrite <- (tracks_of_descriptors (elements animated) style kfs). apply elem_of_list_fmap. by exists tr. }
  apply elem_of_elements in Hin.
  assert (Hall : forall l an0 k0 an1 k1, (forall kf, kf ∈ l -> Forall quiet_declaration (kf_declaration kf)) ->
    foldR (fun '(animated, kfs) kf => do! s <- keyframe_style fuel vars (kf_declaration kf); Ok (animated ∪ dom s, z_insert (kf_step kf) s kfs)) (an0, k0) l = Ok (an1, k1) ->
    (forall d : Descriptor, d ∈ an0 -> moving (fst d) = false) -> forall d : Descriptor, d ∈ an1 -> moving (fst d) = false).
  { clear. induction l as [|kf l IH]; intros an0 k0 an1 k1 Hl H H0; cbn [foldR] in H; [by injection H as <- <-|].
    apply bindR_Ok in H as ([an2 k2] & H2 & H). apply bindR_Ok in H2 as (s & Hs & [= <- <-]). eapply IH; [|exact H|].
    - intros kf' Hk. apply Hl. by apply elem_of_list_further.
    - intros [k i] Hd. apply elem_of_union in Hd as [Hd|Hd]; [by apply H0|]. apply elem_of_dom in Hd as [v Hv].
      apply (keyframe_quiet _ _ _ (Hl kf ltac:(apply elem_of_list_here)) _ Hs k i v Hv). }
  eapply Hall; [exact Ht|exact Hf| |exact Hin]. intros d Hd. by apply not_elem_of_empty in Hd.
Qed.
Definition still_frames (css : Css) : Prop := forall name an kf, css_animations css !! name = Some an -> kf ∈ an_keyframes an -> Forall quiet_declaration (kf_declaration kf).
Lemma animators_calm fuel css time vars l s l' s' : still_frames css -> play_animators fuel css time vars (l, s) = Ok (l', s') -> calm s -> calm s'.
Proof.
  intros Ht H Hs. unfold play_animators in H. cbn [fst snd] in H.
  apply (foldR_keeps (fun st => calm (snd st))) in H; [exact H| |exact Hs]. clear -Ht HV. intros [acc s] a [acc1 s1] _ H1 Hs. cbn [snd] in *.
  destruct (css_animations css !! a_name a) as [an|] eqn:E; [|by injection H1 as <- <-].
  apply bindR_Ok in H1 as (trs & Htr & H1). apply bindR_Ok in H1 as ([a1 s2] & H1 & [= <- <-]).
  unfold animator_play in H1. apply bindR_Ok in H1 as ([a2 x] & _ & H1). destruct x as [x|]; [|by injection H1 as <- <-].
  apply bindR_Ok in H1 as (s3 & H3 & [= <- <-]).
  apply (foldR_keeps calm) in H3; [exact H3| |exact Hs]. intros s0 tr s4 Hin H4 H0. rewrite play_track_value in H4. apply bindR_Ok in H4 as (v & _ & [= <-]).
  pose proof (tracks_quiet _ _ _ _ _ (fun kf => Ht _ an kf E) Htr _ Hin) as Hm. intros k i w Hw.
  destruct (decide (tr_descriptor tr = (k, i))) as [Ed|Hne].
  - rewrite Ed in Hm. by apply quiet_entry.
  - assert (Hx : (<[tr_descriptor tr := v]> s0 : ComputedStyle) !! (k, i) = s0 !! (k, i)) by by apply lookup_insert_ne. rewrite Hx in Hw. by eapply H0.
Qed.

(** ** Giving the style to an element *)
Definition mild (j : nat) (e : Element) : Prop := Forall (T j) (e_animators e) /\ e_transitions e = [].
Lemma put_mild j p l1 e1 l e : p <> PlTransitions -> p <> PlAnimators -> mild j e -> mild j (snd (put p (l1, e1) (l, e))).
Proof. intros H1 H2 H. destruct p; try done. Qed.
Lemma apply_mild j sizes k i v st : calm_entry k v -> mild j (snd st) -> mild j (snd (apply sizes k i v st)).
Proof.
  intros [Hp Hv] Hs. destruct (decide (place_of k = PlAnimators)) as [Ha|Hn].
  2: { rewrite apply_within. destruct st as [l e], (apply sizes k i v (l, e)) as [l1 e1]. by apply put_mild. }
  destruct Hs as [H1 H2]. split; [by apply Tapply|]. rewrite apply_within, Ha. destruct st as [l e], (apply sizes k i v (l, e)) as [l1 e1]. exact H2.
Qed.
Lemma apply_all_mild j sizes ps : (forall k i v, ((k, i), v) ∈ ps -> calm_entry k v) -> forall st, mild j (snd st) -> mild j (snd (apply_all sizes ps st)).
Proof.
  unfold apply_all. induction ps as [|[[k i] v] ps IH]; intros Hp st Hs; cbn [foldl]; [done|]. apply IH; [intros k' i' v' Hin; eapply Hp; by apply elem_of_list_further|].
  apply apply_mild; [eapply Hp; apply elem_of_list_here|done].
Qed.
Lemma cascade_mild j fuel debug css order time sizes vars n t pe layout e l' e' vars' :
  (forall s, order s ≡ₚ map_to_list s) -> still_frames css -> Forall careful_rule (e_styles e) -> Forall (careful_declaration V) (e_style e) -> mild j e -> j < N -> F time ->
  cascade_apply_styles fuel debug css order time sizes vars n t pe layout e = Ok (l', e', vars') -> mild (S j) e'.
Proof.
  intros Ho Hf Hr He [Ha Ht] HjN HF H. rewrite cascade_computes in H. apply bindR_Ok in H as ([[[an tr] s] vars1] & Hc & H).
  unfold computes in Hc. apply bindR_Ok in Hc as ([vars2 s2] & H1 & Hc). apply bindR_Ok in Hc as ([vars3 s3] & H2 & Hc).
  apply bindR_Ok in Hc as ([an1 s4] & H3 & Hc). apply bindR_Ok in Hc as ([tr1 s5] & H4 & [= <- <- <- <-]).
  rewrite Ht in H4. unfold play_transitions in H4. cbn [foldR] in H4. injection H4 as <- <-.
  assert (Hq : calm s4). { apply (animators_calm _ _ _ _ _ _ _ _ Hf H3). apply (block_calm _ _ _ _ He H2). apply (rules_calm _ _ _ _ _ Hr _ _ H1). exact empty_calm. }
  assert (Hm : Forall (T (S j)) an1). { pose proof (animators_tick _ _ _ _ _ _ _ _ H3) as Hti. clear -Hti Ha Ttick HjN HF. induction Hti as [|a a' l l' Hx _ IH]; [constructor|]. apply list.Forall_cons in Ha as [Ha1 Ha2]. constructor; [by eapply Ttick|by apply IH]. }
  match type of H with context [apply_all ?a ?b ?c] => pose proof (apply_all_mild (S j) a b) as Hst; specialize (Hst ltac:(intros k i v Hin; rewrite Ho in Hin; apply elem_of_map_to_list in Hin; by eapply Hq) c); destruct (apply_all a b c) as [l1 e1] eqn:Eap end.
  cbn [snd] in Hst. destruct Hst as [S1 S2]; [split; [exact Hm|reflexivity]|].
  apply bindR_Ok in H as (ts & Hts & [= <- <- <-]). rewrite S2 in Hts. apply mapR_nil in Hts as ->. split; [exact S1|done].
Qed.

(** ** All elements *)
Definition all_mild (j : nat) (t : Tree) : Prop := forall n e, get_ctx t n = Some e -> mild j e.
Lemma mild_later j e : mild j e -> mild (S j) e.
Proof. intros [H1 H2]. split; [|exact H2]. eapply list.Forall_impl; [exact H1|]. intros a. apply Tmono. Qed.
Lemma all_later j t : all_mild j t -> all_mild (S j) t.
Proof. intros H n e He. by eapply mild_later, H. Qed.
Lemma rest_mild j t : all_rest t -> all_mild j t.
Proof. intros H n e He. destruct (H n e He) as [R1 R2]. split; [rewrite R1; constructor|exact R2]. Qed.
Lemma mild_timers j time t : j < N -> F time -> all_mild j t -> tame_timers time t.
Proof. intros HjN HF H n e He. destruct (H n e He) as [M ->]. split; [|constructor]. eapply list.Forall_impl; [exact M|]. intros a. by apply Tfew. Qed.
Lemma moves_mild j t t' : (forall n, get_ctx t n = None -> get_ctx t' n = None) -> same_moves t t' -> all_mild j t -> all_mild j t'.
Proof.
  intros Hn Hs Hm n e' He'. destruct (get_ctx t n) as [e|] eqn:E; [|by rewrite Hn in He'].
  destruct (Hs n) as [A B]. unfold animators, movers in A, B. rewrite He', E in A, B. unfold mild. rewrite A, B. by apply (Hm n).
Qed.
Definition careful_tree (t : Tree) : Prop := forall n e, n <> 0 -> get_ctx t n = Some e -> Forall careful_rule (e_styles e) /\ Forall (careful_declaration V) (e_style e).
Lemma careful_tree_content t t' : same_content t t' -> careful_tree t -> careful_tree t'.
Proof.
  intros H Hq n e' Hn He'. destruct (same_ctx _ _ _ _ (same_sym _ _ H) He') as (e & He & Hc). unfold content in Hc. injection Hc as H1 H2 H3 H4 H5 H6 H7 H8 H9 H10.
  destruct (Hq n e Hn He) as [Q1 Q2]. split; congruence.
Qed.
Lemma mild_put j n e0 e t : get_ctx t n = Some e0 -> mild j e -> all_mild j t -> all_mild j (put_element n e t).
Proof.
  intros H0 He Hr m x Hx. rewrite get_ctx_put in Hx. destruct (decide (n = m)) as [<-|]; [|by eapply Hr]. destruct (ctx_node _ _ _ H0) as [y Hy]. rewrite Hy in Hx.
  injection Hx as <-. exact He.
Qed.
Lemma set_style_mild j n l t t' : set_style n l t = Ok t' -> all_mild j t -> all_mild j t'.
Proof.
  unfold set_style, get_node. intros H Hr. apply bindR_Ok in H as (x & Hx & H). apply unwrap_Ok in Hx. injection H as <-. intros m e He. apply (Hr m). unfold get_ctx, put_node, set in *. cbn [t_nodes] in *.
  destruct (decide (n = m)) as [<-|Hne].
  - rewrite Hx. assert (Hi : (<[n := x <| n_style := l |>]> (t_nodes t) : gmap NodeId Node) !! n = Some (x <| n_style := l |>)) by exact (lookup_insert (t_nodes t) n _).
    unfold set in Hi. rewrite Hi in He. exact He.
  - assert (Hi : (<[n := x <| n_style := l |>]> (t_nodes t) : gmap NodeId Node) !! m = t_nodes t !! m) by exact (lookup_insert_ne (t_nodes t) n m _ Hne).
    unfold set in Hi. rewrite Hi in He. exact He.
Qed.
Definition mild_at (j : nat) (t : Tree) (m : NodeId) : Prop := forall e, get_ctx t m = Some e -> mild j e.
Lemma mild_same j t t' m : t_nodes t' !! m = t_nodes t !! m -> mild_at j t m -> mild_at j t' m.
Proof. intros H Hm e He. apply Hm. unfold get_ctx in *. by rewrite <- H. Qed.
Lemma styles_mild fuel debug css order time j : (forall s, order s ≡ₚ map_to_list s) -> still_frames css -> j < N -> F time ->
  forall depth n sizes vars t t', careful_tree t -> live t 0 -> n <> 0 -> (forall m, at_or_above t n m -> mild_at j t m) ->
  apply_styles fuel debug css order time depth n sizes vars t = Ok t' -> forall m, at_or_above t n m -> mild_at (S j) t' m.
Proof.
  intros Ho Hf HjN HF. induction depth as [|depth IH]; intros n sizes vars t t' Hq Hl Hn Hr H; cbn [apply_styles] in H; [discriminate H|].
  apply bindR_Ok in H as (p & Hp & H). apply bindR_Ok in H as (pe & Hpe & H). apply bindR_Ok in H as (layout & Hlay & H). apply bindR_Ok in H as (e & He & H). apply get_element_ctx in He.
  pose proof (Hr n ltac:(reflexivity) e He) as Hme.
  destruct (e_text e).
  { injection H as <-. intros m Hm. destruct (decide (n = m)) as [<-|Hne].
    - intros x Hx. rewrite get_ctx_put in Hx. destruct (decide (n = n)); [|done]. destruct (ctx_node _ _ _ He) as [y Hy]. rewrite Hy in Hx. apply (inj Some) in Hx. subst x. apply (mild_later j). exact Hme.
    - intros x Hx. apply mild_later. apply (Hr m Hm). rewrite get_ctx_put in Hx. destruct (decide (n = m)); [done|exact Hx]. }
  apply bindR_Ok in H as ([[l' e'] vars'] & Hc & H). apply bindR_Ok in H as (t1 & Hs & H). destruct (Hq n e Hn He) as [Q1 Q2].
  assert (Hm' : mild (S j) e') by (eapply cascade_mild; [exact Ho|exact Hf|exact Q1|exact Q2|exact Hme|exact HjN|exact HF|exact Hc]).
  destruct (ctx_node _ _ _ He) as [x Hx]. destruct (set_style_nodes _ _ _ _ _ Hs (put_nodes_eq _ _ _ _ Hx)) as [Hn1 Ho1].
  assert (Hoth : forall m, n <> m -> t_nodes t1 !! m = t_nodes t !! m). { intros m Hm. by rewrite Ho1, put_nodes_ne. } clear Ho1.
  assert (Hself : mild_at (S j) t1 n). { intros y Hy. unfold get_ctx in Hy. rewrite Hn1 in Hy. cbn in Hy. apply (inj Some) in Hy. subst y. exact Hm'. }
  assert (Hal1 : alike t t1).
  { split.
    - eapply same_trans; [eapply put_element_same; [exact He|exact (cascade_apply_content _ _ _ _ _ _ _ _ _ _ _ _ _ Hc)]|by eapply set_style_same].
    - eapply ss_trans; [eapply ss_put; [exact He|by eapply cascade_state]|by eapply set_style_ss]. }
  destruct (_ || _).
  { injection H as <-. intros m Hm. destruct (decide (n = m)) as [<-|Hne]; [exact Hself|].
    intros y Hy. apply mild_later. apply (Hr m Hm). unfold get_ctx in *. by rewrite <- Hoth. }
  apply bindR_Ok in H as (cs & Hcs & H). apply children_spec in Hcs. subst cs. rewrite (shown_attached _ _ _ (content_shown _ _ (proj1 Hal1))) in H.
  assert (Hab : forall u, alike t u -> forall a b, at_or_above u a b <-> at_or_above t a b).
  { intros u [Hu _] a b. split; [by apply above_content|]. apply above_content. by apply same_sym. }
  assert (Hfo : forall cs a, cs ⊆ attached t n -> NoDup cs -> alike t a -> (forall c m, c ∈ cs -> at_or_above t c m -> mild_at j a m) ->
    foldR (fun t c => apply_styles fuel debug css order time depth c (sizes <| parent_font_size := f_size (e_font e') |> <| parent_color := e_color e' |>) vars' t) a cs = Ok t' ->
    (forall c m, c ∈ cs -> at_or_above t c m -> mild_at (S j) t' m) /\ (forall m, (forall c, c ∈ cs -> ~ at_or_above t c m) -> t_nodes t' !! m = t_nodes a !! m)).
  { clear H. induction cs as [|c cs IHc]; intros a Hin Hnd Ha Hb H; cbn [foldR] in H.
    { injection H as <-. split; [intros c m Hc'; by apply elem_of_nil in Hc'|done]. }
    apply bindR_Ok in H as (b & Hb1 & H). apply list.NoDup_cons in Hnd as [Hnc Hnd].
    pose proof (shown_live _ _ _ (content_shown _ _ (proj1 Ha)) Hl) as Hla.
    destruct (styles_trace _ _ _ _ _ _ _ _ _ _ _ Hla Hb1) as (_ & IH2 & IH3). assert (Hab' : alike t b) by (eapply alike_trans; eassumption).
    assert (Hcm : forall m, at_or_above t c m -> mild_at (S j) b m).
    { intros m Hm. eapply (IH c); [| | | |exact Hb1|by apply (Hab _ Ha)].
      - eapply careful_tree_content; [exact (proj1 Ha)|exact Hq].
      - exact Hla.
      - assert (Hca : c ∈ attached t n) by apply Hin, elem_of_list_here. destruct (live_newer _ _ Hl n c ltac:(by left)). lia.
      - intros k Hk. apply (Hb c k); [apply elem_of_list_here|by apply (Hab _ Ha)]. }
    assert (Hdis : forall d m, d ∈ cs -> at_or_above t c m -> at_or_above t d m -> False).
    { intros d m Hd Hcm' Hdm. apply Hnc. replace c with d; [done|]. eapply (above_disjoint _ _ n); [exact Hl|apply Hin; by apply elem_of_list_further|apply Hin; apply elem_of_list_here|exact Hdm|exact Hcm']. }
    destruct (IHc b) as [C1 C2]; [by intros d Hd; apply Hin, elem_of_list_further|done|done| |exact H|].
    { intros d m Hd Hm. apply (mild_same j a); [|apply (Hb d m); [by apply elem_of_list_further|done]]. apply IH2. rewrite (Hab _ Ha). intros K. by apply (Hdis d m). }
    split.
    - intros d m Hd Hm. apply elem_of_cons in Hd as [->|Hd]; [|by apply (C1 d m)].
      apply (mild_same _ b); [|by apply Hcm]. apply C2. intros d Hd Hdm. by apply (Hdis d m).
    - intros m Hm. rewrite C2; [|intros d Hd; apply Hm; by apply elem_of_list_further]. apply IH2. rewrite (Hab _ Ha). apply Hm, elem_of_list_here. }
  destruct (Hfo (attached t n) t1) as [F1 F2]; [done|exact (proj1 (live_once _ _ Hl n))|exact Hal1| |exact H|].
  { intros c m Hc' Hm. apply (mild_same j t).
    - apply Hoth. intros <-. apply (above_le _ _ _ _ Hl) in Hm. destruct (live_newer _ _ Hl n c ltac:(by left)). lia.
    - apply Hr. eapply rtc_l; [|exact Hm]. by apply (live_parent _ _ Hl). }
  intros m Hm. apply rtc_inv in Hm as [<-|(c & Hc' & Hm)].
  - apply (mild_same _ t1); [|exact Hself]. apply F2. intros c Hc' K. apply (above_le _ _ _ _ Hl) in K. destruct (live_newer _ _ Hl n c ltac:(by left)). lia.
  - apply (F1 c m); [|exact Hm]. by apply (live_parent _ _ Hl).
Qed.
Lemma tree_mild fuel debug css order time j depth n sizes vars t t' : (forall s, order s ≡ₚ map_to_list s) -> still_frames css -> j < N -> F time ->
  careful_tree t -> live t 0 -> n <> 0 -> all_mild j t -> apply_styles fuel debug css order time depth n sizes vars t = Ok t' -> all_mild (S j) t'.
Proof.
  intros Ho Hf HjN HF Hq Hl Hn Hr H m e' He'. destruct (styles_trace _ _ _ _ _ _ _ _ _ _ _ Hl H) as (_ & H2 & H3).
  destruct (Classical_Prop.classic (at_or_above t n m)) as [K|K].
  - eapply styles_mild; [exact Ho|exact Hf|exact HjN|exact HF|exact Hq|exact Hl|exact Hn| |exact H|exact K|exact He']. intros k _ e He. by apply (Hr k).
  - apply mild_later. apply (Hr m). unfold get_ctx in *. by rewrite <- H2.
Qed.
Lemma positions_mild j depth : forall n loc op clip t t', compute_final_positions depth n loc op clip t = Ok t' -> all_mild j t -> all_mild j t'.
Proof.
  induction depth as [|depth IH]; intros n loc op clip t t' H Hr; cbn [compute_final_positions] in H; [done|].
  apply bindR_Ok in H as (lay & Hlay & H). apply bindR_Ok in H as (e & He & H). apply get_element_ctx in He. cbv zeta in H.
  match type of H with context [match ?m with (_, _) => _ end] => destruct m as [clip' loc'] end.
  apply bindR_Ok in H as (cs & Hcs & H). clear Hcs.
  match type of H with foldR _ ?a _ = _ => assert (Ha : all_mild j a) by (eapply mild_put; [exact He|exact (Hr n e He)|exact Hr]); revert Ha H; generalize a end.
  clear He Hr. induction cs as [|c cs IHc]; intros a Ha H; cbn [foldR] in H; [by injection H as <-|]. apply bindR_Ok in H as (b & Hb & H). eapply IHc; [by eapply IH|exact H].
Qed.
Lemma layout_mild j X t : all_mild j t -> all_mild j (run_layout X t).
Proof.
  intros Hr n e He. apply (Hr n). unfold get_ctx, run_layout, set in *. cbn [t_nodes] in He. rewrite map_lookup_imap in He. by destruct (t_nodes t !! n).
Qed.
Lemma viewport_mild j root vp t t' : set_viewport root vp t = Ok t' -> all_mild j t -> all_mild j t'.
Proof. unfold set_viewport. intros H Hr. apply bindR_Ok in H as (l & Hl & H). destruct (_ && _); [by eapply set_style_mild|by injection H as <-]. Qed.
Lemma sbs_mild j t t' : same_but_state t t' -> all_mild j t -> all_mild j t'.
Proof.
  intros H. apply moves_mild; [|by apply sbs_moves]. intros n Hn. destruct (get_ctx t' n) as [e'|] eqn:E; [|done]. apply sbs_sym in H. destruct (sbs_ctx _ _ _ _ H E) as (e & He & _). congruence.
Qed.
Lemma drawn_mild j t t' : same_drawn t t' -> all_mild j t -> all_mild j t'.
Proof.
  intros H. apply moves_mild; [|intros n; by apply drawn_moves, H]. intros n Hn. specialize (H n). unfold get_ctx in *.
  destruct (t_nodes t' !! n) as [x|], (t_nodes t !! n) as [y|]; try done. cbn in *. unfold drawn in H. injection H as _ H. rewrite Hn in H. by destruct (n_ctx x).
Qed.
Lemma sorted_counted debug t0 sheet n e : (forall s, s ∈ sheet -> Forall (careful_declaration V) (s_declaration s)) -> Forall careful_rule (sorted_out debug t0 sheet n e).
Proof.
  intros H. apply list.Forall_forall. intros es Hin. unfold sorted_out in Hin. apply elem_of_list_omap in Hin as (s & Hs & Hc).
  unfold careful_rule. replace (style_of es) with s; [by apply H|]. unfold classify in Hc.
  repeat match type of Hc with context [if ?b then _ else _] => destruct b | context [match ?x with _ => _ end] => destruct x end; try done; by injection Hc as <-.
Qed.
Lemma kept_counted debug sheet bs t0 t : (forall s, s ∈ sheet -> Forall (careful_declaration V) (s_declaration s)) -> inline_all (careful_declaration V) t ->
  kept debug sheet bs t0 t -> careful_tree t.
Proof.
  intros Hs Hric Hk n e Hn He. split.
  - rewrite (k_rules _ _ _ _ _ Hk n e Hn He). by apply sorted_counted.
  - apply (Hric n). unfold inline. by rewrite He.
Qed.
Lemma update_mild j X fuel css t0 v i x v' o : j < N -> F (in_time i) -> careful_css V css -> inline_along (careful_declaration V) X v [(i, x)] -> (forall s, x_order X s ≡ₚ map_to_list s) ->
  page_inv X css t0 v -> all_mild j (v_tree v) -> update X fuel v i x = Ok (v', o) -> all_mild (S j) (v_tree v').
Proof.
  intros HjN HF [Hcss Hfr] Hric Ho [Hs Hk Hc Hb Hn Htx] Hrest Hu.
  unfold update in Hu. apply bindR_Ok in Hu as ([[m t] ids] & Hpr & Hu). apply bindR_Ok in Hu as ([[s t'] o'] & Ho' & [= <- <-]). apply handle_output_sbs in Ho'. cbn [fst snd] in Ho'.
  change (all_mild (S j) t'). eapply sbs_mild; [exact Ho'|].
  unfold prepare in Hpr. apply bindR_Ok in Hpr as ([m0 rs] & Hvb & Hpr). apply bindR_Ok in Hpr as ([ta ids0] & Hup & Hpr).
  apply bindR_Ok in Hpr as (t1 & H1 & Hpr). apply bindR_Ok in Hpr as (t2 & H2 & Hpr). apply bindR_Ok in Hpr as (t3 & H3 & Hpr). injection Hpr as <- <- <-.
  pose proof (so_live _ Hs) as Hl. rewrite (so_root _ Hs) in Hl.
  assert (Hok : Forall (reaction_ok (v_tree v)) rs) by (by eapply view_bind_reactions_ok).
  assert (Hk1 : kept (x_debug X) (css_styles css) (v_bindings v) t0 ta) by (eapply kept_reactions; [exact Hk|exact Hok|by eapply view_bind_from|exact Hup]).
  eapply positions_mild; [exact H3|]. apply layout_mild. eapply tree_mild; [exact Ho| |exact HjN|exact HF| | | | |exact H2].
  - rewrite Hc. exact Hfr.
  - eapply careful_tree_content; [by eapply set_viewport_same|]. eapply kept_counted; [exact Hcss| |exact Hk1]. apply Hric. by eapply way_here.
  - exact (shown_live _ _ _ (content_shown _ _ (set_viewport_same _ _ _ _ H1)) (k_live _ _ _ _ _ Hk1)).
  - by rewrite Hb.
  - eapply viewport_mild; [exact H1|]. eapply drawn_mild; [by eapply update_trees_drawn|exact Hrest].
Qed.
Lemma careful_from X css t0 rank : halting (x_transformers X) -> ranked rank css -> careful_css V css -> (forall s, x_order X s ≡ₚ map_to_list s) ->
  forall hist v j, Forall (fun e => F (in_time (fst e))) hist -> j + List.length hist <= N -> inline_along (ranked_declaration rank) X v hist -> inline_along (careful_declaration V) X v hist ->
  page_inv X css t0 v -> all_mild j (v_tree v) -> ends (fun fuel => updates X fuel v hist).
Proof.
  intros Htr Hra Hcss Ho. induction hist as [|[i x] hist IH]; intros v j HFs HjN Hri Hqi Hp Hr; cbn [updates]; [apply ends_const, halts_ok|].
  apply list.Forall_cons in HFs as [HF HFs]. cbn [fst] in HF. cbn [List.length] in HjN.
  match goal with |- ends (fun fuel => bindR (update _ fuel _ _ _) (fun y => @?g y fuel)) => apply (ends_bind (fun fuel => update X fuel v i x) g) end.
  - eapply update_ends; [exact Hp|exact Htr|exact Hra|by eapply along_here|eapply mild_timers; [|exact HF|exact Hr]; lia].
  - intros [v1 o] (fuel & Hu).
    match goal with |- ends (fun fuel => bindR (updates _ fuel _ _) (fun y => @?g y fuel)) => apply (ends_bind (fun fuel => updates X fuel v1 hist) g) end.
    + apply (IH v1 (S j)); [exact HFs|lia|exact (along_later _ _ _ _ _ _ _ _ _ Hu Hri)|exact (along_later _ _ _ _ _ _ _ _ _ Hu Hqi)|exact (update_inv _ _ _ _ _ _ _ _ _ Hp Hu)|]. eapply update_mild; [|exact HF|exact Hcss|by eapply along_here|exact Ho|exact Hp|exact Hr|exact Hu]. lia.
    + intros [v2 os] _. apply ends_const, halts_ok.
Qed.
End careful.

(** ** Animators under a style *)
Lemma update_at_all {A} (P : A -> Prop) n d f l : P d -> (forall a, P a -> P (f a)) -> Forall P l -> Forall P (Element.update_at n d f l).
Proof.
  intros Hd Hf Hl. unfold Element.update_at. apply Forall_alter; [|intros; by apply Hf]. rewrite ensure_len_spec. apply list.Forall_app. split; [exact Hl|by apply Forall_replicate].
Qed.
Lemma apply_timers (P : Animator -> Prop) sizes k i v st : P animator_default -> place_of k = PlAnimators ->
  (forall g, (forall a, a_iterations (g a) = a_iterations a /\ a_duration (g a) = a_duration a /\ a_delay (g a) = a_delay a /\ a_time (g a) = a_time a) -> forall a, P a -> P (g a)) ->
  (forall d, k = KAnimationDuration -> v = CTime d -> forall a, P a -> P (a <| a_duration := d |>)) ->
  (forall d, k = KAnimationDelay -> v = CTime d -> forall a, P a -> P (a <| a_delay := d |>)) ->
  (forall n, k = KAnimationIterationCount -> v = CNumber n -> forall a, P a -> P (a <| a_iterations := AINumber n |>)) ->
  (forall s, k = KAnimationIterationCount -> v = CKeyword s -> s = "infinite" -> forall a, P a -> P (a <| a_iterations := AIInfinite |>)) ->
  Forall P (e_animators (snd st)) -> Forall P (e_animators (snd (apply sizes k i v st))).
Proof.
  intros Pd Ha Pg Pdu Pde Pn Pi Hs.
  assert (Hset : forall n f, (forall a, P a -> P (f a)) -> Forall P (e_animators (snd (set_an n f st)))).
  { intros n f Hf. destruct st as [l e]. exact (update_at_all P n animator_default f (e_animators e) Pd Hf Hs). }
  destruct k; try discriminate Ha; cbn [apply].
  - destruct v; cbn [time_of assign]; try exact Hs. apply Hset. by apply Pde.
  - match goal with |- Forall _ (e_animators (snd (assign ?o _ _))) => generalize o; intros [x|] end; cbn [assign]; [|exact Hs]. apply Hset. apply Pg. intros; done.
  - destruct v; cbn [time_of assign]; try exact Hs. apply Hset. by apply Pdu.
  - match goal with |- Forall _ (e_animators (snd (assign ?o _ _))) => generalize o; intros [x|] end; cbn [assign]; [|exact Hs]. apply Hset. apply Pg. intros; done.
  - destruct v; cbn [resolve_iterations assign]; try exact Hs.
    + cbn [kw]. destruct (String.eqb _ "infinite") eqn:E; [|exact Hs]. apply String.eqb_eq in E. apply Hset. by eapply Pi.
    + apply Hset. by apply Pn.
  - destruct v; cbn [keyword_of assign]; try exact Hs. apply Hset. apply Pg. intros; done.
  - match goal with |- Forall _ (e_animators (snd (assign ?o _ _))) => generalize o; intros [x|] end; cbn [assign]; [|exact Hs]. apply Hset. apply Pg. intros; done.
  - match goal with |- Forall _ (e_animators (snd (assign ?o _ _))) => generalize o; intros [x|] end; cbn [assign]; [|exact Hs]. apply Hset. apply Pg. intros; done.
Qed.

(** ** Pages that count the laps *)
Lemma ticks_mild fuel css time a a' : ticks fuel css time a a' -> mild_timer a -> mild_timer a'.
Proof. intros H. apply tick_settings, settings_fields in H as (F1 & F2 & F3 & F4 & F5 & F6 & F7 & F8). intros (n & H1 & H2 & H3). exists n. split; [congruence|]. split; [exact H2|congruence]. Qed.
Lemma apply_counted sizes k i v st : place_of k = PlAnimators -> counted_value k v -> Forall mild_timer (e_animators (snd st)) -> Forall mild_timer (e_animators (snd (apply sizes k i v st))).
Proof.
  intros Ha Hv. apply apply_timers; [exact mild_default|exact Ha|..].
  - intros g Hg a (n & H1 & H2 & H3). destruct (Hg a) as (E1 & E2 & _). exists n. rewrite E1, E2. done.
  - intros d -> -> a (n & H1 & H2 & H3). exists n. split; [exact H1|]. split; [exact H2|exact Hv].
  - intros d -> -> a H. exact H.
  - intros n -> -> a (m & H1 & H2 & H3). exists n. split; [reflexivity|]. split; [exact Hv|exact H3].
  - intros s -> -> ->. exfalso. by apply Hv.
Qed.
Theorem counted_ends X fuel doc css v0 hist rank :
  from_document X fuel doc css = Ok v0 -> halting (x_transformers X) -> (forall s, x_order X s ≡ₚ map_to_list s) ->
  ranked rank css -> inline_along (ranked_declaration rank) X v0 hist -> careful_css counted_value css -> inline_along (careful_declaration counted_value) X v0 hist ->
  ends (fun fuel => updates X fuel v0 hist).
Proof.
  intros H0 Ht Ho Hr Hri Hq Hqi. destruct (loaded_inv _ _ _ _ _ H0) as (t0 & Hp).
  assert (HV : forall k v, moving k = false -> counted_value k v) by (intros k v Hm; unfold counted_value; by destruct k).
  eapply (careful_from counted_value (fun _ => mild_timer) (fun _ => True) (List.length hist) HV (fun _ _ H => H)) with (j := 0).
  - intros _ sizes k i v st. apply apply_counted.
  - intros _ fuel0 css0 time a a' _ _. apply ticks_mild.
  - intros _ time a _ _. apply mild_few.
  - exact Ht.
  - exact Hr.
  - exact Hq.
  - exact Ho.
  - by apply list.Forall_forall.
  - done.
  - exact Hri.
  - exact Hqi.
  - exact Hp.
  - apply rest_mild. by eapply loaded_rest.
Qed.

(** ** Pages with endless animations *)
Definition slow_timer (m : Z) (j : nat) (a : Animator) : Prop :=
  is_finite (a_duration a) = true /\ ((B2R (a_duration a) = 0 /\ B2R (a_time a) = 0) \/ bpow radix2 m <= B2R (a_duration a) <= bpow radix2 100)%R /\
  is_finite (a_time a) = true /\ (0 <= B2R (a_time a) <= IZR (Z.of_nat j) * bpow radix2 m)%R /\
  is_finite (a_delay a) = true /\ (0 <= B2R (a_delay a))%R /\ forall n, a_iterations a = AINumber n -> few n.
Lemma slow_default m j : slow_timer m j animator_default.
Proof.
  split; [reflexivity|]. change (B2R (a_duration animator_default)) with 0%R. change (B2R (a_time animator_default)) with 0%R. change (B2R (a_delay animator_default)) with 0%R.
  split; [by left|]. split; [reflexivity|]. split; [split; [lra|]; apply Rmult_le_pos; [apply IZR_le; lia|apply bpow_ge_0]|]. split; [reflexivity|]. split; [lra|].
  intros n [= <-]. split; [reflexivity|]. unfold f1. destruct (f32_int 1 ltac:(lia)) as [_ ->]. change (bpow radix2 23) with 8388608%R. lra.
Qed.
Lemma slow_later m j a : slow_timer m j a -> slow_timer m (S j) a.
Proof.
  intros (H1 & H2 & H3 & H4 & H5). split; [exact H1|]. split; [exact H2|]. split; [exact H3|]. split; [|exact H5]. split; [lra|]. eapply Rle_trans; [apply H4|].
  apply Rmult_le_compat_r; [apply bpow_ge_0|]. apply IZR_le. lia.
Qed.
Lemma grid_format m z : (-149 <= m)%Z -> (Z.abs z <= 2 ^ 23)%Z -> generic_format radix2 fexp (IZR z * bpow radix2 m).
Proof.
  intros Hm Hz. apply generic_format_FLT. apply FLT_spec with (Float radix2 z m); [reflexivity|cbn [Fnum]; change (2 ^ 23)%Z with 8388608%Z in Hz; change (radix2 ^ 24)%Z with 16777216%Z; lia|exact Hm].
Qed.
Lemma grid_below m z : (m <= 100)%Z -> (0 <= z <= 2 ^ 23)%Z -> (0 <= IZR z * bpow radix2 m < bpow radix2 128)%R.
Proof.
  intros Hm [Hz Hz']. split; [apply Rmult_le_pos; [by apply IZR_le|apply bpow_ge_0]|]. apply Rle_lt_trans with (bpow radix2 23 * bpow radix2 100)%R.
  - apply Rmult_le_compat; [by apply IZR_le|apply bpow_ge_0| |by apply bpow_le]. change (bpow radix2 23) with (IZR (2 ^ 23)). by apply IZR_le.
  - rewrite <- bpow_plus. apply bpow_lt. lia.
Qed.
Section slow.
  Context (m : Z) (Hm : (-149 <= m <= 100)%Z).
  Lemma slow_advanced j time a : (Z.of_nat j < 2 ^ 23)%Z -> short_frame m time -> slow_timer m j a -> slow_timer m (S j) (advanced time a).
  Proof.
    intros Hj [Ft Rt] Ha. unfold advanced. destruct (a_running a && fgt (a_duration a) f0) eqn:E; [|by apply slow_later].
    apply andb_prop in E as [_ E]. destruct Ha as (H1 & H2 & H3 & H4 & H5 & H6 & H7).
    apply (proj1 (fgt_wide f0 eq_refl (a_duration a) (finite_not_nan _ H1))) in E. rewrite (wide_finite _ H1) in E. change (B2R f0) with 0%R in E.
    destruct H2 as [[H2 _]|H2]; [lra|].
    assert (G : generic_format radix2 fexp (IZR (Z.of_nat (S j)) * bpow radix2 m)) by (apply grid_format; lia).
    assert (B : (0 <= IZR (Z.of_nat (S j)) * bpow radix2 m < bpow radix2 128)%R) by (apply grid_below; lia).
    assert (Hs : (IZR (Z.of_nat (S j)) * bpow radix2 m = IZR (Z.of_nat j) * bpow radix2 m + bpow radix2 m)%R) by (rewrite Nat2Z.inj_succ, succ_IZR; ring).
    assert (K : (0 <= rnd (B2R (a_time a) + B2R time) <= IZR (Z.of_nat (S j)) * bpow radix2 m)%R).
    { split; [rewrite <- rnd_0; apply rnd_le; lra|apply rnd_le_fmt; [exact G|lra]]. }
    destruct (fadd_cases (a_time a) time H3 Ft) as [[Hf Ef]|(_ & Hov & _)].
    - split; [exact H1|]. split; [by right|]. split; [exact Hf|]. split; [rewrite <- Ef in K; exact K|]. split; [exact H5|]. split; [exact H6|exact H7].
    - exfalso. rewrite Rabs_pos_eq in Hov by apply K. lra.
  Qed.
  Lemma slow_tick j fuel css time a a' : (Z.of_nat j < 2 ^ 23)%Z -> short_frame m time -> ticks fuel css time a a' -> slow_timer m j a -> slow_timer m (S j) a'.
  Proof.
    intros Hj Ht H Ha. unfold ticks in H. destruct (css_animations css !! a_name a); [|subst a'; by apply slow_later]. destruct H as [x Hx].
    apply update_advanced in Hx as ->. by apply slow_advanced.
  Qed.
  Lemma slow_few j time a : (Z.of_nat j < 2 ^ 23)%Z -> short_frame m time -> slow_timer m j a -> few_laps time a.
  Proof.
    intros Hj Ht Ha. pose proof (slow_advanced j time a Hj Ht Ha) as Hb.
    assert (Sb : same_timing a (advanced time a)) by exact (after_same time a).
    destruct Sb as (Sd & _ & Si & _).
    destruct Hb as (H1 & H2 & H3 & H4 & H5 & H6 & H7).
    assert (He : is_finite (elapsed (advanced time a)) = true /\ (B2R (elapsed (advanced time a)) <= B2R (a_time (advanced time a)))%R).
    { unfold elapsed. set (x := a_time (advanced time a)) in *. set (d := a_delay (advanced time a)) in *.
      assert (U : (rnd (B2R x - B2R d) <= B2R x)%R) by (apply rnd_le_fmt; [apply fmt|lra]).
      assert (L : (- B2R d <= rnd (B2R x - B2R d))%R) by (apply rnd_ge_fmt; [apply generic_format_opp, fmt|lra]).
      destruct (fsub_cases x d H3 H5) as [[Hf Ef]|(_ & Hov & _)]; [split; [exact Hf|by rewrite Ef]|]. exfalso.
      pose proof (finite_top x H3) as Tx. pose proof (finite_top d H5) as Td. unfold top in Tx, Td.
      assert (Q : (Rabs (rnd (B2R x - B2R d)) < bpow radix2 128)%R) by (apply Rabs_lt; lra). lra. }
    destruct He as [Fe Le]. destruct (a_iterations a) as [n|] eqn:Ei.
    - destruct (H7 n (eq_sym Si)) as [Fn Rn]. eapply counted_few; [exact Ei|exact Fn|exact Rn|by rewrite Sd| |exact Fe]. rewrite Sd. pose proof (bpow_ge_0 radix2 m). destruct H2 as [[-> _]|H2]; lra.
    - unfold few_laps. cbv zeta. right.
      assert (Ea : active_time (advanced time a) = elapsed (advanced time a)) by (unfold active_time; by rewrite <- Si). rewrite Ea.
      destruct H2 as [[D0 T0]|H2].
      + left. destruct (fgt _ _) eqn:G; [|done]. apply fgt_wide in G; [|exact H1|by apply finite_not_nan]. rewrite (wide_finite _ Fe) in G. lra.
      + right. split; [exact Fe|]. split; [exact H1|]. pose proof (bpow_gt_0 radix2 m) as Bm. split; [lra|].
        eapply Rle_trans; [exact Le|]. eapply Rle_trans; [apply H4|]. apply Rmult_le_compat; [apply IZR_le; lia|lra| |lra].
        change (bpow radix2 23) with (IZR (2 ^ 23)). apply IZR_le. lia.
  Qed.
  Lemma apply_slow j sizes k i v st : place_of k = PlAnimators -> slow_value m k v -> Forall (slow_timer m j) (e_animators (snd st)) -> Forall (slow_timer m j) (e_animators (snd (apply sizes k i v st))).
  Proof.
    intros Ha Hv. apply apply_timers; [apply slow_default|exact Ha|..].
    - intros g Hg a Hs. destruct (Hg a) as (E1 & E2 & E3 & E4). unfold slow_timer in *. rewrite E1, E2, E3, E4. exact Hs.
    - intros d -> -> a (H1 & H2 & H3). split; [apply Hv|]. split; [right; apply Hv|exact H3].
    - intros d -> -> a (H1 & H2 & H3 & H4 & H5 & H6 & H7). split; [exact H1|]. split; [exact H2|]. split; [exact H3|]. split; [exact H4|]. split; [apply Hv|]. split; [apply Hv|exact H7].
    - intros n -> -> a (H1 & H2 & H3 & H4 & H5 & H6 & H7). split; [exact H1|]. split; [exact H2|]. split; [exact H3|]. split; [exact H4|]. split; [exact H5|]. split; [exact H6|]. intros n' [= <-]. exact Hv.
    - intros s -> -> -> a (H1 & H2 & H3 & H4 & H5 & H6 & H7). split; [exact H1|]. split; [exact H2|]. split; [exact H3|]. split; [exact H4|]. split; [exact H5|]. split; [exact H6|]. intros n' [=].
  Qed.
End slow.
Theorem slow_ends X fuel doc css v0 hist rank m : (-149 <= m <= 100)%Z ->
  from_document X fuel doc css = Ok v0 -> halting (x_transformers X) -> (forall s, x_order X s ≡ₚ map_to_list s) ->
  ranked rank css -> inline_along (ranked_declaration rank) X v0 hist -> careful_css (slow_value m) css -> inline_along (careful_declaration (slow_value m)) X v0 hist ->
  Forall (fun e => short_frame m (in_time (fst e))) hist -> (Z.of_nat (List.length hist) <= 2 ^ 23)%Z ->
  ends (fun fuel => updates X fuel v0 hist).
Proof.
  intros Hm H0 Ht Ho Hr Hri Hq Hqi HF Hn. destruct (loaded_inv _ _ _ _ _ H0) as (t0 & Hp).
  assert (HV : forall k v, moving k = false -> slow_value m k v) by (intros k v Hk; unfold slow_value; by destruct k).
  eapply (careful_from (slow_value m) (slow_timer m) (short_frame m) (List.length hist) HV (slow_later m)) with (j := 0).
  - intros j sizes k i v st. apply apply_slow.
  - intros j fuel0 css0 time a a' Hj. apply slow_tick; [exact Hm|lia].
  - intros j time a Hj. apply slow_few; [exact Hm|lia].
  - exact Ht.
  - exact Hr.
  - exact Hq.
  - exact Ho.
  - exact HF.
  - done.
  - exact Hri.
  - exact Hqi.
  - exact Hp.
  - apply rest_mild. by eapply loaded_rest.
Qed.
