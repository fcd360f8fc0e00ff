(** * The counters of a view, from update to update (C83). *)
From Coq Require Import ZArith Lia.
From stdpp Require Import gmap.
From RecordUpdate Require Import RecordUpdate.
From Verif Require Import Str StrFacts F32 Res ResFacts Json PropKey Html Css Element Tree ViewModel Render Update Matching
  Cascade Initial Animation Apply Styling Events View
  SpecLive SpecLog SpecView SpecRender SpecTree SpecEvents FrameFacts EventFacts EventFrame
  RenderTree RenderNode RenderProps RenderAny RenderMore LiveFacts LiveUpdate LiveView LiveHistory LiveOrder
  SpecSelect SelectFacts SelectLive SelectFresh SpecStyle ApplyFacts CascadeFacts SpecShow ShowFacts SpecPage AnimationFacts StyleTrace StyleView StylePage SpecMove MoveFacts SameFacts
  Metrics SpecMetrics MetricsFacts.

(** ** Values with a meaning *)
Definition isS {A} (o : option A) : bool := match o with Some _ => true | None => false end.
Lemma isS_map {A B} (f : A -> B) (o : option A) : isS o = isS (f <$> o). Proof. by destruct o. Qed.
Lemma accepted_means sizes k v : k <> KOutline -> accepted sizes k v = isS (SpecShow.meaning sizes k v).
Proof.
  intros Hk. destruct k; try congruence; cbn [accepted]; try reflexivity;
  lazymatch goal with
  | |- context [SpecShow.meaning _ KBackgroundImage _] => destruct v; try reflexivity; cbn [SpecShow.meaning one_of List.find fst snd]; by destruct (String.eqb _ "none")
  | |- _ => meant; exact (isS_map _ _)
  end.
Qed.
Lemma accepted_sizes s s' k v : accepted s k v = accepted s' k v.
Proof.
  destruct k; try reflexivity; cbn [accepted]; destruct v; try reflexivity; cbn [resolve_color kw]; repeat (destruct (String.eqb _ _); [reflexivity|]); reflexivity.
Qed.
Lemma accepted_meaning sizes k v : accepted sizes k v = true <-> has_meaning k v.
Proof.
  unfold has_meaning. destruct (decide (k = KOutline)) as [->|Hk]; [split; [by left|done]|]. split.
  - intros H. right. exists sizes. rewrite accepted_means in H by done. by destruct (SpecShow.meaning sizes k v).
  - intros [?|[s' H]]; [done|]. rewrite (accepted_sizes sizes s'), accepted_means by done. destruct (SpecShow.meaning s' k v); [done|by destruct H].
Qed.

(** ** One element *)
Lemma filter_once {A B} (f : A * B -> bool) (l : list (A * B)) : NoDup (l.*1) -> NoDup (map fst (List.filter f l)).
Proof.
  induction l as [|x l IH]; intros H; [constructor|]. rewrite fmap_cons in H. apply list.NoDup_cons in H as [H1 H2]. cbn [List.filter]. destruct (f x); [|by apply IH].
  cbn [map]. apply list.NoDup_cons. split; [|by apply IH]. intros Hin. apply H1. apply elem_of_list_In, in_map_iff in Hin as (y & Hy & Hin). apply filter_In in Hin as [Hin _].
  rewrite <- Hy. apply elem_of_list_fmap_1. by apply elem_of_list_In.
Qed.
Section element.
  Context (fuel : nat) (debug : bool) (css : Css) (order : ComputedStyle -> list (Descriptor * ComputedValue)) (time : f32).
  Context (Ho : forall s, order s ≡ₚ map_to_list s).
  Lemma applied_there sizes b (s : ComputedStyle) (P : Descriptor -> ComputedValue -> Prop) :
    (forall (d : Descriptor) v, s !! d = Some v <-> P d v) ->
    there_are (count_applied sizes b (order s)) (fun d : Descriptor => exists v, P d v /\ (accepted sizes (fst d) v = b)).
  Proof.
    intros HP. exists (map fst (List.filter (fun '((key, _), v) => Bool.eqb (accepted sizes key v) b) (order s))). split; [|unfold count_applied; by rewrite map_length].
    split.
    - assert (Hnd : NoDup ((order s).*1)). { rewrite (Ho s). exact (NoDup_fst_map_to_list s). }
      by apply filter_once.
    - intros d. split.
      + intros Hd. apply elem_of_list_In, in_map_iff in Hd as ([[k i] v] & <- & Hin). apply filter_In in Hin as [Hin Hb]. exists v. split; [|by apply Bool.eqb_prop].
        apply HP. apply (elem_of_map_to_list (M := gmap Descriptor)). rewrite <- (Ho s). by apply elem_of_list_In.
      + intros (v & Hv & Hb). apply elem_of_list_In, in_map_iff. exists (d, v). split; [done|]. apply filter_In. split.
        * apply elem_of_list_In. rewrite (Ho s). apply (elem_of_map_to_list (M := gmap Descriptor)). by apply HP.
        * destruct d as [k i]. cbn [fst] in Hb. rewrite Hb. by destruct b.
  Qed.
  Lemma counts_computes sizes vars n t pe layout e :
    cascade_counts fuel debug css order time sizes vars n t pe layout e =
    do! (c, vars) <- computes fuel debug css time vars n t e;
    let '(animators, transitions, s) := c in
    let st := mkStats (count_static (e_styles e)) (count_dynamic (e_styles e)) (count_applied sizes true (order s)) (count_applied sizes false (order s)) in
    let (layout, e) := apply_all sizes (order s) (layout, set e_transitions (fun _ => transitions) (set e_animators (fun _ => animators) (inherit pe (reset_element_style e)))) in
    do! transitions <- mapR (init_after_style_applied s) (e_transitions e);
    Ok (layout, set e_transitions (fun _ => transitions) e, vars, st).
  Proof.
    unfold cascade_counts, computes. cbv zeta.
    change (e_styles (inherit pe (reset_element_style e))) with (e_styles e). change (e_style (inherit pe (reset_element_style e))) with (e_style e).
    change (e_animators (inherit pe (reset_element_style e))) with (e_animators e). change (e_transitions (inherit pe (reset_element_style e))) with (e_transitions e).
    destruct (cascade_rules fuel debug n t (e_styles e) (vars, ∅)) as [[vars1 s1]| | |]; cbn [bindR]; [|done..].
    destruct (compute_declaration_block fuel (e_style e) (vars1, s1)) as [[vars2 s2]| | |]; cbn [bindR]; [|done..].
    destruct (play_animators fuel css time vars2 (e_animators e, s2)) as [[an s3]| | |]; cbn [bindR]; [|done..].
    destruct (play_transitions fuel time (e_transitions e) s3) as [[tr s4]| | |]; cbn [bindR]; done.
  Qed.
  Lemma counts_stats sizes vars n t pe layout e r st : cascade_counts fuel debug css order time sizes vars n t pe layout e = Ok (r, st) ->
    exists c s vars', computes fuel debug css time vars n t e = Ok (c, s, vars') /\
      st = mkStats (count_static (e_styles e)) (count_dynamic (e_styles e)) (count_applied sizes true (order s)) (count_applied sizes false (order s)).
  Proof.
    intros H. rewrite counts_computes in H. apply bindR_Ok in H as ([[[an tr] s] vars1] & Hc & H). cbv zeta in H. exists (an, tr), s, vars1. split; [exact Hc|].
    revert H. generalize (set e_transitions (fun _ => tr) (set e_animators (fun _ => an) (inherit pe (reset_element_style e)))). intros e0 H.
    destruct (apply_all _ _ _) as [l1 e1]. apply bindR_Ok in H as (ts & _ & H). revert H. generalize (set e_transitions (fun _ => ts) e1). intros e2 H.
    injection H as _ <-. done.
  Qed.
  Lemma counts_given sizes vars n t root pe layout e r st ds : get_ctx t n = Some e -> still e ->
    (forall s0 s1, cascade_rules fuel debug n t (e_styles e) s0 = Ok s1 -> exists rs, declared t root n (css_styles css) rs /\ compute_declaration_block fuel rs s0 = Ok s1) ->
    declarations css t root n ds ->
    cascade_counts fuel debug css order time sizes vars n t pe layout e = Ok (r, st) ->
    there_are (s_ok st) (fun d : Descriptor => exists v, wins vars ds (fst d) (snd d) v /\ has_meaning (fst d) v) /\
    there_are (s_error st) (fun d : Descriptor => exists v, wins vars ds (fst d) (snd d) v /\ ~ has_meaning (fst d) v).
  Proof.
    intros He [Ha Ht] Hrules Hds H. destruct (counts_stats _ _ _ _ _ _ _ _ _ H) as (c & s & vars' & Hc & ->). cbn [s_ok s_error].
    destruct c as [an tr]. destruct (computes_still _ _ _ _ _ _ _ _ _ _ Ha Ht Hc) as (vars2 & s1 & s2 & H1 & H2 & [= -> -> ->]).
    destruct (Hrules _ _ H1) as (rs & Hd & Hb). assert (ds = rs ++ e_style e) as ->. { eapply declarations_fun; [exact Hds|]. by exists rs, e. }
    assert (Hall : compute_declaration_block fuel (rs ++ e_style e) (vars, ∅) = Ok (vars', s2)) by (by rewrite block_app, Hb).
    destruct (block_wins _ _ _ _ _ _ Hall) as (_ & W1 & W2 & W3).
    assert (HP : forall (d : Descriptor) v, s2 !! d = Some v <-> wins vars (rs ++ e_style e) (fst d) (snd d) v).
    { intros [k i] v. cbn [fst snd]. split; [|apply W1]. intros Hv. destruct (W3 k i) as [[v' Hw]|Hu].
      - assert (Some v = Some v') as [= ->]; [|done]. rewrite <- Hv. exact (W1 _ _ _ Hw).
      - exfalso. assert (Some v = None) as [=]. etransitivity; [symmetry; exact Hv|]. etransitivity; [exact (W2 _ _ Hu)|]. exact (lookup_empty (k, i)). }
    assert (Hext : forall k (P Q : Descriptor -> Prop), (forall d, P d <-> Q d) -> there_are k P -> there_are k Q).
    { intros k P Q HPQ (l & [N L] & Hk). exists l. split; [|done]. split; [done|]. intros d. by rewrite L. }
    split.
    - eapply Hext; [|exact (applied_there sizes true s2 _ HP)]. intros d. cbn beta. split; intros (v & Hv & Hm); exists v; (split; [done|]); by apply (accepted_meaning sizes).
    - eapply Hext; [|exact (applied_there sizes false s2 _ HP)]. intros d. cbn beta. split; intros (v & Hv & Hm); exists v; (split; [done|]).
      + rewrite <- (accepted_meaning sizes). by rewrite Hm.
      + rewrite <- (accepted_meaning sizes) in Hm. by destruct (accepted sizes (fst d) v).
  Qed.
End element.

(** ** The page *)
Lemma styled_same t t' body n : same_content t t' -> styled_element t body n -> styled_element t' body n.
Proof.
  intros H (H1 & (e & He & Ht) & H3). pose proof (same_sym _ _ H) as H'.
  assert (Hab : forall a b, at_or_above t' a b -> at_or_above t a b) by (intros a b; by apply above_content).
  assert (Htc : forall a b, above t' a b -> above t a b).
  { intros a b Hm. induction Hm as [x y Hxy|x y z Hxy _ IH]; [apply tc_once|eapply tc_l; [|exact IH]]; by rewrite <- (shown_parent _ _ _ (content_shown _ _ H)). }
  split; [by eapply above_content|]. split.
  - destruct (same_ctx _ _ _ _ H He) as (e' & He' & Hc). exists e'. split; [done|]. unfold content in Hc. injection Hc as G1 G2 G3 G4 G5 G6 G7 G8 G9 G10. by rewrite G4.
  - intros m Hm Hmn (e' & He' & Hx). destruct (same_ctx _ _ _ _ H' He') as (e0 & He0 & Hc). apply (H3 m (Hab _ _ Hm) (Htc _ _ Hmn)). exists e0. split; [done|].
    unfold content in Hc. injection Hc as G1 G2 G3 G4 G5 G6 G7 G8 G9 G10. by rewrite G3, G4.
Qed.
Lemma kept_same t t' n : same_content t t' -> kept_static t' n = kept_static t n /\ kept_dynamic t' n = kept_dynamic t n.
Proof.
  intros H. unfold kept_static, kept_dynamic. destruct (get_ctx t n) as [e|] eqn:E.
  - destruct (same_ctx _ _ _ _ H E) as (e' & -> & Hc). unfold content in Hc. injection Hc as G1 G2 G3 G4 G5 G6 G7 G8 G9 G10. by rewrite G9.
  - destruct (get_ctx t' n) as [e'|] eqn:E'; [|done]. destruct (same_ctx _ _ _ _ (same_sym _ _ H) E') as (e0 & He0 & _). congruence.
Qed.

Section scope.
  Context (fuel : nat) (debug : bool) (css : Css) (order : ComputedStyle -> list (Descriptor * ComputedValue)) (time : f32) (t : Tree) (Hl : live t 0).
  Context (N : NodeId) (Hrules : forall m e, at_or_above t 1 m -> at_or_above t m N -> get_ctx t m = Some e -> forall st st', cascade_rules fuel debug m t (e_styles e) st = Ok st' ->
    exists ds, declared t 0 m (css_styles css) ds /\ compute_declaration_block fuel ds st = Ok st').
  Lemma visits_scope n vars k vars2 : visits fuel debug css order time t n vars k vars2 -> at_or_above t 1 n -> at_or_above t k N -> scope css t 0 1 n vars -> scope css t 0 1 k vars2.
  Proof.
    induction 1 as [n vars|n vars sizes pe x e layout' e' vars' c k vars2 Hx He Ht Hc Hp Hv IH]; intros Hn Hk Hs; [done|].
    assert (Hg : get_ctx t n = Some e) by (unfold get_ctx; by rewrite Hx).
    assert (HnN : at_or_above t n N). { eapply rtc_l; [exact Hp|]. etransitivity; [exact (visits_above _ _ _ _ _ _ _ _ _ _ Hv)|exact Hk]. }
    destruct (cascade_scope fuel debug css order time t 0 n e Hg (Hrules n e Hn HnN Hg) _ _ _ _ _ _ _ Hc) as (ds & Hd & ->).
    apply IH; [eapply rtc_r; [exact Hn|exact Hp]|exact Hk|]. eapply scope_child; [|exact Hp|exact Hs|exact Hd].
    intros ->. apply (above_le _ _ _ _ Hl) in Hn. apply (live_parent _ _ Hl) in Hp. destruct (live_newer _ _ Hl n 1 ltac:(by left)). lia.
  Qed.
End scope.

Lemma looks_style_same t t' n : same_looks t t' -> same_content t t' -> is_Some (get_ctx t n) -> n_style <$> t_nodes t' !! n = n_style <$> t_nodes t !! n.
Proof. intros H Hc [e He]. destruct (same_ctx _ _ _ _ Hc He) as (e' & He' & _). exact (shows_style t t' n e e' He He' (fun k => H n k 0)). Qed.

(** everything that the counters say about one update *)
Lemma update_counts X fuel doc css v0 hist v os i x c c' v' o :
  from_document X fuel doc css = Ok v0 -> updates X fuel v0 hist = Ok (v, os) -> update_counted X fuel v i x c = (c', Ok (v', o)) ->
  exists shown styled st, lists (at_or_above (v_tree v') (v_body v')) shown /\ lists (styled_element (v_tree v') (v_body v')) styled /\
    c' = mkMetrics (S (m_updates c)) (m_elements_shown c + List.length shown) (m_cascades c + List.length styled)
           (m_layouts c + List.length (List.filter (restyled (v_tree v) (v_tree v')) styled))
           (match styled with [] => m_styles c | _ :: _ => List.length (css_styles css) end)
           (m_matches_static c + total (kept_static (v_tree v')) styled) (m_matches_dynamic c + total (kept_dynamic (v_tree v')) styled)
           (m_apply_ok c + total (fun k => s_ok (st k)) styled) (m_apply_error c + total (fun k => s_error (st k)) styled) /\
    forall j t ids n, prepare X fuel v i x = Ok (j, t, ids) -> (forall s, x_order X s ≡ₚ map_to_list s) -> styled_element t (v_body v) n -> at_rest (v_tree v) n -> plain_selectors css t n ->
      (forall a s, at_or_above t (v_body v) a -> at_or_above t a n -> s ∈ css_styles css -> rule_settled (v_bindings v) t a s) ->
      exists ds vars, declarations css t (v_root v) n ds /\ scope css t (v_root v) (v_body v) n vars /\
        there_are (s_ok (st n)) (fun d : Descriptor => exists w, wins vars ds (fst d) (snd d) w /\ has_meaning (fst d) w) /\
        there_are (s_error (st n)) (fun d : Descriptor => exists w, wins vars ds (fst d) (snd d) w /\ ~ has_meaning (fst d) w).
Proof.
  intros H0 H Hcu. destruct (kept_history _ _ _ _ _ _ _ _ H0 H) as (rn & t0 & Hm & Hre & Hfl & Hk & Hc & Hbody & Hbs & Hs).
  pose proof (reached_sound _ _ _ _ _ _ _ _ H0 H) as Hso. pose proof (so_live _ Hso) as Hl.
  assert (Hup : update X fuel v i x = Ok (v', o)) by (rewrite <- (update_erase X fuel v i x c), Hcu; done).
  unfold update_counted in Hcu. apply tick_bind in Hcu. apply ret_bind in Hcu as ([j rs] & Hb & Hcu). apply ret_bind in Hcu as ([ta ids0] & Hu & Hcu).
  apply ret_bind in Hcu as (t1 & H1 & Hcu). cbv zeta in Hcu. apply bindM_Ok in Hcu as (c2 & t2 & H2 & Hcu). apply bindM_Ok in Hcu as (c3 & t3 & H3 & Hcu).
  apply ret_bind in Hcu as ([[s t4] o'] & H4 & Hcu). unfold ret in Hcu. 
  assert (Hc3 : c3 = c') by (by injection Hcu). assert (Hv' : v_tree v' = t4 /\ v_body v' = v_body v).
  { apply (f_equal (fun r => match snd r with Ok p => Some (v_tree (fst p), v_body (fst p)) | _ => None end)) in Hcu. cbn [snd fst] in Hcu.
    apply (inj Some) in Hcu. unfold set in Hcu. cbn [v_tree v_body] in Hcu. by injection Hcu as <- <-. }
  destruct Hv' as [Hv1 Hv2]. rewrite Hv1, Hv2. clear Hcu Hv2. subst c3.
  rewrite (so_root _ Hso) in *. rewrite Hbody in *. rewrite Hc in *.
  assert (Hok : Forall (reaction_ok (v_tree v)) rs) by (by eapply view_bind_reactions_ok).
  assert (Hk1 : kept (x_debug X) (css_styles css) (v_bindings v) t0 ta) by (eapply kept_reactions; [exact Hk|exact Hok|by eapply view_bind_from|exact Hu]).
  pose proof (set_viewport_same _ _ _ _ H1) as Hv.
  pose proof (kept_content _ _ _ _ _ _ Hk1 Hv) as Hk2. pose proof (k_live _ _ _ _ _ Hk2) as Hl1.
  destruct (rendered_live _ _ _ Hm Hre) as (Hl0 & Hat0 & Hr0).
  assert (Her2 : apply_styles fuel (x_debug X) css (x_order X) (in_time i) (tree_depth t1) 1 (mkSizes f16 f16 rgba0 (fst (in_viewport i)) (snd (in_viewport i))) ∅ t1 = Ok t2).
  { match type of H2 with _ ?m = _ => rewrite <- (styles_erase fuel (x_debug X) css (x_order X) (in_time i) (tree_depth t1) 1 _ _ t1 m), H2 end. done. }
  assert (Her3 : compute_final_positions (tree_depth (run_layout X t2)) 1 vzero f1 None (run_layout X t2) = Ok t3).
  { rewrite <- (positions_erase (tree_depth (run_layout X t2)) 1 vzero f1 None (run_layout X t2) c2), H3. done. }
  destruct (styles_trace _ _ _ _ _ _ _ _ _ _ _ Hl1 Her2) as (Htr & _ & Hal12).
  assert (Hal23 : alike t2 t3).
  { split; [eapply same_trans; [apply run_layout_same|by eapply final_positions_same]|eapply ss_trans; [apply run_layout_ss|by eapply final_positions_ss]]. }
  assert (Hal13 : alike t1 t3) by (by eapply alike_trans). pose proof (alike_sym _ _ Hal13) as Hal31.
  apply handle_output_sbs in H4. cbn [fst snd] in H4. pose proof (sbs_same _ _ H4) as Hs34.
  assert (Hs14 : same_content t1 t4) by (eapply same_trans; [exact (proj1 Hal13)|exact Hs34]).
  assert (Hl2 : live (run_layout X t2) 0).
  { eapply shown_live; [apply content_shown, run_layout_same|]. exact (shown_live _ _ _ (content_shown _ _ (proj1 Hal12)) Hl1). }
  destruct (styles_counted _ _ _ _ _ _ _ _ _ _ _ _ _ Hl1 H2) as (styled & st & [N2 L2] & -> & V).
  destruct (shown_counted _ _ _ _ _ _ _ _ _ Hl2 H3) as (shown & [N1 L1] & ->).
  assert (Hpr : prepare X fuel v i x = Ok (j, t3, ids0)).
  { unfold prepare. rewrite Hb. cbn [bindR]. rewrite Hu. cbn [bindR]. rewrite (so_root _ Hso), H1. cbn [bindR]. cbv zeta. rewrite Hbody, Hc, Her2. cbn [bindR]. rewrite Her3. done. }
  assert (Hin1 : forall k, k ∈ styled -> exists e, get_ctx t1 k = Some e /\ 1 <= k). { intros k Hk'. apply L2 in Hk' as (Ha & (e & He & _) & _). exists e. split; [done|]. exact (above_le _ _ _ _ Hl1 Ha). }
  exists shown, styled, st. split; [|split; [|split]].
  - split; [done|]. intros k. rewrite L1. assert (Hrs : same_content (run_layout X t2) t4) by (eapply same_trans; [eapply final_positions_same; exact Her3|exact Hs34]).
    split; apply above_content; [by apply same_sym|done].
  - split; [done|]. intros k. rewrite L2. split; apply styled_same; [done|by apply same_sym].
  - destruct (update_prepared _ _ _ _ _ _ _ _ _ _ Hup Hpr) as [_ Hlk].
    unfold cascaded, seen, set. cbn [m_updates m_elements_shown m_cascades m_layouts m_styles m_matches_static m_matches_dynamic m_apply_ok m_apply_error].
    assert (E1 : total (fun k => if restyled t1 t2 k then 1 else 0) styled = List.length (List.filter (restyled (v_tree v) t4) styled)).
    { rewrite <- total_flags. apply total_ext. intros k Hk'. destruct (Hin1 k Hk') as (e & He & Hk0).
      assert (Hb1 : n_style <$> t_nodes t1 !! k = n_style <$> t_nodes (v_tree v) !! k).
      { pose proof (update_trees_drawn _ _ _ _ _ _ Hu k) as D1. pose proof (viewport_drawn _ _ _ _ H1 k ltac:(lia)) as D2.
        destruct (t_nodes t1 !! k) as [a|], (t_nodes ta !! k) as [b|], (t_nodes (v_tree v) !! k) as [d|]; cbn in *; try done. unfold drawn in D1, D2.
        apply (inj Some) in D1, D2. injection D1 as D1 _. injection D2 as D2 _. by rewrite D2, D1. }
      assert (Hb2 : n_style <$> t_nodes t4 !! k = n_style <$> t_nodes t2 !! k).
      { destruct (same_ctx _ _ _ _ (proj1 Hal12) He) as (e2 & He2 & _). apply looks_style_same; [|eapply same_trans; [exact (proj1 Hal23)|exact Hs34]|eauto].
        eapply looks_trans; [apply layout_looks|]. eapply looks_trans; [eapply positions_looks; exact Her3|]. rewrite <- Hv1. exact Hlk. }
      unfold restyled. destruct (t_nodes t1 !! k), (t_nodes (v_tree v) !! k), (t_nodes t4 !! k), (t_nodes t2 !! k); cbn in *; try done. apply (inj Some) in Hb1, Hb2. by rewrite Hb1, Hb2. }
    assert (E2 : forall k, k ∈ styled -> s_static (st k) = kept_static t4 k /\ s_dynamic (st k) = kept_dynamic t4 k).
    { intros k Hk'. destruct (V k Hk') as (vars2 & _ & sizes & pe & y & e & layout' & e' & w & y' & Hy & He & Ht & Hcc & _).
      destruct (counts_stats _ _ _ _ _ _ _ _ _ _ _ _ _ _ Hcc) as (q1 & q2 & q3 & _ & ->). destruct (kept_same _ _ k Hs14) as [-> ->].
      unfold kept_static, kept_dynamic, get_ctx. rewrite Hy. cbn [mbind option_bind]. rewrite He. cbn [s_static s_dynamic]. split; reflexivity. }
    rewrite E1. f_equal; try lia; f_equal; apply total_ext; intros k Hk'; destruct (E2 k Hk'); done.
  - intros j' t' ids' n Hpr' Ho Hel Hrest Hplain Hse. rewrite Hpr in Hpr'. assert (t3 = t') as <- by congruence. clear Hpr'.
    pose proof (styled_element_alike _ _ _ _ Hal31 Hel) as Hel1.
    assert (Hn0 : n <> 0). { intros ->. destruct Hel1 as [Hx _]. apply (above_le _ _ _ _ Hl1) in Hx. lia. }
    assert (Hrules : forall m e, at_or_above t1 1 m -> at_or_above t1 m n -> get_ctx t1 m = Some e -> forall st st', cascade_rules fuel (x_debug X) m t1 (e_styles e) st = Ok st' ->
      exists ds, declared t1 0 m (css_styles css) ds /\ compute_declaration_block fuel ds st = Ok st').
    { intros a e Ha Han He st1 st' Hcr.
      assert (Hrf : cascade_rules fuel (x_debug X) a t1 (e_styles e) st1 = cascade_rules fuel (x_debug X) a t1 (map EDynamic (css_styles css)) st1).
      { eapply (rules_afresh _ _ _ _ _ Hl0 Hat0 Hr0 Hk2); [|exact He|exact Ha|].
        - intros k f key (p & b & Hin & Hpb). eapply stands_hints; [exact (re_stands _ _ _ Hre)| |exact Hpb].
          apply elem_of_list_In. rewrite <- Hfl. by apply elem_of_list_In.
        - intros s' Hs'. eapply settled_content; [exact (proj1 Hal31)|]. apply Hse; [by eapply above_alike|by eapply above_alike|done]. }
      rewrite Hrf in Hcr. eapply rules_declared; [exact Hl1|by eexists| |exact Hcr].
      intros s' sel Hs' Hsel. destruct (plain_alike _ _ _ _ Hal31 Hplain s' sel Hs' Hsel) as [P1 P2]. split; [done|]. intros b q Hb'. apply P2. by etransitivity. }
    destruct (V n ltac:(by apply L2)) as (vars2 & Hvis & sizes & pe & y & e & layout' & e' & w & y' & Hy & He & Ht & Hcc & _).
    assert (Hg : get_ctx t1 n = Some e) by (unfold get_ctx; by rewrite Hy). destruct Hel1 as (Ha1 & _ & _).
    assert (Hsc : scope css t1 0 1 n vars2). { eapply (visits_scope _ _ _ _ _ _ Hl1 n Hrules _ _ _ _ Hvis); [reflexivity|reflexivity|constructor]. }
    assert (Hstill : still e).
    { apply (drawn_rest (v_tree v) ta) in Hrest; [|by eapply update_trees_drawn].
      pose proof (viewport_drawn _ _ _ _ H1 n Hn0) as Hd. rewrite Hy in Hd.
      destruct (t_nodes ta !! n) as [z|] eqn:Hz; [|done]. cbn in Hd. unfold drawn in Hd. rewrite He in Hd.
      destruct (n_ctx z) as [e0|] eqn:He0; [|done]. destruct (Hrest e0) as [R1 R2]; [unfold get_ctx; by rewrite Hz|]. unfold still.
      cbn in Hd. unfold paint_of in Hd. injection Hd as G1 G2 G3 G4 G5 G6 G7 G8 G9 G10. by rewrite G9, G10. }
    assert (exists ds, declarations css t1 0 n ds) as [ds Hds].
    { destruct (counts_stats _ _ _ _ _ _ _ _ _ _ _ _ _ _ Hcc) as (q1 & q2 & q3 & Hcmp & _). unfold computes in Hcmp. apply bindR_Ok in Hcmp as ([u1 u2] & Hcr & _).
      destruct (Hrules n e Ha1 ltac:(reflexivity) Hg _ _ Hcr) as (rs' & Hd & _). exists (rs' ++ e_style e), rs', e. done. }
    exists ds, vars2. split; [exact (declarations_alike _ _ _ _ _ _ Hal13 Hds)|]. split; [exact (scope_alike _ _ _ _ _ _ _ Hal13 Hsc)|].
    exact (counts_given _ _ _ _ _ Ho _ _ _ _ _ _ _ _ _ _ _ Hg Hstill (Hrules n e Ha1 ltac:(reflexivity) Hg) Hds Hcc).
Qed.

(** ** Counters never go back, whatever happens *)
Lemma grows_refl c : grows c c. Proof. unfold grows. lia. Qed.
Lemma grows_trans a b c : grows a b -> grows b c -> grows a c. Proof. unfold grows. lia. Qed.
Definition steady {A} (k : counted A) : Prop := forall c, grows c (fst (k c)) /\ m_updates (fst (k c)) = m_updates c.
Lemma steady_ret {A} (r : res A) : steady (ret r). Proof. intros c. split; [apply grows_refl|done]. Qed.
Lemma steady_bind {A B} (k : counted A) (f : A -> counted B) : steady k -> (forall a, steady (f a)) -> steady (bindM k f).
Proof.
  intros H Hf c. destruct (H c) as [G E]. unfold bindM. destruct (k c) as [c1 [a| | |]]; cbn [fst] in *; [|by split..].
  destruct (Hf a c1) as [G2 E2]. split; [by eapply grows_trans|congruence].
Qed.
Lemma steady_fold {A S} (f : S -> A -> counted S) l : (forall s a, steady (f s a)) -> forall s, steady (foldM f s l).
Proof. intros H. induction l as [|a l IH]; intros s; cbn [foldM]; [apply steady_ret|]. apply steady_bind; [apply H|exact IH]. Qed.
Lemma steady_tick f : (forall c, grows c (f c) /\ m_updates (f c) = m_updates c) -> steady (tick f). Proof. intros H c. exact (H c). Qed.
Lemma steady_styles fuel debug css order time depth : forall n sizes vars t, steady (apply_styles_counted fuel debug css order time depth n sizes vars t).
Proof.
  induction depth as [|depth IH]; intros n sizes vars t; [apply steady_ret|]. cbn [apply_styles_counted].
  apply steady_bind; [apply steady_ret|]. intros p. apply steady_bind; [apply steady_ret|]. intros pe. apply steady_bind; [apply steady_ret|]. intros before.
  apply steady_bind; [apply steady_ret|]. intros e. destruct (e_text e); [apply steady_ret|].
  apply steady_bind; [apply steady_tick; intros c; destruct c; unfold grows; cbn; lia|]. intros _. apply steady_bind; [apply steady_ret|]. intros [[[l e1] v1] s1].
  apply steady_bind; [apply steady_tick; intros c; destruct c; unfold grows; cbn; lia|]. intros _.
  apply steady_bind; [apply steady_tick; intros c; unfold count_layout; destruct (tstyle_eqb _ _); [split; [apply grows_refl|done]|destruct c; unfold grows; cbn; lia]|]. intros _.
  apply steady_bind; [apply steady_ret|]. intros t1. destruct (_ || _); [apply steady_ret|]. apply steady_bind; [apply steady_ret|]. intros cs. apply steady_fold. intros s a. apply IH.
Qed.
Lemma steady_positions depth : forall n loc op clip t, steady (final_positions_counted depth n loc op clip t).
Proof.
  induction depth as [|depth IH]; intros n loc op clip t; [apply steady_ret|]. cbn [final_positions_counted].
  apply steady_bind; [apply steady_tick; intros c; destruct c; unfold grows; cbn; lia|]. intros _. apply steady_bind; [apply steady_ret|]. intros l. apply steady_bind; [apply steady_ret|]. intros e. cbv zeta.
  destruct (e_scrolling _); (apply steady_bind; [apply steady_ret|]; intros cs; apply steady_fold; intros s2 a2; apply IH).
Qed.
Lemma update_grows X fuel v i x c : grows c (fst (update_counted X fuel v i x c)) /\ m_updates (fst (update_counted X fuel v i x c)) = S (m_updates c).
Proof.
  unfold update_counted.
  match goal with |- context [bindM (tick ?f) ?k c] => change (bindM (tick f) k c) with (k tt (f c)); assert (Hk : steady (k tt)) end.
  { cbv beta. apply steady_bind; [apply steady_ret|]. intros [j rs]. apply steady_bind; [apply steady_ret|]. intros [t ids]. apply steady_bind; [apply steady_ret|]. intros t1. cbv zeta.
    apply steady_bind; [apply steady_styles|]. intros t2. apply steady_bind; [apply steady_positions|]. intros t3. apply steady_bind; [apply steady_ret|]. intros [[s t4] o]. apply steady_ret. }
  match goal with |- context [?k tt ?d] => destruct (Hk d) as [G E] end. split; [eapply grows_trans; [|exact G]; destruct c; unfold grows; cbn; lia|]. rewrite E. by destruct c.
Qed.

Lemma dimension_self d : (forall f, f ∈ dimension_numbers d -> feq f f = true) -> dimension_eqb d d = true.
Proof. intros H. destruct d as [|f|f]; [done|apply H, elem_of_list_here..]. Qed.
Lemma lp_self d : (forall f, f ∈ lp_numbers d -> feq f f = true) -> lp_eqb d d = true.
Proof. intros H. destruct d as [f|f]; apply H, elem_of_list_here. Qed.
Lemma lpa_self d : (forall f, f ∈ lpa_numbers d -> feq f f = true) -> lpa_eqb d d = true.
Proof. intros H. destruct d as [|f|f]; [done|apply H, elem_of_list_here..]. Qed.
Lemma rect_self {A : Set} num (eqb : A -> A -> bool) : (forall d, (forall f, f ∈ num d -> feq f f = true) -> eqb d d = true) ->
  forall r, (forall f, f ∈ rect_numbers num r -> feq f f = true) -> rect_eqb eqb r r = true.
Proof.
  intros H r Hr. unfold rect_eqb. unfold rect_numbers in Hr. repeat (apply andb_true_intro; split); apply H; intros f Hf; apply Hr; rewrite !elem_of_app; tauto.
Qed.
Lemma size_self {A : Set} num (eqb : A -> A -> bool) : (forall d, (forall f, f ∈ num d -> feq f f = true) -> eqb d d = true) ->
  forall r, (forall f, f ∈ size_numbers num r -> feq f f = true) -> size_eqb eqb r r = true.
Proof.
  intros H r Hr. unfold size_eqb. unfold size_numbers in Hr. repeat (apply andb_true_intro; split); apply H; intros f Hf; apply Hr; rewrite !elem_of_app; tauto.
Qed.
Lemma style_self s : (forall f, f ∈ style_numbers s -> feq f f = true) -> tstyle_eqb s s = true.
Proof.
  intros H. unfold style_numbers in H.
  assert (H1 : forall f, f ∈ rect_numbers lpa_numbers (ts_inset s) -> feq f f = true) by (intros f Hf; apply H; rewrite !elem_of_app; tauto).
  assert (H2 : forall f, f ∈ rect_numbers lpa_numbers (ts_margin s) -> feq f f = true) by (intros f Hf; apply H; rewrite !elem_of_app; tauto).
  assert (H3 : forall f, f ∈ rect_numbers lp_numbers (ts_padding s) -> feq f f = true) by (intros f Hf; apply H; rewrite !elem_of_app; tauto).
  assert (H4 : forall f, f ∈ rect_numbers lp_numbers (ts_border s) -> feq f f = true) by (intros f Hf; apply H; rewrite !elem_of_app; tauto).
  assert (H5 : forall f, f ∈ size_numbers dimension_numbers (ts_size s) -> feq f f = true) by (intros f Hf; apply H; rewrite !elem_of_app; tauto).
  assert (H6 : forall f, f ∈ size_numbers dimension_numbers (ts_min_size s) -> feq f f = true) by (intros f Hf; apply H; rewrite !elem_of_app; tauto).
  assert (H7 : forall f, f ∈ size_numbers dimension_numbers (ts_max_size s) -> feq f f = true) by (intros f Hf; apply H; rewrite !elem_of_app; tauto).
  assert (H8 : forall f, f ∈ size_numbers lp_numbers (ts_gap s) -> feq f f = true) by (intros f Hf; apply H; rewrite !elem_of_app; tauto).
  assert (H9 : forall f, f ∈ [ts_flex_grow s; ts_flex_shrink s] -> feq f f = true) by (intros f Hf; apply H; rewrite !elem_of_app; tauto).
  assert (H10 : forall f, f ∈ dimension_numbers (ts_flex_basis s) -> feq f f = true) by (intros f Hf; apply H; rewrite !elem_of_app; tauto).
  unfold tstyle_eqb. rewrite (rect_self _ _ lpa_self _ H1), (rect_self _ _ lpa_self _ H2), (rect_self _ _ lp_self _ H3), (rect_self _ _ lp_self _ H4),
    (size_self _ _ dimension_self _ H5), (size_self _ _ dimension_self _ H6), (size_self _ _ dimension_self _ H7), (size_self _ _ lp_self _ H8), (dimension_self _ H10),
    (H9 (ts_flex_grow s)), (H9 (ts_flex_shrink s)), !bool_decide_eq_true_2 by (try done; first [apply elem_of_list_here|apply elem_of_list_further, elem_of_list_here]). done.
Qed.
Lemma restyled_same t t' n : no_nan t n -> n_style <$> t_nodes t' !! n = n_style <$> t_nodes t !! n -> restyled t t' n = false.
Proof.
  intros H E. unfold restyled. destruct (t_nodes t !! n) as [x|] eqn:Ex, (t_nodes t' !! n) as [x'|]; try done. cbn [fmap option_fmap option_map] in E. apply (inj Some) in E.
  rewrite E, style_self; [done|]. intros f. exact (H x f Ex).
Qed.
