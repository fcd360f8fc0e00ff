(** * Histories that end, and pages that are stuck (C39). *)
From Coq Require Import ZArith Lia.
From stdpp Require Import gmap.
From RecordUpdate Require Import RecordUpdate.
From Verif Require Import Str StrFacts F32 Res ResFacts Json PropKey Html Css Element Tree ViewModel Render Update Matching
  Cascade Initial Animation Apply Styling Events View
  SpecLive SpecLog SpecView SpecRender SpecTree SpecEvents FrameFacts EventFacts EventFrame EventPage EventProps
  RenderTree RenderNode RenderProps RenderAny RenderMore LiveFacts LiveUpdate LiveView LiveHistory LiveOrder
  SpecSelect SelectFacts SelectLive SelectFresh SpecStyle SpecShow SpecPage ApplyFacts ShowFacts CascadeFacts AnimationFacts StyleTrace StyleView StylePage StyleRest StyleMore
  SpecAnim SpecEnds EndsTimer EndsFacts EndsPage.


(** ** Every history of a quiet page ends *)
Lemma update_rest X fuel css t0 v i x v' o : quiet_css css -> inline_along quiet_declaration X v [(i, x)] -> (forall s, x_order X s ≡ₚ map_to_list s) ->
  page_inv X css t0 v -> all_rest (v_tree v) -> update X fuel v i x = Ok (v', o) -> all_rest (v_tree v').
Proof.
  intros Hcss Hric Ho [Hs Hk Hc Hb Hn Htx] Hrest Hu.
  unfold update in Hu. apply bindR_Ok in Hu as ([[m t] ids] & Hpr & Hu). apply bindR_Ok in Hu as ([[s t'] o'] & Ho' & [= <- <-]). apply handle_output_sbs in Ho'. cbn [fst snd] in Ho'.
  change (all_rest t'). eapply sbs_rest; [exact Ho'|].
  unfold prepare in Hpr. apply bindR_Ok in Hpr as ([m0 rs] & Hvb & Hpr). apply bindR_Ok in Hpr as ([ta ids0] & Hup & Hpr).
  apply bindR_Ok in Hpr as (t1 & H1 & Hpr). apply bindR_Ok in Hpr as (t2 & H2 & Hpr). apply bindR_Ok in Hpr as (t3 & H3 & Hpr). injection Hpr as <- <- <-.
  pose proof (so_live _ Hs) as Hl. rewrite (so_root _ Hs) in Hl.
  assert (Hok : Forall (reaction_ok (v_tree v)) rs) by (by eapply view_bind_reactions_ok).
  assert (Hk1 : kept (x_debug X) (css_styles css) (v_bindings v) t0 ta) by (eapply kept_reactions; [exact Hk|exact Hok|by eapply view_bind_from|exact Hup]).
  eapply positions_rest; [exact H3|]. apply layout_rest. eapply styles_rest; [exact Ho| | | | |exact H2].
  - eapply quiet_tree_content; [by eapply set_viewport_same|]. eapply kept_quiet; [exact Hcss| |exact Hk1]. apply Hric. by eapply way_here.
  - exact (shown_live _ _ _ (content_shown _ _ (set_viewport_same _ _ _ _ H1)) (k_live _ _ _ _ _ Hk1)).
  - by rewrite Hb.
  - eapply viewport_rest; [exact H1|]. eapply drawn_all_rest; [by eapply update_trees_drawn|exact Hrest].
Qed.
Lemma rest_timers time t : all_rest t -> tame_timers time t.
Proof. intros H n e He. destruct (H n e He) as [-> ->]. split; constructor. Qed.
Lemma along_here P X v i x after : inline_along P X v ((i, x) :: after) -> inline_along P X v [(i, x)].
Proof.
  intros H t Ht. apply H. inversion Ht as [v0 i0 x0 after0 m rs t0 ids H1 H2|fuel v0 i0 x0 v1 o after0 t0 H1 H2]; subst; [by eapply way_here|inversion H2].
Qed.
Lemma quiet_from X css t0 rank : halting (x_transformers X) -> ranked rank css -> quiet_css css -> (forall s, x_order X s ≡ₚ map_to_list s) ->
  forall hist v, inline_along (ranked_declaration rank) X v hist -> inline_along quiet_declaration X v hist ->
  page_inv X css t0 v -> all_rest (v_tree v) -> ends (fun fuel => updates X fuel v hist).
Proof.
  intros Htr Hra Hcss Ho. induction hist as [|[i x] hist IH]; intros v Hri Hqi Hp Hr; cbn [updates]; [apply ends_const, halts_ok|].
  match goal with |- ends (fun fuel => bindR (update _ fuel _ _ _) (fun y => @?g y fuel)) => apply (ends_bind (fun fuel => update X fuel v i x) g) end.
  - eapply update_ends; [exact Hp|exact Htr|exact Hra|by eapply along_here|by apply rest_timers].
  - intros [v1 o] (fuel & Hu).
    match goal with |- ends (fun fuel => bindR (updates _ fuel _ _) (fun y => @?g y fuel)) => apply (ends_bind (fun fuel => updates X fuel v1 hist) g) end.
    + apply IH; [exact (along_later _ _ _ _ _ _ _ _ _ Hu Hri)|exact (along_later _ _ _ _ _ _ _ _ _ Hu Hqi)|exact (update_inv _ _ _ _ _ _ _ _ _ Hp Hu)|]. eapply update_rest; [exact Hcss|by eapply along_here|exact Ho|exact Hp|exact Hr|exact Hu].
    + intros [v2 os] _. apply ends_const, halts_ok.
Qed.

(** ** A page with a timer that never ends *)
Section stuck.
  Context (fuel : nat) (debug : bool) (css : Css) (order : ComputedStyle -> list (Descriptor * ComputedValue)) (time : f32) (t t' : Tree).
  Context (Hl : live t 0) (Hal : alike t t').
  Lemma reaches sizes vars : styled fuel debug css order time t t' 1 sizes vars -> forall n, at_or_above t 1 n -> (forall m, at_or_above t 1 m -> above t m n -> ~ contentless t m) ->
    exists sizes vars, styled fuel debug css order time t t' n sizes vars.
  Proof.
    intros H1. apply (rtc_ind_r (fun n => (forall m, at_or_above t 1 m -> above t m n -> ~ contentless t m) -> exists sizes vars, styled fuel debug css order time t t' n sizes vars) 1); [eauto|].
    intros p n Hap Hpn IH Hc. destruct IH as (sz & vs & Hst).
    { intros m Hm Hmp. apply Hc; [done|]. eapply tc_r; [exact Hmp|exact Hpn]. }
    assert (Hpc : ~ contentless t p) by (apply Hc; [done|by apply tc_once]).
    inversion Hst as [? q pe e spans ? ? Hq Hpe He Ht He'|? q pe x e layout' e' vars' x' ? ? Hq Hpe Hx He Ht Hcs Hx' He' Hlay Hch]; subst.
    { exfalso. apply Hpc. exists e. rewrite Ht. eauto. }
    assert (Hg : get_ctx t p = Some e) by (unfold get_ctx; by rewrite Hx).
    assert (Hv : String.eqb (e_tag e) "img" || is_void (e_tag e) = false). { destruct (_ || _) eqn:E; [|done]. exfalso. apply Hpc. exists e. eauto. }
    specialize (Hch Hv n ltac:(by apply (live_parent _ _ Hl))). eauto.
  Qed.
End stuck.
Lemma fold_each {A B} (f : A -> B -> res A) l : forall a r, foldR f a l = Ok r -> forall b, b ∈ l -> exists a1 a2, f a1 b = Ok a2.
Proof.
  induction l as [|c l IH]; intros a r H b Hb; [by apply elem_of_nil in Hb|]. cbn [foldR] in H. apply bindR_Ok in H as (a1 & H1 & H).
  apply elem_of_cons in Hb as [->|Hb]; [eauto|by eapply IH].
Qed.
Lemma prepare_plays X fuel css t0 v i x m t ids n : page_inv X css t0 v -> prepare X fuel v i x = Ok (m, t, ids) -> styled_element t 1 n ->
  exists e an s vars s0 tn s1, get_ctx (v_tree v) n = Some e /\ play_animators fuel css (in_time i) vars (e_animators e, s) = Ok (an, s0) /\ play_transitions fuel (in_time i) (e_transitions e) s0 = Ok (tn, s1).
Proof.
  intros [Hs Hk Hc Hb Hn Htx] Hpr Hel.
  unfold prepare in Hpr. apply bindR_Ok in Hpr as ([m0 rs] & Hvb & Hpr). apply bindR_Ok in Hpr as ([ta ids0] & Hup & Hpr).
  apply bindR_Ok in Hpr as (t1 & H1 & Hpr). apply bindR_Ok in Hpr as (t2 & H2 & Hpr). apply bindR_Ok in Hpr as (t3 & H3 & Hpr). injection Hpr as <- <- <-.
  pose proof (so_live _ Hs) as Hl. rewrite (so_root _ Hs) in Hl.
  assert (Hok : Forall (reaction_ok (v_tree v)) rs) by (by eapply view_bind_reactions_ok).
  assert (Hk1 : kept (x_debug X) (css_styles css) (v_bindings v) t0 ta) by (eapply kept_reactions; [exact Hk|exact Hok|by eapply view_bind_from|exact Hup]).
  pose proof (set_viewport_same _ _ _ _ H1) as Hsame.
  pose proof (shown_live _ _ _ (content_shown _ _ Hsame) (k_live _ _ _ _ _ Hk1)) as Hl1. rewrite Hb, Hc in *.
  destruct (styles_trace _ _ _ _ _ _ _ _ _ _ _ Hl1 H2) as (Htr & _ & Hal12).
  assert (Hal23 : alike t2 t3).
  { split; [eapply same_trans; [apply run_layout_same|by eapply final_positions_same]|eapply ss_trans; [apply run_layout_ss|by eapply final_positions_ss]]. }
  assert (Hal13 : alike t1 t3) by (by eapply alike_trans). pose proof (alike_sym _ _ Hal13) as Hal31.
  destruct (styled_element_alike _ _ _ _ Hal31 Hel) as (E1 & (e & He & Ht) & E3).
  destruct (reaches _ _ _ _ _ _ _ Hl1 _ _ Htr n E1 E3) as (sz & vs & Hst).
  inversion Hst as [? q pe e2 spans ? ? Hq Hpe He2 Ht2 He'|? q pe x2 e2 layout' e' vars' x' ? ? Hq Hpe Hx He2 Ht2 Hcs Hx' He' Hlay Hch]; subst.
  { exfalso. rewrite He in He2. injection He2 as <-. congruence. }
  assert (E : get_ctx t1 n = Some e2) by (unfold get_ctx; by rewrite Hx).
  apply (viewport_timers _ _ _ _ _ _ H1) in E. pose proof (update_trees_drawn _ _ _ _ _ _ Hup n) as Hdr.
  destruct (drawn_timers _ _ _ _ Hdr E) as (e0 & He0 & Ea & Et).
  rewrite cascade_computes in Hcs. apply bindR_Ok in Hcs as ([[[an tr] s] vars0] & Hc' & _).
  unfold computes in Hc'. apply bindR_Ok in Hc' as ([vars1 s1] & _ & Hc'). apply bindR_Ok in Hc' as ([vars2 s2] & _ & Hc').
  apply bindR_Ok in Hc' as ([an1 s4] & G3 & Hc'). apply bindR_Ok in Hc' as ([tr1 s5] & G4 & _).
  rewrite Ea in G3. rewrite Et in G4. exists e0, an1, s2, vars2, s4, tr1, s5. done.
Qed.

Theorem stuck_animation X fuel css t0 v i x m t ids n e a : page_inv X css t0 v -> get_ctx (v_tree v) n = Some e -> a ∈ e_animators e -> is_Some (css_animations css !! a_name a) ->
  never_ends (fun fuel => animator_update fuel (in_time i) a) -> styled_element t 1 n -> prepare X fuel v i x <> Ok (m, t, ids).
Proof.
  intros Hp He Hin [an Han] Hnev Hel Hpr. destruct (prepare_plays _ _ _ _ _ _ _ _ _ _ _ Hp Hpr Hel) as (e0 & an1 & s & vars & s0 & tn & s1 & He0 & Hpl & _).
  rewrite He in He0. injection He0 as <-. unfold play_animators in Hpl. cbn [fst snd] in Hpl. destruct (fold_each _ _ _ _ Hpl a Hin) as ([d1 sa] & [d2 sb] & H).
  rewrite Han in H. apply bindR_Ok in H as (tracks & _ & H). apply bindR_Ok in H as ([a' sc] & H & _). unfold animator_play in H. rewrite (Hnev fuel) in H. discriminate H.
Qed.
Theorem stuck_transition X fuel css t0 v i x m t ids n e tn : page_inv X css t0 v -> get_ctx (v_tree v) n = Some e -> tn ∈ e_transitions e -> is_Some (t_key tn) ->
  never_ends (fun fuel => animator_update fuel (in_time i) (t_animator tn)) -> styled_element t 1 n -> prepare X fuel v i x <> Ok (m, t, ids).
Proof.
  intros Hp He Hin [k Hkey] Hnev Hel Hpr. destruct (prepare_plays _ _ _ _ _ _ _ _ _ _ _ Hp Hpr Hel) as (e0 & an1 & s & vars & s0 & tn1 & s1 & He0 & _ & Hpl).
  rewrite He in He0. injection He0 as <-. unfold play_transitions in Hpl. destruct (fold_each _ _ _ _ Hpl tn Hin) as ([d1 sa] & [d2 sb] & H).
  apply bindR_Ok in H as ([a' sc] & H & _). unfold transition_play in H. rewrite Hkey, (Hnev fuel) in H. discriminate H.
Qed.
(** a transition that does not know where it starts, when the property is given *)
Lemma range_never fuel time tn k (style : ComputedStyle) x a : t_key tn = Some k -> t_range tn = None -> animator_update fuel time (t_animator tn) = Ok (a, Some x) -> is_Some (style !! ((k, 0) : Descriptor)) ->
  transition_play fuel time tn style = Hang.
Proof.
  intros Hk Hr Ha [w Hw]. unfold transition_play. rewrite Hk, Ha. cbn [bindR play_loop].
  match goal with |- (match ?o with Some _ => _ | None => _ end) = _ => destruct o as [w'|] eqn:E end; [unfold set; cbn [t_range]; by rewrite Hr|].
  assert (H : Some w = None) by (etransitivity; [symmetry; exact Hw|exact E]). discriminate H.
Qed.

(** ** Timers that never end *)
Lemma animator_never time a : flt (elapsed (advanced time a)) f0 = false -> never_ends (fun fuel => wrap_time fuel (a_duration a) (active_time (advanced time a))) ->
  never_ends (fun fuel => animator_update fuel time a).
Proof.
  intros Hd Hn fuel. unfold animator_update. cbv zeta. fold (advanced time a). change (fsub (a_time (advanced time a)) (a_delay (advanced time a))) with (elapsed (advanced time a)). rewrite Hd.
  assert (E : a_duration (advanced time a) = a_duration a) by (unfold advanced; by destruct (_ && _)). rewrite E.
  specialize (Hn fuel). unfold active_time in Hn. rewrite E in Hn. 
  destruct (a_iterations (advanced time a)); rewrite Hn; reflexivity.
Qed.
