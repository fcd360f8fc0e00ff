(** * Pages without animations and transitions stay at rest. *)
From Coq Require Import ZArith Lia.
From stdpp Require Import gmap.
From RecordUpdate Require Import RecordUpdate.
From Verif Require Import Str StrFacts F32 Res ResFacts Json PropKey Html Css Element Tree ViewModel Render Update Matching
  Cascade Initial Animation Apply Styling Events View
  SpecLive SpecLog SpecView SpecRender SpecTree SpecEvents FrameFacts EventFacts EventFrame
  RenderTree RenderNode RenderProps RenderAny RenderMore LiveFacts LiveUpdate LiveView LiveHistory LiveOrder
  SpecSelect SelectFacts SelectLive SelectFresh SpecStyle SpecShow SpecPage ApplyFacts ShowFacts CascadeFacts AnimationFacts StyleTrace StyleView StylePage.

Definition quiet (s : ComputedStyle) : Prop := forall k i v, s !! (k, i) = Some v -> moving k = false.
Lemma expand_quiet key vs k v : moving key = false -> In (k, v) (expand key vs) -> moving k = false.
Proof.
  intros Hl Hin.
  assert (Hdef : In (k, v) (match vs with [v] => [(key, v)] | _ => [] end) -> moving k = false).
  { intros H. destruct vs as [|w [|]]; try done. destruct H as [[= <- _]|[]]. done. }
  destruct key; try discriminate Hl; try (apply Hdef; exact Hin); cbn [expand] in Hin;
    repeat (match type of Hin with context [match ?x with _ => _ end] => destruct x end; cbn [In four border_all app] in Hin);
    repeat (destruct Hin as [Hin|Hin]; [injection Hin as <- _; reflexivity|]); try done.
Qed.
Lemma block_quiet fuel ds : forall st st', Forall quiet_declaration ds -> compute_declaration_block fuel ds st = Ok st' -> quiet (snd st) -> quiet (snd st').
Proof.
  intros [vars s] [vars' s'] Hq H Hs k i v Hv. destruct (block_wins _ _ _ _ _ _ H) as (_ & W1 & W2 & W3). cbn [snd] in *.
  destruct (W3 k i) as [(w & Hw)|Hu]; [|rewrite (W2 _ _ Hu) in Hv; by eapply Hs].
  destruct Hw as (pre & d & post & -> & (p & sh & vs & -> & Hp & Hm & Hl) & _). apply list.Forall_app in Hq as [_ Hq]. apply list.Forall_cons in Hq as [Hq _].
  eapply expand_quiet; [exact Hq|]. by apply last_given_in.
Qed.
Definition quiet_rule (es : ElementStyle) : Prop := Forall quiet_declaration (s_declaration (style_of es)).
Lemma rules_quiet fuel debug n t l : Forall quiet_rule l -> forall st st', cascade_rules fuel debug n t l st = Ok st' -> quiet (snd st) -> quiet (snd st').
Proof.
  intros Hl. unfold cascade_rules. induction Hl as [|es l Ht _ IH]; intros st st' H Hs; cbn [foldR] in H; [by injection H as <-|].
  apply bindR_Ok in H as (st1 & H1 & H). apply (IH _ _ H). destruct es as [s|s]; [by eapply block_quiet|].
  apply bindR_Ok in H1 as (b & _ & H1). destruct b; [by eapply block_quiet|by injection H1 as <-].
Qed.
Lemma put_still p l1 e1 l e : p <> PlTransitions -> p <> PlAnimators -> still e -> still (snd (put p (l1, e1) (l, e))).
Proof. intros H1 H2 H. destruct p; try done. Qed.
Lemma apply_still sizes k i v st : moving k = false -> still (snd st) -> still (snd (apply sizes k i v st)).
Proof.
  intros Hm Hs. rewrite apply_within. destruct st as [l e], (apply sizes k i v (l, e)) as [l1 e1]. apply put_still; [| |done]; intros E; unfold moving in Hm; rewrite E in Hm; by destruct k.
Qed.
Lemma apply_all_still sizes ps : (forall k i v, ((k, i), v) ∈ ps -> moving k = false) -> forall st, still (snd st) -> still (snd (apply_all sizes ps st)).
Proof.
  unfold apply_all. induction ps as [|[[k i] v] ps IH]; intros Hp st Hs; cbn [foldl]; [done|]. apply IH; [intros k' i' v' Hin; eapply Hp; by apply elem_of_list_further|].
  apply apply_still; [eapply Hp; apply elem_of_list_here|done].
Qed.
Lemma mapR_nil {A B} (f : A -> res B) l : mapR f [] = Ok l -> l = []. Proof. by intros [= <-]. Qed.
Lemma cascade_still fuel debug css order time sizes vars n t pe layout e l' e' vars' :
  (forall s, order s ≡ₚ map_to_list s) -> Forall quiet_rule (e_styles e) -> Forall quiet_declaration (e_style e) -> still e ->
  cascade_apply_styles fuel debug css order time sizes vars n t pe layout e = Ok (l', e', vars') -> still e'.
Proof.
  intros Ho Hr He [Ha Ht] H. rewrite cascade_computes in H. apply bindR_Ok in H as ([[[an tr] s] vars1] & Hc & H).
  destruct (computes_still _ _ _ _ _ _ _ _ _ _ Ha Ht Hc) as (vars2 & s1 & s2 & H1 & H2 & [= -> -> ->]).
  rewrite (played_still _ (still_settle pe e (conj Ha Ht))) in H.
  assert (Hq : quiet s2). { apply (block_quiet _ _ _ _ He H2). apply (rules_quiet _ _ _ _ _ Hr _ _ H1). intros k i v Hv. assert (Some v = None) as [=]. etransitivity; [symmetry; exact Hv|]. exact (lookup_empty (k, i)). }
  pose proof (apply_all_still sizes (order s2)) as Hst. specialize (Hst ltac:(intros k i v Hin; rewrite Ho in Hin; apply elem_of_map_to_list in Hin; by eapply Hq) (layout, inherit pe (reset_element_style e)) (still_settle pe e (conj Ha Ht))).
  destruct (apply_all sizes (order s2) (layout, inherit pe (reset_element_style e))) as [l1 e1]. cbn [snd] in Hst. destruct Hst as [S1 S2].
  apply bindR_Ok in H as (ts & Hts & [= <- <- <-]). rewrite S2 in Hts. apply mapR_nil in Hts as ->. split; [exact S1|done].
Qed.
Definition all_rest (t : Tree) : Prop := forall n, at_rest t n.
Definition quiet_tree (t : Tree) : Prop := forall n e, n <> 0 -> get_ctx t n = Some e -> Forall quiet_rule (e_styles e) /\ Forall quiet_declaration (e_style e).
Lemma quiet_tree_content t t' : same_content t t' -> quiet_tree t -> quiet_tree t'.
Proof.
  intros H Hq n e' Hn He'. destruct (same_ctx _ _ _ _ (same_sym _ _ H) He') as (e & He & Hc). unfold content in Hc. injection Hc as H1 H2 H3 H4 H5 H6 H7 H8 H9 H10.
  destruct (Hq n e Hn He) as [Q1 Q2]. split; congruence.
Qed.
Lemma rest_put n e0 e t : get_ctx t n = Some e0 -> still e -> all_rest t -> all_rest (put_element n e t).
Proof.
  intros H0 He Hr m x Hx. rewrite get_ctx_put in Hx. destruct (decide (n = m)) as [<-|]; [|by eapply Hr]. destruct (ctx_node _ _ _ H0) as [y Hy]. rewrite Hy in Hx.
  injection Hx as <-. exact He.
Qed.
Lemma set_style_rest n l t t' : set_style n l t = Ok t' -> all_rest t -> all_rest t'.
Proof.
  unfold set_style, get_node. intros H Hr. apply bindR_Ok in H as (x & Hx & H). apply unwrap_Ok in Hx. injection H as <-. intros m e He. apply (Hr m). unfold get_ctx, put_node, set in *. cbn [t_nodes] in *.
  destruct (decide (n = m)) as [<-|Hne].
  - rewrite Hx. assert (Hi : (<[n := x <| n_style := l |>]> (t_nodes t) : gmap NodeId Node) !! n = Some (x <| n_style := l |>)) by exact (lookup_insert (t_nodes t) n _).
    unfold set in Hi. rewrite Hi in He. exact He.
  - assert (Hi : (<[n := x <| n_style := l |>]> (t_nodes t) : gmap NodeId Node) !! m = t_nodes t !! m) by exact (lookup_insert_ne (t_nodes t) n m _ Hne).
    unfold set in Hi. rewrite Hi in He. exact He.
Qed.
Lemma inherit_still pe e : still e -> still (inherit pe e). Proof. done. Qed.
Lemma styles_rest fuel debug css order time : (forall s, order s ≡ₚ map_to_list s) ->
  forall depth n sizes vars t t', quiet_tree t -> live t 0 -> n <> 0 -> all_rest t -> apply_styles fuel debug css order time depth n sizes vars t = Ok t' -> all_rest t'.
Proof.
  intros Ho. induction depth as [|depth IH]; intros n sizes vars t t' Hq Hl Hn Hr H; cbn [apply_styles] in H; [discriminate H|].
  apply bindR_Ok in H as (p & Hp & H). apply bindR_Ok in H as (pe & Hpe & H). apply bindR_Ok in H as (layout & Hlay & H). apply bindR_Ok in H as (e & He & H). apply get_element_ctx in He.
  destruct (e_text e). { injection H as <-. eapply rest_put; [exact He| |exact Hr]. apply inherit_still. exact (Hr n e He). }
  apply bindR_Ok in H as ([[l' e'] vars'] & Hc & H). apply bindR_Ok in H as (t1 & Hs & H). destruct (Hq n e Hn He) as [Q1 Q2].
  assert (Hr1 : all_rest t1). { eapply set_style_rest; [exact Hs|]. eapply rest_put; [exact He| |exact Hr]. eapply cascade_still; [exact Ho|exact Q1|exact Q2|exact (Hr n e He)|exact Hc]. }
  assert (Hc1 : same_content t t1).
  { eapply same_trans; [eapply put_element_same; [exact He|exact (cascade_apply_content _ _ _ _ _ _ _ _ _ _ _ _ _ Hc)]|by eapply set_style_same]. }
  destruct (_ || _); [by injection H as <-|]. apply bindR_Ok in H as (cs & Hcs & H). apply children_spec in Hcs. subst cs. rewrite (shown_attached _ _ _ (content_shown _ _ Hc1)) in H.
  assert (Hf : forall cs a, cs ⊆ attached t n -> same_content t a -> all_rest a -> foldR (fun t c => apply_styles fuel debug css order time depth c (sizes <| parent_font_size := f_size (e_font e') |> <| parent_color := e_color e' |>) vars' t) a cs = Ok t' -> all_rest t').
  { clear H. induction cs as [|c cs IHc]; intros a Hin Ha Hra H; cbn [foldR] in H; [by injection H as <-|].
    apply bindR_Ok in H as (b & Hb & H). assert (c ∈ attached t n) as Hca by (apply Hin, elem_of_list_here).
    eapply (IHc b); [intros d Hd; apply Hin; by apply elem_of_list_further|eapply same_trans; [exact Ha|by eapply apply_styles_same]| |exact H].
    eapply IH; [eapply quiet_tree_content; [exact Ha|exact Hq]|exact (shown_live _ _ _ (content_shown _ _ Ha) Hl)| |exact Hra|exact Hb].
    destruct (live_newer _ _ Hl n c ltac:(by left)). lia. }
  by eapply (Hf _ t1).
Qed.
Lemma looks_rest_ctx t t' : (forall n e', get_ctx t' n = Some e' -> exists e, get_ctx t n = Some e /\ e_animators e' = e_animators e /\ e_transitions e' = e_transitions e) -> all_rest t -> all_rest t'.
Proof. intros H Hr n e' He'. destruct (H n e' He') as (e & He & -> & ->). by eapply Hr. Qed.
Lemma positions_rest depth : forall n loc op clip t t', compute_final_positions depth n loc op clip t = Ok t' -> all_rest t -> all_rest t'.
Proof.
  induction depth as [|depth IH]; intros n loc op clip t t' H Hr; cbn [compute_final_positions] in H; [done|].
  apply bindR_Ok in H as (lay & Hlay & H). apply bindR_Ok in H as (e & He & H). apply get_element_ctx in He. cbv zeta in H.
  match type of H with context [match ?m with (_, _) => _ end] => destruct m as [clip' loc'] end.
  apply bindR_Ok in H as (cs & Hcs & H). clear Hcs.
  match type of H with foldR _ ?a _ = _ => assert (Ha : all_rest a) by (eapply rest_put; [exact He|exact (Hr n e He)|exact Hr]); revert Ha H; generalize a end.
  clear He Hr. induction cs as [|c cs IHc]; intros a Ha H; cbn [foldR] in H; [by injection H as <-|]. apply bindR_Ok in H as (b & Hb & H). eapply IHc; [by eapply IH|exact H].
Qed.
Lemma layout_rest X t : all_rest t -> all_rest (run_layout X t).
Proof.
  intros Hr n e He. apply (Hr n). unfold get_ctx, run_layout, set in *. cbn [t_nodes] in He. rewrite map_lookup_imap in He. by destruct (t_nodes t !! n).
Qed.
Lemma viewport_rest root vp t t' : set_viewport root vp t = Ok t' -> all_rest t -> all_rest t'.
Proof. unfold set_viewport. intros H Hr. apply bindR_Ok in H as (l & Hl & H). destruct (_ && _); [by eapply set_style_rest|by injection H as <-]. Qed.
Lemma sbs_rest t t' : same_but_state t t' -> all_rest t -> all_rest t'.
Proof.
  intros H Hr n e' He'. apply sbs_sym in H. destruct (sbs_ctx _ _ _ _ H He') as (e & He & Hn). destruct (Hr n e He) as [R1 R2].
  assert (E1 : e_animators (no_state e) = e_animators (no_state e')) by congruence. assert (E2 : e_transitions (no_state e) = e_transitions (no_state e')) by congruence.
  change (e_animators e = e_animators e') in E1. change (e_transitions e = e_transitions e') in E2. split; congruence.
Qed.
Lemma stylesheet_drawn debug styles fuel : forall n t t', calculate_elements_stylesheet fuel debug styles n t = Ok t' -> same_drawn t t'.
Proof.
  induction fuel as [|fuel IH]; intros n t t' H; cbn [calculate_elements_stylesheet] in H; [done|].
  apply bindR_Ok in H as (t1 & H1 & H). apply bindR_Ok in H as (cs & Hcs & H). eapply drawn_trans.
  - unfold push_styles in H1. eapply foldR_drawn; [|exact H1]. clear. intros t s t' H. cbv beta in H.
    apply bindR_Ok in H as (b & Hb & H). apply bindR_Ok in H as (e & He & H). apply get_element_ctx in He.
    destruct (classify _ _ _); injection H as <-; [|apply drawn_refl]. by eapply drawn_put.
  - eapply foldR_drawn; [|exact H]. intros t2 c t3 Hx. exact (IH _ _ _ Hx).
Qed.
Lemma rbind_still read e b : still e -> still (apply_rbind read e b).
Proof. intros H. destruct b; cbn [apply_rbind]; try exact H; repeat case_match; exact H. Qed.
Lemma elem_still read n r : still (elem_of read n r).
Proof.
  destruct r as [spans|src|tag binds kids ?]; cbn; try done.
  assert (H : forall e, still e -> still (foldl (apply_rbind read) e binds)).
  { induction binds as [|b bs IH]; intros e He; [done|]. cbn. by apply IH, rbind_still. }
  by apply H.
Qed.
Lemma rendered_rest read t rn : rendered read t rn -> all_rest t.
Proof.
  intros [R1 R2 R3 R4] n e H. unfold get_ctx in H. destruct (t_nodes t !! n) as [y|] eqn:Hy; [|done]. cbn in H.
  destruct (decide (n = 0)) as [->|Hn0].
  { change (t_nodes t !! 0 = Some y) in Hy. rewrite R1 in Hy. injection Hy as <-. cbn in H. by injection H as <-. }
  assert (Hlt : n < 1 + rsize rn). { destruct (decide (n < 1 + rsize rn)); [done|]. rewrite R3 in Hy by lia. done. }
  destruct (stands_sub read t rn (Some 0) 1 n R4) as (par' & rk & H1 & _); [lia|]. apply stands_root in H1.
  change (t_nodes t !! n = Some y) in Hy. rewrite H1 in Hy. injection Hy as <-. cbn in H. injection H as <-. apply elem_still.
Qed.
Lemma drawn_all_rest t t' : same_drawn t t' -> all_rest t -> all_rest t'.
Proof. intros H Hr n. eapply drawn_rest; [exact H|apply Hr]. Qed.
Lemma loaded_rest X fuel doc css v : from_document X fuel doc css = Ok v -> all_rest (v_tree v).
Proof.
  intros H. pose proof H as H'. apply from_document_stages in H' as (templates & body & r & root & b & t & rn & ps & Hsc & Hr & _ & Hre & _).
  unfold from_document in H. rewrite Hsc, Hr in H. cbn [bindR] in H.
  apply bindR_Ok in H as (d & _ & H). apply bindR_Ok in H as (t1 & H1 & H). apply bindR_Ok in H as ([t2 ids] & H2 & H). injection H as <-. cbn.
  apply stylesheet_drawn in H1. unfold apply_default_bindings_state in H2. apply update_trees_drawn in H2.
  eapply drawn_all_rest; [exact H2|]. eapply drawn_all_rest; [exact H1|]. by eapply rendered_rest.
Qed.
Lemma sorted_quiet debug t0 sheet n e : (forall s, s ∈ sheet -> Forall quiet_declaration (s_declaration s)) -> Forall quiet_rule (sorted_out debug t0 sheet n e).
Proof.
  intros H. apply list.Forall_forall. intros es Hin. unfold sorted_out in Hin. apply elem_of_list_omap in Hin as (s & Hs & Hc).
  unfold quiet_rule. replace (style_of es) with s; [by apply H|]. unfold classify in Hc.
  repeat match type of Hc with context [if ?b then _ else _] => destruct b | context [match ?x with _ => _ end] => destruct x end; try done; by injection Hc as <-.
Qed.
Lemma kept_quiet debug sheet bs t0 t : (forall s, s ∈ sheet -> Forall quiet_declaration (s_declaration s)) -> inline_all quiet_declaration t ->
  kept debug sheet bs t0 t -> quiet_tree t.
Proof.
  intros Hs Hric Hk n e Hn He. split.
  - rewrite (k_rules _ _ _ _ _ Hk n e Hn He). by apply sorted_quiet.
  - apply (Hric n). unfold inline. by rewrite He.
Qed.

Theorem quiet_rest X fuel doc css v0 hist v os : quiet_css css -> inline_along quiet_declaration X v0 hist -> (forall s, x_order X s ≡ₚ map_to_list s) ->
  from_document X fuel doc css = Ok v0 -> updates X fuel v0 hist = Ok (v, os) -> forall n, at_rest (v_tree v) n.
Proof.
  intros Hcss Hric Ho H0 H. change (all_rest (v_tree v)). pose proof (loaded_rest _ _ _ _ _ H0) as Hrest.
  destruct (kept_loaded _ _ _ _ _ H0) as (rn & t0 & Hm & Hre & Hfl & Hk & Hc & Hb).
  pose proof (from_document_sound _ _ _ _ _ H0) as Hs. clear H0 Hfl.
  revert v0 os Hk Hc Hb Hric Hs Hrest H. induction hist as [|[i x] hist IH]; intros v0 os Hk Hc Hb Hric Hs Hrest H; cbn [updates] in H; [by injection H as <- <-|].
  apply bindR_Ok in H as ([v1 o] & Hu & H). apply bindR_Ok in H as ([v2 os'] & H' & [= <- <-]).
  assert (Hrest1 : all_rest (v_tree v1)).
  { unfold update in Hu. apply bindR_Ok in Hu as ([[m t] ids] & Hpr & Hu). apply bindR_Ok in Hu as ([[s t'] o'] & Ho' & [= <- <-]). apply handle_output_sbs in Ho'. cbn [fst snd] in Ho'.
    change (all_rest t'). eapply sbs_rest; [exact Ho'|].
    unfold prepare in Hpr. apply bindR_Ok in Hpr as ([m0 rs] & Hvb & Hpr). apply bindR_Ok in Hpr as ([ta ids0] & Hup & Hpr).
    apply bindR_Ok in Hpr as (t1 & H1 & Hpr). apply bindR_Ok in Hpr as (t2 & H2 & Hpr). apply bindR_Ok in Hpr as (t3 & H3 & Hpr). injection Hpr as <- <- <-.
    pose proof (so_live _ Hs) as Hl. rewrite (so_root _ Hs) in Hl.
    assert (Hok : Forall (reaction_ok (v_tree v0)) rs) by (by eapply view_bind_reactions_ok).
    assert (Hk1 : kept (x_debug X) (css_styles css) (v_bindings v0) t0 ta) by (eapply kept_reactions; [exact Hk|exact Hok|by eapply view_bind_from|exact Hup]).
    eapply positions_rest; [exact H3|]. apply layout_rest. eapply styles_rest; [exact Ho| | | | |exact H2].
    - eapply quiet_tree_content; [by eapply set_viewport_same|]. eapply kept_quiet; [exact Hcss| |exact Hk1]. apply Hric. by eapply way_here.
    - exact (shown_live _ _ _ (content_shown _ _ (set_viewport_same _ _ _ _ H1)) (k_live _ _ _ _ _ Hk1)).
    - by rewrite Hb.
    - eapply viewport_rest; [exact H1|]. eapply drawn_all_rest; [by eapply update_trees_drawn|exact Hrest]. }
  eapply (IH v1); [by eapply kept_update| | | |by eapply update_sound|exact Hrest1|exact H'].
  - rewrite <- Hc. unfold update in Hu. apply bindR_Ok in Hu as ([[m t] ids] & _ & Hu); apply bindR_Ok in Hu as ([[s t'] o'] & _ & [= <- <-]); done.
  - destruct (update_keeps _ _ _ _ _ _ _ Hs Hu) as (_ & _ & _ & _ & K5). congruence.
  - exact (along_later _ _ _ _ _ _ _ _ _ Hu Hric).
Qed.
