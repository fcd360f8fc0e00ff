(** * The cascade on a page. *)
From Coq Require Import ZArith Lia.
From stdpp Require Import gmap.
From RecordUpdate Require Import RecordUpdate.
From Verif Require Import Str StrFacts F32 Res ResFacts Json PropKey Html Css Element Tree ViewModel Render Update Matching
  Cascade Initial Animation Apply Styling Events View
  SpecLive SpecLog SpecView SpecRender SpecTree SpecEvents FrameFacts EventFacts EventFrame
  RenderTree RenderNode RenderProps RenderAny RenderMore LiveFacts LiveUpdate LiveView LiveHistory LiveOrder
  SpecSelect SelectFacts SelectLive SelectFresh SpecStyle SpecShow SpecPage ApplyFacts ShowFacts CascadeFacts AnimationFacts StyleTrace StyleView.

(** ** Rules *)
Lemma block_app fuel ds es st : compute_declaration_block fuel (ds ++ es) st = do! st <- compute_declaration_block fuel ds st; compute_declaration_block fuel es st.
Proof. unfold compute_declaration_block. apply foldR_app. Qed.
Lemma match_applies debug t root s n b : live t root -> is_Some (get_ctx t n) -> 
  (forall sel, sel ∈ s_selectors s -> child_only sel /\ forall m c, at_or_above t m n -> c ∈ sel -> as_combinator c = None -> simple_agrees t m c) ->
  match_style debug view_pseudo s n t = Ok b -> b = true <-> css_applies t root s n.
Proof.
  intros Hl He Hsel Hb. rewrite (style_selects _ _ _ _ _ _ Hb). unfold css_applies.
  assert (Hx : forall sel, sel ∈ s_selectors s -> selects (code_simple view_pseudo t) (code_related debug t) sel n <-> css_selects t root sel n).
  { intros sel Hin. destruct (Hsel sel Hin) as [Hc Hs]. destruct (child_selectors debug t root sel n (live_linked _ _ Hl) Hc He Hs) as (b' & Hb' & Hbb).
    rewrite <- Hbb. symmetry. by apply complex_selects. }
  split; intros (sel & Hin & H); exists sel; (split; [done|]); by apply Hx.
Qed.
Lemma rules_declared fuel debug t root n sheet : live t root -> is_Some (get_ctx t n) ->
  (forall s sel, s ∈ sheet -> sel ∈ s_selectors s -> child_only sel /\ forall m c, at_or_above t m n -> c ∈ sel -> as_combinator c = None -> simple_agrees t m c) ->
  forall st st', cascade_rules fuel debug n t (map EDynamic sheet) st = Ok st' ->
  exists ds, declared t root n sheet ds /\ compute_declaration_block fuel ds st = Ok st'.
Proof.
  intros Hl He. induction sheet as [|s sheet IH]; intros Hsel st st' H; unfold cascade_rules in H; cbn [map foldR] in H.
  - injection H as <-. exists []. split; [constructor|done].
  - apply bindR_Ok in H as (st1 & H1 & H). apply bindR_Ok in H1 as (b & Hb & H1).
    destruct (IH (fun s' sel Hs' => Hsel s' sel ltac:(by apply elem_of_list_further)) _ _ H) as (ds & Hd & Hds).
    pose proof (match_applies debug t root s n b Hl He (fun sel => Hsel s sel ltac:(apply elem_of_list_here)) Hb) as Hap. destruct b.
    + exists (s_declaration s ++ ds). split; [constructor; [by apply Hap|done]|]. by rewrite block_app, H1.
    + injection H1 as <-. exists ds. split; [|done]. apply declared_no; [|done]. intros Hx. by apply Hap in Hx.
Qed.
Lemma declared_fun t root n sheet ds : declared t root n sheet ds -> forall ds', declared t root n sheet ds' -> ds = ds'.
Proof. induction 1 as [|s l ds Hs _ IH|s l ds Hs _ IH]; intros ds' H'; inversion H'; subst; try done; [f_equal|]; by apply IH. Qed.
Lemma declarations_fun css t root n ds ds' : declarations css t root n ds -> declarations css t root n ds' -> ds = ds'.
Proof.
  intros (r & e & H1 & H2 & ->) (r' & e' & H1' & H2' & ->). rewrite (declared_fun _ _ _ _ _ H1 _ H1'). congruence.
Qed.
Lemma scope_fun css t root body n vars : scope css t root body n vars -> forall vars', scope css t root body n vars' -> vars = vars'.
Proof.
  induction 1 as [|n p vars ds Hn Hp _ IH Hd]; intros vars' H'; inversion H' as [|n' p' vars0 ds' Hn' Hp' Hs' Hd']; subst; try done.
  assert (p' = p) as -> by congruence. rewrite (IH _ Hs'). by rewrite (declarations_fun _ _ _ _ _ _ Hd Hd').
Qed.

(** ** What placing the elements and handling input leave alone *)
Lemma looks_refl t : same_looks t t. Proof. done. Qed.
Lemma looks_trans a b c : same_looks a b -> same_looks b c -> same_looks a c.
Proof. intros H1 H2 n k i. by rewrite H2. Qed.
Lemma looks_put n e0 e t : get_ctx t n = Some e0 -> (forall k i l, look k i (l, e) = look k i (l, e0)) -> same_looks t (put_element n e t).
Proof.
  intros H0 He m k i. unfold shows_at. destruct (decide (n = m)) as [<-|Hne]; [|by rewrite put_nodes_ne].
  unfold get_ctx in H0. destruct (t_nodes t !! n) as [x|] eqn:Hx; [|done]. cbn in H0. rewrite (put_nodes_eq _ _ _ _ Hx). cbn. rewrite H0. cbn. apply He.
Qed.
Lemma look_place layout opacity clip e k i l : look k i (l, place_element layout opacity clip e) = look k i (l, e).
Proof. by destruct k. Qed.
Lemma positions_looks depth : forall n loc op clip t t', compute_final_positions depth n loc op clip t = Ok t' -> same_looks t t'.
Proof.
  induction depth as [|depth IH]; intros n loc op clip t t' H; cbn [compute_final_positions] in H; [done|].
  apply bindR_Ok in H as (lay & Hlay & H). apply bindR_Ok in H as (e & He & H). apply get_element_ctx in He. cbv zeta in H.
  match type of H with context [match ?m with (_, _) => _ end] => destruct m as [clip' loc'] end.
  apply bindR_Ok in H as (cs & Hcs & H).
  assert (Hf : forall cs t t', foldR (fun t c => compute_final_positions depth c loc' (e_opacity (place_element (mkLayout (vadd (lo_location lay) loc) (lo_size lay) (lo_content lay)) op clip e)) clip' t) t cs = Ok t' -> same_looks t t').
  { clear - IH. induction cs as [|c cs IHc]; intros t t' H; cbn [foldR] in H; [injection H as <-; apply looks_refl|].
    apply bindR_Ok in H as (t1 & H1 & H). eapply looks_trans; [by eapply IH|by apply IHc]. }
  eapply looks_trans; [|exact (Hf _ _ _ H)]. eapply (looks_put n); [exact He|intros k i l; apply look_place].
Qed.
Lemma layout_looks X t : same_looks t (run_layout X t).
Proof.
  intros n k i. unfold shows_at, run_layout, set. cbn [t_nodes]. rewrite map_lookup_imap. by destruct (t_nodes t !! n) as [x|].
Qed.
Lemma viewport_looks root vp t t' : set_viewport root vp t = Ok t' -> forall n k i, n <> root -> shows_at t' n k i = shows_at t n k i.
Proof.
  unfold set_viewport. intros H. apply bindR_Ok in H as (l & Hl & H). destruct (_ && _); [|by injection H as <-].
  intros n k i Hn. unfold style, get_node in Hl. apply bindR_Ok in Hl as (x & Hx & Hl). apply unwrap_Ok in Hx.
  destruct (set_style_nodes _ _ _ _ _ H Hx) as [_ Ho]. unfold shows_at. by rewrite Ho.
Qed.

(** ** One element *)
Lemma look_transitions k i l e ts : (forall j, t_key <$> ts !! j = t_key <$> e_transitions e !! j) -> (forall j, t_animator <$> ts !! j = t_animator <$> e_transitions e !! j) ->
  look k i (l, set e_transitions (fun _ => ts) e) = look k i (l, e).
Proof.
  intros H1 H2. assert (Hk : t_key (transition_at i (set e_transitions (fun _ => ts) e)) = t_key (transition_at i e)).
  { unfold transition_at. cbn [e_transitions set]. specialize (H1 i). destruct (ts !! i), (e_transitions e !! i); cbn in *; congruence. }
  assert (Ha : t_animator (transition_at i (set e_transitions (fun _ => ts) e)) = t_animator (transition_at i e)).
  { unfold transition_at. cbn [e_transitions set]. specialize (H2 i). destruct (ts !! i), (e_transitions e !! i); cbn in *; congruence. }
  destruct k; try reflexivity; cbn [look]; rewrite ?Hk, ?Ha; reflexivity.
Qed.
Lemma init_loop_keeps f key s : forall index tn tn', init_loop f key index s tn = Ok tn' -> t_key tn' = t_key tn /\ t_animator tn' = t_animator tn.
Proof.
  induction f as [|f IH]; intros index tn tn' H; cbn [init_loop] in H; [done|]. destruct (s !! (key, index)); [|by injection H as <-].
  apply IH in H as [H1 H2]. done.
Qed.
Lemma init_keeps s tn tn' : init_after_style_applied s tn = Ok tn' -> t_key tn' = t_key tn /\ t_animator tn' = t_animator tn.
Proof.
  unfold init_after_style_applied. destruct (t_range tn); [by intros [= <-]|]. destruct (t_key tn) as [key|] eqn:E; [|by intros [= <-]].
  rewrite <- E. apply init_loop_keeps.
Qed.
Lemma mapR_lookup {A B} (f : A -> res B) l : forall k, mapR f l = Ok k -> forall j, match l !! j, k !! j with Some a, Some b => f a = Ok b | None, None => True | _, _ => False end.
Proof.
  induction l as [|a l IH]; intros k H j; cbn [mapR] in H; [injection H as <-; done|].
  apply bindR_Ok in H as (b & Hb & H). apply bindR_Ok in H as (k' & Hk & [= <-]). destruct j as [|j]; [exact Hb|]. cbn. by apply IH.
Qed.
Lemma computes_still fuel debug css time vars n t e c vars' : e_animators e = [] -> e_transitions e = [] ->
  computes fuel debug css time vars n t e = Ok (c, vars') -> exists vars1 s1 s, cascade_rules fuel debug n t (e_styles e) (vars, ∅) = Ok (vars1, s1) /\
  compute_declaration_block fuel (e_style e) (vars1, s1) = Ok (vars', s) /\ c = ([], [], s).
Proof.
  intros Ha Ht H. unfold computes in H. apply bindR_Ok in H as ([vars1 s1] & H1 & H). apply bindR_Ok in H as ([vars2 s2] & H2 & H).
  apply bindR_Ok in H as ([an s3] & H3 & H). apply bindR_Ok in H as ([tr s4] & H4 & [= <- <-]). rewrite Ha in H3. rewrite Ht in H4.
  unfold play_animators in H3. cbn in H3. injection H3 as <- <-. unfold play_transitions in H4. cbn in H4. injection H4 as <- <-. eauto 10.
Qed.
Definition still (e : Element) : Prop := e_animators e = [] /\ e_transitions e = [].
Lemma played_still e : still e -> set e_transitions (fun _ => []) (set e_animators (fun _ => []) e) = e.
Proof. intros [H1 H2]. destruct e. cbn in *. by subst. Qed.
Lemma still_settle pe e : still e -> still (inherit pe (reset_element_style e)).
Proof. done. Qed.

Section element.
  Context (fuel : nat) (debug : bool) (css : Css) (order : ComputedStyle -> list (Descriptor * ComputedValue)) (time : f32) (t : Tree) (root n : NodeId).
  Context (e : Element) (He : get_ctx t n = Some e).
  Context (Hrules : forall st st', cascade_rules fuel debug n t (e_styles e) st = Ok st' ->
    exists ds, declared t root n (css_styles css) ds /\ compute_declaration_block fuel ds st = Ok st').

  Lemma cascade_scope sizes vars pe layout l' e' vars' : cascade_apply_styles fuel debug css order time sizes vars n t pe layout e = Ok (l', e', vars') ->
    exists ds, declarations css t root n ds /\ vars' = variables_after vars ds.
  Proof.
    intros H. rewrite cascade_computes in H. apply bindR_Ok in H as ([[[an tr] s] vars1] & Hc & H).
    destruct (apply_all _ _ _) as [l1 e1]. apply bindR_Ok in H as (ts & _ & [= _ _ <-]).
    unfold computes in Hc. apply bindR_Ok in Hc as ([vars2 s2] & H1 & Hc). apply bindR_Ok in Hc as ([vars3 s3] & H2 & Hc).
    apply bindR_Ok in Hc as ([an1 s4] & H3 & Hc). apply bindR_Ok in Hc as ([tr1 s5] & H4 & [= _ _ _ <-]).
    destruct (Hrules _ _ H1) as (ds & Hd & Hb). exists (ds ++ e_style e). split; [by exists ds, e|].
    assert (Hall : compute_declaration_block fuel (ds ++ e_style e) (vars, ∅) = Ok (vars3, s3)) by (by rewrite block_app, Hb).
    by destruct (block_wins _ _ _ _ _ _ Hall) as (-> & _).
  Qed.
  Lemma cascade_shows sizes vars pe layout l' e' vars' ds k i :
    tidy_css css -> tidy_element e -> (forall s, order s ≡ₚ map_to_list s) -> still e -> (listed k = true \/ i = 0) -> declarations css t root n ds ->
    cascade_apply_styles fuel debug css order time sizes vars n t pe layout e = Ok (l', e', vars') ->
    (forall v, wins vars ds k i v -> look k i (l', e') = match meaning sizes k v with Some x => Some x | None => look k i (layout, inherit pe (reset_element_style e)) end) /\
    (ungiven vars ds k i -> look k i (l', e') = look k i (layout, inherit pe (reset_element_style e))) /\
    ((exists v, wins vars ds k i v) \/ ungiven vars ds k i).
  Proof.
    intros Htc Hte Ho [Ha Ht] Hki Hds H. rewrite cascade_computes in H. apply bindR_Ok in H as ([[[an tr] s] vars1] & Hc & H).
    pose proof (computes_single _ _ _ _ _ _ _ _ _ _ _ _ Htc Hte Hc) as Hs.
    destruct (computes_still _ _ _ _ _ _ _ _ _ _ Ha Ht Hc) as (vars2 & s1 & s2 & H1 & H2 & [= -> -> ->]).
    rewrite (played_still _ (still_settle pe e (conj Ha Ht))) in H.
    destruct (Hrules _ _ H1) as (rs & Hd & Hb). assert (ds = rs ++ e_style e) as ->. { eapply declarations_fun; [exact Hds|]. by exists rs, e. }
    assert (Hall : compute_declaration_block fuel (rs ++ e_style e) (vars, ∅) = Ok (vars1, s2)) by (by rewrite block_app, Hb).
    destruct (block_wins _ _ _ _ _ _ Hall) as (_ & W1 & W2 & W3).
    destruct (apply_all sizes (order s2) (layout, inherit pe (reset_element_style e))) as [l1 e1] eqn:Eap. apply bindR_Ok in H as (ts & Hts & [= <- <- <-]).
    assert (Hlook : look k i (l1, set e_transitions (fun _ => ts) e1) = look k i (l1, e1)).
    { pose proof (mapR_lookup _ _ _ Hts) as Hm. apply look_transitions; intros j; specialize (Hm j); destruct (e_transitions e1 !! j), (ts !! j); try done;
        apply init_keeps in Hm as [? ?]; cbn; congruence. }
    rewrite Hlook, <- Eap. destruct (apply_all_look sizes (order s2) k i (single_apart _ _ Hs (Ho s2)) (layout, inherit pe (reset_element_style e))) as [L1 L2].
    split; [|split; [|apply W3]].
    - intros v Hw. apply L1. rewrite Ho. apply elem_of_map_to_list. by apply W1.
    - intros Hu. apply L2; [|exact Hki]. intros v Hv. rewrite Ho in Hv. apply elem_of_map_to_list in Hv. assert (Some v = None) as [=]. etransitivity; [symmetry; exact Hv|]. etransitivity; [exact (W2 _ _ Hu)|]. exact (lookup_empty (k, i)).
  Qed.
End element.

Lemma start_settle k i pl pe l e x : (listed k = true \/ i = 0) -> start_value k (pl, pe) = Some x -> look k i (l, inherit pe (reset_element_style e)) = Some x.
Proof. intros Hi. destruct k; intros H; try discriminate H; exact H. Qed.

Lemma rest_settle k i pl pe l e : (listed k = true \/ i = 0) -> 
  look k i (l, inherit pe (reset_element_style e)) = rest_value k (pl, pe) (look k i (l, e)).
Proof. intros Hi. destruct k; reflexivity. Qed.

(** ** Transport between trees that are alike *)
Lemma css_simple_alike t t' root n s : alike t t' -> css_simple t root n s -> css_simple t' root n s.
Proof.
  intros H (e & He & Hs). pose proof (alike_ctx _ _ n H) as Hn. rewrite He in Hn. destruct (get_ctx t' n) as [e'|] eqn:E; [|done]. destruct Hn as [Hc Hst].
  exists e'. split; [done|]. unfold content in Hc. injection Hc as H1 H2 H3 H4 H5 H6 H7 H8 H9 H10.
  destruct s; rewrite <- ?H3, <- ?H5; try done. unfold css_pseudo in *. by rewrite <- Hst.
Qed.
Lemma alike_parent t t' n : alike t t' -> parent_of t' n = parent_of t n.
Proof. intros [H _]. by apply shown_parent, content_shown. Qed.
Lemma alike_attached t t' n : alike t t' -> attached t' n = attached t n.
Proof. intros [H _]. by apply shown_attached, content_shown. Qed.
Lemma css_related_alike t t' c m n : alike t t' -> css_related t c m n -> css_related t' c m n.
Proof.
  intros H. unfold css_related. destruct (Ascii.eqb c ">"); [by rewrite (alike_parent _ _ _ H)|]. destruct (Ascii.eqb c "+").
  { intros (p & pre & post & Hp & Ha). exists p, pre, post. by rewrite (alike_parent _ _ _ H), (alike_attached _ _ _ H). }
  destruct (Ascii.eqb c "~").
  { intros (p & pre & mid & post & Hp & Ha). exists p, pre, mid, post. by rewrite (alike_parent _ _ _ H), (alike_attached _ _ _ H). }
  destruct (Ascii.eqb c " "); [|done]. intros Hm. induction Hm as [x y Hxy|x y z Hxy _ IH]; [apply tc_once|eapply tc_l; [|exact IH]]; by rewrite (alike_parent _ _ _ H).
Qed.
Lemma css_applies_alike t t' root s n : alike t t' -> css_applies t root s n <-> css_applies t' root s n.
Proof.
  assert (Hh : forall t t', alike t t' -> css_applies t root s n -> css_applies t' root s n).
  { clear. intros t t' H (sel & Hin & Hs). exists sel. split; [done|]. revert Hs. unfold css_selects. apply selects_mono.
    - intros m c _ _. by apply css_simple_alike.
    - intros c m k _. by apply css_related_alike. }
  intros H. split; apply Hh; [done|by apply alike_sym].
Qed.
Lemma declared_alike t t' root n sheet ds : alike t t' -> declared t root n sheet ds -> declared t' root n sheet ds.
Proof.
  intros H. induction 1 as [|s l ds Hs _ IH|s l ds Hs _ IH]; [constructor|apply declared_yes|apply declared_no]; try done; by rewrite <- (css_applies_alike _ _ _ _ _ H).
Qed.
Lemma declarations_alike css t t' root n ds : alike t t' -> declarations css t root n ds -> declarations css t' root n ds.
Proof.
  intros H (r & e & Hr & He & ->). pose proof (alike_ctx _ _ n H) as Hn. rewrite He in Hn. destruct (get_ctx t' n) as [e'|] eqn:E; [|done]. destruct Hn as [Hc _].
  exists r, e'. split; [by eapply declared_alike|]. split; [done|]. unfold content in Hc. injection Hc as H1 H2 H3 H4 H5 H6 H7 H8 H9 H10. by f_equal.
Qed.
Lemma scope_alike css t t' root body n vars : alike t t' -> scope css t root body n vars -> scope css t' root body n vars.
Proof.
  intros H. induction 1 as [|n p vars ds Hn Hp _ IH Hd]; [constructor|]. eapply scope_child; [done|by rewrite (alike_parent _ _ _ H)|exact IH|by eapply declarations_alike].
Qed.
Lemma above_alike t t' m n : alike t t' -> at_or_above t m n -> at_or_above t' m n.
Proof. intros H. apply above_content. by destruct (alike_sym _ _ H). Qed.
Lemma contentless_alike t t' m : alike t t' -> contentless t m -> contentless t' m.
Proof.
  intros H (e & He & Hx). pose proof (alike_ctx _ _ m H) as Hn. rewrite He in Hn. destruct (get_ctx t' m) as [e'|] eqn:E; [|done]. destruct Hn as [Hc _].
  exists e'. split; [done|]. unfold content in Hc. injection Hc as H1 H2 H3 H4 H5 H6 H7 H8 H9 H10. by rewrite <- H3, <- H4.
Qed.
Lemma tc_alike t t' m n : alike t t' -> above t m n -> above t' m n.
Proof. intros H Hm. induction Hm as [x y Hxy|x y z Hxy _ IH]; [apply tc_once|eapply tc_l; [|exact IH]]; by rewrite (alike_parent _ _ _ H). Qed.
Lemma styled_element_alike t t' body n : alike t t' -> styled_element t body n -> styled_element t' body n.
Proof.
  intros H (H1 & (e & He & Ht) & H3). split; [by eapply above_alike|]. split.
  - pose proof (alike_ctx _ _ n H) as Hn. rewrite He in Hn. destruct (get_ctx t' n) as [e'|] eqn:E; [|done]. destruct Hn as [Hc _]. exists e'. split; [done|].
    unfold content in Hc. injection Hc as G1 G2 G3 G4 G5 G6 G7 G8 G9 G10. by rewrite <- G4.
  - intros m Hm Hmn Hc. pose proof (alike_sym _ _ H) as H'. eapply H3; [by eapply above_alike|by eapply tc_alike|by eapply contentless_alike].
Qed.
Lemma plain_alike css t t' n : alike t t' -> plain_selectors css t n -> plain_selectors css t' n.
Proof.
  intros H Hp s sel Hs Hsel. destruct (Hp s sel Hs Hsel) as [H1 H2]. split; [done|]. intros m c Hm Hc Hcc.
  specialize (H2 m c (above_alike _ _ _ _ (alike_sym _ _ H) Hm) Hc Hcc). pose proof (content_shown _ _ (proj1 H)) as Hsh.
  destruct c as [|id|cl|name|name op value| |name|name|comb]; cbn [simple_agrees] in *; try done.
  - by rewrite (shown_attr _ _ _ _ Hsh).
  - destruct op; try done; by rewrite (shown_attr _ _ _ _ Hsh).
Qed.

(** ** From the body down *)
Section page.
  Context (fuel : nat) (debug : bool) (css : Css) (order : ComputedStyle -> list (Descriptor * ComputedValue)) (time : f32) (t t' : Tree) (viewport : vec2).
  Context (Hl : live t 0) (Hal : alike t t').
  Context (N : NodeId) (Hrules : forall m e, at_or_above t 1 m -> at_or_above t m N -> get_ctx t m = Some e -> forall st st', cascade_rules fuel debug m t (e_styles e) st = Ok st' ->
    exists ds, declared t 0 m (css_styles css) ds /\ compute_declaration_block fuel ds st = Ok st').
  Notation cascade := (cascade_apply_styles fuel debug css order time).
  Notation first_sizes := (mkSizes f16 f16 rgba0 (fst viewport) (snd viewport)).

  Definition reached_at (n : NodeId) : Prop :=
    exists vars, scope css t 0 1 n vars /\ styled fuel debug css order time t t' n (sizes_at viewport t' 1 n) vars.
  Lemma descend : reached_at 1 -> forall n, at_or_above t 1 n -> at_or_above t n N -> (forall m, at_or_above t 1 m -> above t m n -> ~ contentless t m) -> reached_at n.
  Proof.
    intros H1. apply (rtc_ind_r (fun n => at_or_above t n N -> (forall m, at_or_above t 1 m -> above t m n -> ~ contentless t m) -> reached_at n) 1); [done|].
    intros p n Hap Hpn IH HnN Hc. assert (HpN : at_or_above t p N) by (by eapply rtc_l). destruct (IH HpN) as (vars & Hs & Hst).
    { intros m Hm Hmp. apply Hc; [done|]. eapply tc_r; [exact Hmp|exact Hpn]. }
    assert (Hpc : ~ contentless t p) by (apply Hc; [done|by apply tc_once]).
    assert (Hn1 : n <> 1). { intros ->. apply (above_le _ _ _ _ Hl) in Hap. apply (live_parent _ _ Hl) in Hpn. destruct (live_newer _ _ Hl p 1 ltac:(by left)). lia. }
    inversion Hst as [? q pe e spans ? ? Hq Hpe He Ht He'|? q pe x e layout' e' vars' x' ? ? Hq Hpe Hx He Ht Hcs Hx' He' Hlay Hch]; subst.
    { exfalso. apply Hpc. exists e. rewrite Ht. eauto. }
    assert (Hg : get_ctx t p = Some e) by (unfold get_ctx; by rewrite Hx).
    assert (Hv : String.eqb (e_tag e) "img" || is_void (e_tag e) = false). { destruct (_ || _) eqn:E; [|done]. exfalso. apply Hpc. exists e. eauto. }
    specialize (Hch Hv n ltac:(by apply (live_parent _ _ Hl))).
    destruct (cascade_scope fuel debug css order time t 0 p e Hg (Hrules p e Hap HpN Hg) _ _ _ _ _ _ _ Hcs) as (ds & Hd & ->).
    exists (variables_after vars ds). split; [by eapply scope_child|].
    replace (sizes_at viewport t' 1 n) with (sizes_at viewport t' 1 p <| parent_font_size := f_size (e_font e') |> <| parent_color := e_color e' |>); [exact Hch|].
    unfold sizes_at at 2. rewrite decide_False by done. rewrite (alike_parent _ _ _ Hal), Hpn. unfold get_ctx at 1. rewrite Hx'. cbn [mbind option_bind]. rewrite He'.
    unfold sizes_at. destruct (decide (p = 1)); [done|]. destruct (parent_of t' p) as [q'|]; [|done]. by destruct (get_ctx t' q').
  Qed.
  Lemma body_reached : styled fuel debug css order time t t' 1 first_sizes ∅ -> reached_at 1.
  Proof. intros H. exists ∅. split; [constructor|]. unfold sizes_at. by rewrite decide_True. Qed.

  Lemma shows_styled before : let n := N in tidy_css css -> (forall e, get_ctx t n = Some e -> tidy_element e /\ still e) -> (forall s, order s ≡ₚ map_to_list s) ->
    styled fuel debug css order time t t' 1 first_sizes ∅ -> styled_element t 1 n ->
    (forall k i, place_of k <> PlBackgrounds -> shows_at t n k i = shows_at before n k i) -> shows_cascade css viewport 0 1 before t' n.
  Proof.
    intros n Htc Hte Ho H1 (Hn & (e0 & He0 & Htx) & Hc) Hbef. assert (HnN : at_or_above t n N) by reflexivity. destruct (descend (body_reached H1) n Hn HnN Hc) as (vars & Hs & Hst).
    inversion Hst as [? q pe e spans ? ? Hq Hpe He Ht He'|? q pe x e layout' e' vars' x' ? ? Hq Hpe Hx He Ht Hcs Hx' He' Hlay Hch]; subst; [congruence|].
    assert (Hg : get_ctx t n = Some e) by (unfold get_ctx; by rewrite Hx). destruct (Hte e Hg) as [Hti Hsti].
    destruct (cascade_scope fuel debug css order time t 0 n e Hg (Hrules n e Hn HnN Hg) _ _ _ _ _ _ _ Hcs) as (ds & Hd & ->).
    destruct (ctx_node _ _ _ Hpe) as [xp Hxp]. assert (Hxpe : n_ctx xp = Some pe) by (unfold get_ctx in Hpe; by rewrite Hxp in Hpe).
    exists ds, vars, q, xp. split; [by eapply declarations_alike|]. split; [by eapply scope_alike|]. split; [by rewrite (alike_parent _ _ _ Hal)|]. split; [done|].
    exists pe. split; [done|]. intros k i Hki. cbv zeta.
    destruct (cascade_shows fuel debug css order time t 0 n e Hg (Hrules n e Hn HnN Hg) _ _ _ _ _ _ _ _ k i Htc Hti Ho Hsti Hki Hd Hcs) as (C1 & C2 & C3).
    assert (Hsh : shows_at t' n k i = look k i (n_style x', e')). { unfold shows_at. rewrite Hx'. cbn. by rewrite He'. }
    assert (Hrest : look k i (n_style x, inherit pe (reset_element_style e)) = rest_value k (n_style xp, pe) (shows_at before n k i)).
    { rewrite (rest_settle k i (n_style xp) pe (n_style x) e Hki). destruct (decide (place_of k = PlBackgrounds)) as [Hb|Hb].
      - by destruct k.
      - f_equal. rewrite <- Hbef by done. unfold shows_at. rewrite Hx. cbn. by rewrite He. }
    rewrite Hsh, <- Hrest. split; [exact C1|split; [exact C2|exact C3]].
  Qed.
End page.

(** ** Reactions leave the looks alone, but for the picture of an image *)
Definition paint_of (e : Element) :=
  (e_self_opacity e, e_color e, e_font e, e_pointer_events e, e_pointer e, e_visible e, e_borders e, (e_transitions e, e_animators e)).
Definition drawn (x : Node) := (n_style x, paint_of <$> n_ctx x).
Definition same_drawn (t t' : Tree) : Prop := forall n, drawn <$> t_nodes t' !! n = drawn <$> t_nodes t !! n.
Lemma drawn_refl t : same_drawn t t. Proof. done. Qed.
Lemma drawn_trans a b c : same_drawn a b -> same_drawn b c -> same_drawn a c.
Proof. intros H1 H2 n. by rewrite H2. Qed.
Lemma drawn_put_node t n x y : t_nodes t !! n = Some x -> drawn y = drawn x -> same_drawn t (put_node t n y).
Proof.
  intros Hx Hy m. unfold put_node, set. cbn [t_nodes]. destruct (decide (n = m)) as [<-|Hne].
  - etransitivity; [apply (f_equal (fmap drawn)), (lookup_insert (t_nodes t) n y)|]. rewrite Hx. cbn. by rewrite Hy.
  - apply (f_equal (fmap drawn)). exact (lookup_insert_ne (t_nodes t) n m y Hne).
Qed.
Lemma drawn_put n e0 e t : get_ctx t n = Some e0 -> paint_of e = paint_of e0 -> same_drawn t (put_element n e t).
Proof.
  intros H0 He m. destruct (decide (n = m)) as [<-|Hne]; [|by rewrite put_nodes_ne].
  destruct (ctx_node _ _ _ H0) as [x Hx]. rewrite (put_nodes_eq _ _ _ _ Hx), Hx. unfold get_ctx in H0. rewrite Hx in H0. cbn in H0. cbn. unfold drawn. rewrite H0. cbn. by rewrite He.
Qed.
Lemma foldR_drawn {A} (f : Tree -> A -> res Tree) l : (forall t a t', f t a = Ok t' -> same_drawn t t') -> forall t t', foldR f t l = Ok t' -> same_drawn t t'.
Proof.
  intros Hf. induction l as [|a l IH]; intros t t' H; cbn [foldR] in H; [injection H as <-; apply drawn_refl|].
  apply bindR_Ok in H as (t1 & H1 & H). eapply drawn_trans; [by eapply Hf|by apply IH].
Qed.
Lemma set_parent_drawn n p t t' : set_parent n p t = Ok t' -> same_drawn t t'.
Proof. unfold set_parent, get_node. intros H. apply bindR_Ok in H as (x & Hx & H). apply unwrap_Ok in Hx. injection H as <-. by eapply drawn_put_node. Qed.
Lemma put_children_drawn n p t t' : put_children n p t = Ok t' -> same_drawn t t'.
Proof. unfold put_children, get_node. intros H. apply bindR_Ok in H as (x & Hx & H). apply unwrap_Ok in Hx. injection H as <-. by eapply drawn_put_node. Qed.
Lemma add_child_drawn p c t t' : add_child p c t = Ok t' -> same_drawn t t'.
Proof. unfold add_child. intros H. inv_ok. eapply drawn_trans; [by eapply set_parent_drawn|by eapply put_children_drawn]. Qed.
Lemma insert_child_drawn p i c t t' : insert_child_at_index p i c t = Ok t' -> same_drawn t t'.
Proof.
  unfold insert_child_at_index. intros H. apply bindR_Ok in H as (cs & _ & H). destruct (Nat.ltb _ _); [done|].
  apply bindR_Ok in H as (t1 & H1 & H). eapply drawn_trans; [by eapply set_parent_drawn|by eapply put_children_drawn].
Qed.
Lemma remove_at_drawn p i t t' : remove_child_at_index p i t = Ok t' -> same_drawn t t'.
Proof.
  unfold remove_child_at_index. intros H. apply bindR_Ok in H as (cs & _ & H). destruct (cs !! i); [|done].
  apply bindR_Ok in H as (t1 & H1 & H). eapply drawn_trans; [by eapply put_children_drawn|by eapply set_parent_drawn].
Qed.
Lemma update_tree_drawn ric t ids r t' ids' : update_tree ric (t, ids) r = Ok (t', ids') -> same_drawn t t'.
Proof.
  destruct r as [n j x|p c vis|p s c z|n k b|n k j x]; cbn [update_tree]; intros H.
  - destruct (get_ctx t n) as [e|] eqn:He; [|done]. destruct (e_text e); [|done].
    apply bindR_Ok in H as (t1 & H1 & H). injection H as <- <-. apply mark_dirty_id in H1 as ->. by eapply drawn_put.
  - apply bindR_Ok in H as (t1 & H1 & H). injection H as <- <-. unfold reattach in H1.
    apply bindR_Ok in H1 as (pe & _ & H1). apply bindR_Ok in H1 as (di & _ & H1). apply bindR_Ok in H1 as (cur & _ & H1).
    destruct vis, (position _ _); inv_ok; try apply drawn_refl; [by eapply insert_child_drawn|by eapply remove_at_drawn].
  - apply bindR_Ok in H as (t1 & H1 & H). injection H as <- <-. unfold repeat_children in H1.
    apply bindR_Ok in H1 as (pe & _ & H1). apply bindR_Ok in H1 as (vs & _ & H1). apply bindR_Ok in H1 as (sh & _ & H1). apply bindR_Ok in H1 as (hi & _ & H1).
    apply bindR_Ok in H1 as (t2 & H2 & H1). eapply drawn_trans.
    + eapply foldR_drawn; [|exact H2]. intros t3 a t4 H3. cbv beta in H3. destruct (memb _ _); [injection H3 as <-; apply drawn_refl|by eapply add_child_drawn].
    + eapply foldR_drawn; [|exact H1]. intros t3 a t4 H3. cbv beta in H3. destruct (memb _ _); [|injection H3 as <-; apply drawn_refl].
      unfold remove_child in H3. apply bindR_Ok in H3 as (cs' & _ & H3). apply bindR_Ok in H3 as (i & _ & H3). by eapply remove_at_drawn.
  - apply bindR_Ok in H as (e & He & H). apply get_element_ctx in He. injection H as <- <-. eapply drawn_put; [done|]. by destruct b.
  - apply bindR_Ok in H as (e & He & H). apply get_element_ctx in He. apply bindR_Ok in H as (sp & _ & H).
    set (e1 := e <| e_attrs_bindings ::= _ |> <| e_attrs ::= _ |>) in H.
    set (e2 := if String.eqb k "style" then _ else e1) in H.
    assert (He2 : paint_of e2 = paint_of e). { unfold e2. destruct (String.eqb k "style"); [|done]. by destruct (ric _). }
    assert (H1 : same_drawn t (put_element n e2 t)) by by eapply drawn_put.
    destruct (_ && _); [|by injection H as <- <-]. apply bindR_Ok in H as (t2 & H2 & H). injection H as <- <-. eapply drawn_trans; [exact H1|].
    unfold update_img_src in H2. apply bindR_Ok in H2 as (c & _ & H2). apply bindR_Ok in H2 as (ce & Hce & H2). apply get_element_ctx in Hce.
    apply mark_dirty_id in H2 as ->. by eapply drawn_put.
Qed.
Lemma update_trees_drawn ric rs : forall t ids t' ids', update_trees ric (t, ids) rs = Ok (t', ids') -> same_drawn t t'.
Proof.
  unfold update_trees. induction rs as [|r rs IH]; intros t ids t' ids' H; cbn [foldR] in H; [injection H as <- <-; apply drawn_refl|].
  apply bindR_Ok in H as ([t1 ids1] & H1 & H). eapply drawn_trans; [by eapply update_tree_drawn|by eapply IH].
Qed.
Lemma drawn_look k i l e l' e' : place_of k <> PlBackgrounds -> (l, paint_of e) = (l', paint_of e') -> look k i (l, e) = look k i (l', e').
Proof.
  unfold paint_of. intros Hk [= -> H1 H2 H3 H4 H5 H6 H7 H8 H9].
  destruct k; cbn [look]; unfold transition_at, animator_at; try (exfalso; by apply Hk); rewrite ?H1, ?H2, ?H3, ?H4, ?H5, ?H6, ?H7, ?H8, ?H9; reflexivity.
Qed.
Lemma drawn_shows t t' n k i : same_drawn t t' -> place_of k <> PlBackgrounds -> shows_at t' n k i = shows_at t n k i.
Proof.
  intros H Hk. specialize (H n). unfold shows_at. destruct (t_nodes t !! n) as [x|], (t_nodes t' !! n) as [y|]; try done. cbn in *.
  injection H as H1. destruct (n_ctx x) as [e|], (n_ctx y) as [e'|]; try done. cbn in *. apply drawn_look; [done|]. unfold drawn in *. congruence.
Qed.
Lemma drawn_rest t t' n : same_drawn t t' -> at_rest t n -> at_rest t' n.
Proof.
  intros H Hr e' He'. specialize (H n). destruct (ctx_node _ _ _ He') as [y Hy]. rewrite Hy in H. unfold get_ctx in He'. rewrite Hy in He'. cbn in He'.
  destruct (t_nodes t !! n) as [x|] eqn:Hx; [|done]. cbn in H. unfold drawn in H. rewrite He' in H. destruct (n_ctx x) as [e|] eqn:He; [|done]. cbn in H.
  destruct (Hr e) as [R1 R2]; [unfold get_ctx; by rewrite Hx|]. unfold paint_of in H. injection H as H1 H2 H3 H4 H5 H6 H7 H8 H9 H10. by rewrite H9, H10.
Qed.
Lemma viewport_drawn root vp t t' : set_viewport root vp t = Ok t' -> forall n, n <> root -> drawn <$> t_nodes t' !! n = drawn <$> t_nodes t !! n.
Proof.
  unfold set_viewport. intros H. apply bindR_Ok in H as (l & Hl & H). destruct (_ && _); [|by injection H as <-].
  intros n Hn. unfold style, get_node in Hl. apply bindR_Ok in Hl as (x & Hx & Hl). apply unwrap_Ok in Hx.
  destruct (set_style_nodes _ _ _ _ _ H Hx) as [_ Ho]. by rewrite Ho.
Qed.

Theorem cascade_page X fuel doc css v0 hist v os input value m t ids n :
  from_document X fuel doc css = Ok v0 -> updates X fuel v0 hist = Ok (v, os) -> prepare X fuel v input value = Ok (m, t, ids) ->
  tidy_css css -> tidy_inline t -> (forall s, x_order X s ≡ₚ map_to_list s) ->
  styled_element t (v_body v) n -> at_rest (v_tree v) n -> plain_selectors css t n ->
  (forall a s, at_or_above t (v_body v) a -> at_or_above t a n -> s ∈ css_styles css -> rule_settled (v_bindings v) t a s) ->
  shows_cascade css (in_viewport input) (v_root v) (v_body v) (v_tree v) t n.
Proof.
  intros H0 H Hpr Htc Hric Ho Hel Hrest Hplain Hse. destruct (kept_history _ _ _ _ _ _ _ _ H0 H) as (rn & t0 & Hm & Hre & Hfl & Hk & Hc & Hbody & Hbs & Hs).
  pose proof (reached_sound _ _ _ _ _ _ _ _ H0 H) as Hso.
  pose proof (so_live _ Hso) as Hl. rewrite (so_root _ Hso) in *. rewrite Hbody in *.
  unfold prepare in Hpr. apply bindR_Ok in Hpr as ([m0 rs] & Hb & Hpr). apply bindR_Ok in Hpr as ([ta ids0] & Hu & Hpr).
  apply bindR_Ok in Hpr as (t1 & H1 & Hpr). apply bindR_Ok in Hpr as (t2 & H2 & Hpr). apply bindR_Ok in Hpr as (t3 & H3 & Hpr). injection Hpr as <- <- <-. rewrite Hbody, (so_root _ Hso), Hc in *.
  assert (Hok : Forall (reaction_ok (v_tree v)) rs) by (by eapply view_bind_reactions_ok).
  assert (Hk1 : kept (x_debug X) (css_styles css) (v_bindings v) t0 ta) by (eapply kept_reactions; [exact Hk|exact Hok|by eapply view_bind_from|exact Hu]).
  pose proof (set_viewport_same _ _ _ _ H1) as Hv.
  pose proof (kept_content _ _ _ _ _ _ Hk1 Hv) as Hk2. pose proof (k_live _ _ _ _ _ Hk2) as Hl1.
  destruct (rendered_live _ _ _ Hm Hre) as (Hl0 & Hat0 & Hr0).
  destruct (styles_trace _ _ _ _ _ _ _ _ _ _ _ Hl1 H2) as (Htr & _ & Hal12).
  assert (Hal23 : alike t2 t3).
  { split; [eapply same_trans; [apply run_layout_same|by eapply final_positions_same]|eapply ss_trans; [apply run_layout_ss|by eapply final_positions_ss]]. }
  assert (Hal13 : alike t1 t3) by (by eapply alike_trans). pose proof (alike_sym _ _ Hal13) as Hal31.
  assert (Hlooks : same_looks t2 t3) by (eapply looks_trans; [apply layout_looks|by eapply positions_looks]).
  assert (Htt : tidy_tree t1).
  { apply (kept_tidy _ _ _ _ _ (proj1 Htc)) in Hk2; [done|]. intros k ds Hk'. apply (Hric k). by rewrite (inline_content _ _ _ (proj1 Hal13)). }
  pose proof (styled_element_alike _ _ _ _ Hal31 Hel) as Hel1.
  assert (Hn0 : n <> 0). { intros ->. destruct Hel1 as [Hx _]. apply (above_le _ _ _ _ Hl1) in Hx. lia. }
  assert (Hres : shows_cascade css (in_viewport input) 0 1 (v_tree v) t2 n).
  { eapply (shows_styled fuel (x_debug X) css (x_order X) (in_time input) t1 t2 (in_viewport input) Hl1 Hal12 n); [|exact Htc| |exact Ho|exact Htr|exact Hel1|].
    - intros a e Ha Han He st st' Hcr.
      assert (Hrf : cascade_rules fuel (x_debug X) a t1 (e_styles e) st = cascade_rules fuel (x_debug X) a t1 (map EDynamic (css_styles css)) st).
      { eapply (rules_afresh _ _ _ _ _ Hl0 Hat0 Hr0 Hk2); [|exact He|exact Ha|].
        - intros k f key (p & b & Hin & Hpb). eapply stands_hints; [exact (re_stands _ _ _ Hre)| |exact Hpb].
          apply elem_of_list_In. rewrite <- Hfl. by apply elem_of_list_In.
        - intros s Hs'. eapply settled_content; [exact (proj1 Hal31)|]. apply Hse; [by eapply above_alike|by eapply above_alike|done]. }
      rewrite Hrf in Hcr. eapply rules_declared; [exact Hl1|by eexists| |exact Hcr].
      intros s sel Hs' Hsel. destruct (plain_alike _ _ _ _ Hal31 Hplain s sel Hs' Hsel) as [P1 P2]. split; [done|]. intros b c Hb'. apply P2. by etransitivity.
    - intros e He. split; [by apply (Htt n)|]. apply (drawn_rest (v_tree v) ta) in Hrest; [|by eapply update_trees_drawn].
      destruct (ctx_node _ _ _ He) as [y Hy]. pose proof (viewport_drawn _ _ _ _ H1 n Hn0) as Hd. rewrite Hy in Hd.
      destruct (t_nodes ta !! n) as [x|] eqn:Hx; [|done]. cbn in Hd. unfold get_ctx in He. rewrite Hy in He. cbn in He. unfold drawn in Hd. rewrite He in Hd.
      destruct (n_ctx x) as [e0|] eqn:He0; [|done]. destruct (Hrest e0) as [R1 R2]; [unfold get_ctx; by rewrite Hx|]. unfold still.
      cbn in Hd. unfold paint_of in Hd. injection Hd as G1 G2 G3 G4 G5 G6 G7 G8 G9 G10. by rewrite G9, G10.
    - intros k i Hk'. rewrite (viewport_looks _ _ _ _ H1 n k i Hn0). apply drawn_shows; [by eapply update_trees_drawn|done]. }
  (* from the styled tree to the placed one *)
  destruct Hres as (ds & vars & p & parent & R1 & R2 & R3 & R4 & pe & R5 & R6).
  assert (Hnode : exists parent' pe', t_nodes t3 !! p = Some parent' /\ n_ctx parent' = Some pe' /\
    (forall k b, rest_value k (n_style parent', pe') b = rest_value k (n_style parent, pe) b) /\ f_size (e_font pe') = f_size (e_font pe) /\ e_color pe' = e_color pe).
  { assert (Hgp : get_ctx t2 p = Some pe) by (unfold get_ctx; by rewrite R4).
    pose proof (alike_ctx _ _ p Hal23) as Hp. rewrite Hgp in Hp. destruct (get_ctx t3 p) as [pe'|] eqn:Hpe'; [|done]. destruct (ctx_node _ _ _ Hpe') as [y Hy].
    assert (Hye : n_ctx y = Some pe') by (unfold get_ctx in Hpe'; by rewrite Hy in Hpe').
    assert (Hlk : forall k i, look k i (n_style y, pe') = look k i (n_style parent, pe)).
    { intros k i. specialize (Hlooks p k i). unfold shows_at in Hlooks. rewrite Hy, R4 in Hlooks. cbn in Hlooks. rewrite Hye, R5 in Hlooks. exact Hlooks. }
    exists y, pe'. split; [done|]. split; [done|]. split; [|split].
    - intros k b. unfold rest_value. replace (start_value k (n_style y, pe')) with (start_value k (n_style parent, pe)); [done|]. destruct k; try reflexivity; symmetry; apply Hlk.
    - specialize (Hlk KFontSize 0). cbn [look] in Hlk. by injection Hlk.
    - specialize (Hlk KColor 0). cbn [look] in Hlk. by injection Hlk. }
  destruct Hnode as (parent' & pe' & N1 & N2 & N3 & N4 & N5).
  exists ds, vars, p, parent'. split; [exact (declarations_alike _ _ _ _ _ _ Hal23 R1)|]. split; [exact (scope_alike _ _ _ _ _ _ _ Hal23 R2)|]. split; [by rewrite (alike_parent _ _ _ Hal23)|]. split; [done|].
  exists pe'. split; [done|]. intros k i Hki. specialize (R6 k i Hki). cbv zeta in *. rewrite Hlooks, N3. 
  replace (sizes_at (in_viewport input) t3 1 n) with (sizes_at (in_viewport input) t2 1 n); [exact R6|].
  unfold sizes_at. destruct (decide (n = 1)); [done|]. rewrite (alike_parent _ _ _ Hal23), R3. unfold get_ctx. rewrite R4, N1. cbn [mbind option_bind]. rewrite R5, N2, N4, N5. done.
Qed.

(** input changes no looks *)
Theorem update_looks X fuel v i x v' o : update X fuel v i x = Ok (v', o) -> exists m t ids, prepare X fuel v i x = Ok (m, t, ids) /\ same_looks t (v_tree v').
Proof.
  unfold update. intros H. apply bindR_Ok in H as ([[m t] ids] & Hp & H). apply bindR_Ok in H as ([[s t'] o'] & Ho & [= <- <-]).
  exists m, t, ids. split; [exact Hp|]. apply handle_output_sbs in Ho. cbn [fst snd] in Ho.
  intros n k j. unfold shows_at. change (v_tree (v <| v_model := m |> <| v_session := s |> <| v_tree := t' |> <| v_ids := ids |>)) with t'. destruct Ho as [_ Ho]. specialize (Ho n).
  destruct (t_nodes t !! n) as [a|], (t_nodes t' !! n) as [b|]; try done. cbn in *. 
  assert (Hn : node_no_state a = node_no_state b) by congruence. unfold node_no_state in Hn.
  assert (H1 : n_style a = n_style b) by exact (f_equal n_style Hn). assert (H2 : no_state <$> n_ctx a = no_state <$> n_ctx b) by exact (f_equal n_ctx Hn).
  rewrite H1. destruct (n_ctx a) as [ea|], (n_ctx b) as [eb|]; try done. cbn in *. assert (H3 : no_state ea = no_state eb) by congruence.
  assert (Hl : forall e, look k j (n_style b, e) = look k j (n_style b, no_state e)) by (intros e; by destruct k).
  change (look k j (n_style b, eb) = look k j (n_style b, ea)). by rewrite (Hl ea), (Hl eb), H3.
Qed.
