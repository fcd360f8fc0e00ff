(** * Custom properties on a page: every update that ends has resolved them. *)
From Coq Require Import ZArith Lia.
From stdpp Require Import gmap.
From RecordUpdate Require Import RecordUpdate.
From Verif Require Import Str StrFacts F32 Res ResFacts Json PropKey Html Css Element Tree ViewModel Render Update Matching
  Cascade Initial Animation Apply Styling Events View
  SpecLive SpecLog SpecView SpecRender SpecTree SpecEvents FrameFacts EventFacts EventFrame
  RenderTree RenderNode RenderProps RenderAny RenderMore LiveFacts LiveUpdate LiveView LiveHistory LiveOrder
  SpecSelect SelectFacts SelectLive SelectFresh SpecStyle SpecShow SpecPage ApplyFacts ShowFacts CascadeFacts AnimationFacts StyleTrace StyleView StylePage StyleRest StyleMore.

Lemma block_resolves fuel ds : forall vars s r, compute_declaration_block fuel ds (vars, s) = Ok r ->
  forall pre p post sh, ds = pre ++ DeclProperty p :: post -> sh ∈ p_values p -> exists vs, mean_all (variables_after vars pre) sh vs.
Proof.
  unfold compute_declaration_block. induction ds as [|d ds IH]; intros vars s r H pre p post sh Hds Hsh; [by destruct pre|].
  cbn [foldR] in H. apply bindR_Ok in H as ([vars1 s1] & H1 & H). destruct pre as [|d' pre]; injection Hds as -> ->.
  - cbn [compute_declaration] in H1. apply bindR_Ok in H1 as (s2 & H2 & _). destruct (values_given _ _ _ _ _ _ _ H2) as (I0 & _).
    apply elem_of_list_lookup in Hsh as (i & Hi). exact (I0 _ _ Hi).
  - destruct (declaration_given _ _ _ _ _ _ H1) as (-> & _). destruct (IH _ _ _ H pre p post sh eq_refl Hsh) as (vs & Hvs). by exists vs.
Qed.
Theorem resolved_page X fuel doc css v0 hist v os input value m t ids n :
  from_document X fuel doc css = Ok v0 -> updates X fuel v0 hist = Ok (v, os) -> prepare X fuel v input value = Ok (m, t, ids) ->
  styled_element t (v_body v) n -> plain_selectors css t n ->
  (forall a s, at_or_above t (v_body v) a -> at_or_above t a n -> s ∈ css_styles css -> rule_settled (v_bindings v) t a s) ->
  all_resolve css t (v_root v) (v_body v) n.
Proof.
  intros H0 H Hpr Hel Hplain Hse. destruct (kept_history _ _ _ _ _ _ _ _ H0 H) as (rn & t0 & Hm & Hre & Hfl & Hk & Hc & Hbody & Hbs & Hs).
  pose proof (reached_sound _ _ _ _ _ _ _ _ H0 H) as Hso.
  pose proof (so_live _ Hso) as Hl. rewrite (so_root _ Hso) in *. rewrite Hbody in *.
  unfold prepare in Hpr. apply bindR_Ok in Hpr as ([m0 rs] & Hb & Hpr). apply bindR_Ok in Hpr as ([ta ids0] & Hu & Hpr).
  apply bindR_Ok in Hpr as (t1 & H1 & Hpr). apply bindR_Ok in Hpr as (t2 & H2 & Hpr). apply bindR_Ok in Hpr as (t3 & H3 & Hpr). injection Hpr as <- <- <-. rewrite Hbody, (so_root _ Hso), Hc in *.
  assert (Hok : Forall (reaction_ok (v_tree v)) rs) by (by eapply view_bind_reactions_ok).
  assert (Hk1 : kept (x_debug X) (css_styles css) (v_bindings v) t0 ta) by (eapply kept_reactions; [exact Hk|exact Hok|by eapply view_bind_from|exact Hu]).
  pose proof (set_viewport_same _ _ _ _ H1) as Hv.
  pose proof (kept_content _ _ _ _ _ _ Hk1 Hv) as Hk2. pose proof (k_live _ _ _ _ _ Hk2) as Hl1.
  destruct (rendered_live _ _ _ Hm Hre) as (Hl0 & Hat0 & Hr0).
  destruct (styles_trace _ _ _ _ _ _ _ _ _ _ _ Hl1 H2) as (Htr & _ & Hal12).
  assert (Hal23 : alike t2 t3).
  { split; [eapply same_trans; [apply run_layout_same|by eapply final_positions_same]|eapply ss_trans; [apply run_layout_ss|by eapply final_positions_ss]]. }
  assert (Hal13 : alike t1 t3) by (by eapply alike_trans). pose proof (alike_sym _ _ Hal13) as Hal31.
  pose proof (styled_element_alike _ _ _ _ Hal31 Hel) as Hel1.
  assert (Hrules : forall a e, at_or_above t1 1 a -> at_or_above t1 a n -> get_ctx t1 a = Some e -> forall st st', cascade_rules fuel (x_debug X) a t1 (e_styles e) st = Ok st' ->
    exists ds, declared t1 0 a (css_styles css) ds /\ compute_declaration_block fuel ds st = Ok st').
  { intros a e Ha Han He st st' Hcr.
      assert (Hrf : cascade_rules fuel (x_debug X) a t1 (e_styles e) st = cascade_rules fuel (x_debug X) a t1 (map EDynamic (css_styles css)) st).
      { eapply (rules_afresh _ _ _ _ _ Hl0 Hat0 Hr0 Hk2); [|exact He|exact Ha|].
        - intros k f key (p & b & Hin & Hpb). eapply stands_hints; [exact (re_stands _ _ _ Hre)| |exact Hpb].
          apply elem_of_list_In. rewrite <- Hfl. by apply elem_of_list_In.
        - intros s Hs'. eapply settled_content; [exact (proj1 Hal31)|]. apply Hse; [by eapply above_alike|by eapply above_alike|done]. }
      rewrite Hrf in Hcr. eapply rules_declared; [exact Hl1|by eexists| |exact Hcr].
      intros s sel Hs' Hsel. destruct (plain_alike _ _ _ _ Hal31 Hplain s sel Hs' Hsel) as [P1 P2]. split; [done|]. intros b c Hb'. apply P2. by etransitivity. }
  destruct Hel1 as (Hn & (e0 & He0 & Htx) & Hcl).
  destruct (descend fuel (x_debug X) css (x_order X) (in_time input) t1 t2 (in_viewport input) Hl1 Hal12 n Hrules (body_reached fuel (x_debug X) css (x_order X) (in_time input) t1 t2 (in_viewport input) Htr) n Hn ltac:(reflexivity) Hcl) as (vars & Hsc & Hst).
  inversion Hst as [? q pe e spans ? ? Hq Hpe He Ht He'|? q pe x e layout' e' vars' x' ? ? Hq Hpe Hx He Ht Hcs Hx' He' Hlay Hch]; subst; [congruence|].
  assert (Hg : get_ctx t1 n = Some e) by (unfold get_ctx; by rewrite Hx).
  rewrite cascade_computes in Hcs. apply bindR_Ok in Hcs as ([[[an tr] s] vars1] & Hcc & _).
  unfold computes in Hcc. apply bindR_Ok in Hcc as ([vars2 s2] & G1 & Hcc). apply bindR_Ok in Hcc as ([vars3 s3] & G2 & Hcc). clear Hcc.
  destruct (Hrules n e Hn ltac:(reflexivity) Hg _ _ G1) as (rules & Hd & Hbl).
  assert (Hall : compute_declaration_block fuel (rules ++ e_style e) (vars, ∅) = Ok (vars3, s3)) by (by rewrite block_app, Hbl).
  exists (rules ++ e_style e), vars. split; [eapply declarations_alike; [exact Hal13|]; by exists rules, e|]. split; [by eapply scope_alike|].
  by eapply block_resolves.
Qed.

(** a custom property that refers to itself stands for nothing *)
Lemma self_means vars name : (exists sh, vars !! name = Some sh /\ In (DVar name) sh) -> forall vs, ~ means vars (DVar name) vs.
Proof.
  intros (sh & Hsh & Hin).
  assert (H : (forall d vs, means vars d vs -> d <> DVar name) /\ (forall l vs, mean_all vars l vs -> ~ In (DVar name) l)).
  { apply means_mutind.
    - done.
    - intros name' sh' vs Hn _ IH [= ->]. assert (E : Some sh' = Some sh) by (etransitivity; [symmetry; exact Hn|exact Hsh]). injection E as ->. by apply IH.
    - intros name' Hn [= ->]. assert (E : Some sh = None) by (etransitivity; [symmetry; exact Hsh|exact Hn]). discriminate E.
    - done.
    - intros [].
    - intros d l vs ws _ IH1 _ IH2 [->|Hl]; [by apply IH1|by apply IH2]. }
  intros vs Hm. by apply (proj1 H _ _ Hm).
Qed.
Lemma mean_all_in vars sh vs d : mean_all vars sh vs -> In d sh -> exists ws, means vars d ws.
Proof. intros H. induction H as [|d' sh vs ws Hd _ IH]; [done|]. intros [<-|Hin]; [by exists vs|by apply IH]. Qed.

(** what a reference sees *)
Lemma visible_lookup css t root body n vars pre name : live t 0 -> scope css t root body n vars -> forall sh,
  variables_after vars pre !! name = Some sh <-> visible css t root body n pre name sh.
Proof.
  intros Hl Hs sh. destruct (defines_dec pre name) as [(sh0 & Hd)|Hd].
  - rewrite (proj1 (variables_defines pre vars name sh0) Hd). split.
    + intros [= <-]. by left.
    + intros [Hd'|[Hn _]].
      * rewrite <- (proj1 (variables_defines pre vars name sh0) Hd). by apply variables_defines.
      * exfalso. destruct Hd as (a & b & -> & _). apply (Hn sh0). apply elem_of_app. right. apply elem_of_list_here.
  - rewrite (proj2 (variables_defines pre vars name sh) Hd). rewrite (scope_nearest _ _ _ _ _ _ name Hl Hs sh). split; [by right|].
    intros [Hd'|[_ Hn]]; [|done]. exfalso. destruct Hd' as (a & b & -> & _). apply (Hd sh). apply elem_of_app. right. apply elem_of_list_here.
Qed.
Lemma reference_means css t root body n vars pre name v : live t 0 -> scope css t root body n vars ->
  visible css t root body n pre name [DExplicit v] -> mean_all (variables_after vars pre) [DVar name] [v].
Proof.
  intros Hl Hs Hv. apply (visible_lookup _ _ _ _ _ _ _ _ Hl Hs) in Hv. apply (mean_cons _ _ _ [v] []); [|constructor].
  eapply means_var; [exact Hv|]. apply (mean_cons _ _ _ [v] []); constructor.
Qed.
Lemma place_expand k v : place_of k <> PlNone -> expand k [v] = [(k, v)].
Proof. destruct k; intros H; try (by destruct H); destruct v; reflexivity. Qed.

Theorem reference_shows X fuel doc css v0 hist v os input value m t ids n ds pre k name w post x :
  from_document X fuel doc css = Ok v0 -> updates X fuel v0 hist = Ok (v, os) -> prepare X fuel v input value = Ok (m, t, ids) ->
  tidy_css css -> tidy_inline t -> (forall s, x_order X s ≡ₚ map_to_list s) ->
  styled_element t (v_body v) n -> at_rest (v_tree v) n -> plain_selectors css t n ->
  (forall a s, at_or_above t (v_body v) a -> at_or_above t a n -> s ∈ css_styles css -> rule_settled (v_bindings v) t a s) ->
  declarations css t (v_root v) n ds -> ds = pre ++ DeclProperty (mkProperty k [[DVar name]]) :: post ->
  (forall p vs, DeclProperty p ∈ post -> last_given (expand (p_key p) vs) k = None) ->
  visible css t (v_root v) (v_body v) n pre name [DExplicit w] ->
  meaning (sizes_at (in_viewport input) t (v_body v) n) k w = Some x ->
  shows_at t n k 0 = Some x.
Proof.
  intros H0 H Hpr Htc Hric Ho Hel Hrest Hplain Hse Hds Hpp Hpost Hvis Hm.
  pose proof (reached_sound _ _ _ _ _ _ _ _ H0 H) as Hso. destruct (prepare_live _ _ _ _ _ _ _ _ Hso Hpr) as [Hl _].
  pose proof (cascade_page _ _ _ _ _ _ _ _ _ _ _ _ _ n H0 H Hpr Htc Hric Ho Hel Hrest Hplain Hse) as (ds' & vars & p & parent & R1 & R2 & R3 & R4 & pe & R5 & R6).
  pose proof (declarations_fun _ _ _ _ _ _ R1 Hds) as E. symmetry in E. subst ds'.
  destruct (decide (place_of k = PlNone)) as [Hk|Hk]; [exfalso; destruct k; try discriminate Hk; discriminate Hm|].
  destruct (R6 k 0 ltac:(by right)) as (W & _ & _). cbv zeta in W. rewrite (W w); [by rewrite Hm|].
  exists pre, (DeclProperty (mkProperty k [[DVar name]])), post. split; [done|]. split.
  - exists (mkProperty k [[DVar name]]), [DVar name], [w]. split; [done|]. split; [done|]. split; [by eapply reference_means|].
    cbn [p_key]. rewrite place_expand by done. cbn [last_given]. by rewrite decide_True.
  - intros pre' d' post' v' -> (p' & sh & vs & -> & _ & _ & Hg). rewrite (Hpost p' vs) in Hg; [done|]. apply elem_of_app. right. apply elem_of_list_here.
Qed.
Theorem cycle_never_ends X fuel doc css v0 hist v os input value m t ids n ds pre p post name :
  from_document X fuel doc css = Ok v0 -> updates X fuel v0 hist = Ok (v, os) -> prepare X fuel v input value = Ok (m, t, ids) ->
  styled_element t (v_body v) n -> plain_selectors css t n ->
  (forall a s, at_or_above t (v_body v) a -> at_or_above t a n -> s ∈ css_styles css -> rule_settled (v_bindings v) t a s) ->
  declarations css t (v_root v) n ds -> ds = pre ++ DeclProperty p :: post -> [DVar name] ∈ p_values p ->
  ~ visible css t (v_root v) (v_body v) n pre name [DVar name].
Proof.
  intros H0 H Hpr Hel Hplain Hse Hds Hpp Hin Hvis.
  pose proof (reached_sound _ _ _ _ _ _ _ _ H0 H) as Hso. destruct (prepare_live _ _ _ _ _ _ _ _ Hso Hpr) as [Hl _].
  destruct (resolved_page _ _ _ _ _ _ _ _ _ _ _ _ _ n H0 H Hpr Hel Hplain Hse) as (ds' & vars & Hd' & Hsc & Hr).
  pose proof (declarations_fun _ _ _ _ _ _ Hds Hd') as E. subst ds ds'.
  destruct (Hr pre p post [DVar name] ltac:(done) Hin) as (vs & Hvs).
  destruct (mean_all_in _ _ _ (DVar name) Hvs) as (ws & Hw); [by left|].
  apply (self_means (variables_after vars pre) name) in Hw; [done|]. exists [DVar name]. split; [|by left].
  by apply (visible_lookup _ _ _ _ _ _ _ _ Hl Hsc).
Qed.
