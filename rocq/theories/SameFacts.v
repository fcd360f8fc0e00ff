(** * Updates that change nothing (C80): proofs. *)
From Coq Require Import ZArith Lia.
From stdpp Require Import gmap.
From RecordUpdate Require Import RecordUpdate.
From Verif Require Import Str F32 Res ResFacts Json PropKey Html Css Element Tree ViewModel Render Update Matching Cascade Initial Animation Apply Styling Events View
  SpecLive SpecView SpecTree SpecSelect SpecStyle SpecShow SpecPage SpecMove SpecSame LiveFacts LiveView EventFacts EventFrame FrameFacts BindProps SelectFacts SelectLive SelectFresh StyleTrace StyleView StylePage StyleMore MoveFacts.
Close Scope R_scope.

Lemma rest_rest k st st' b : fresh_property k = false -> rest_value k st (rest_value k st' b) = rest_value k st' b.
Proof. intros H. destruct st as [l e], st' as [l' e']. destruct k; try discriminate H; try reflexivity; cbn; destruct b as [[]|]; reflexivity. Qed.
Lemma declared_twice css t t' n : alike t t' -> (forall m, at_or_above t 1 m -> at_or_above t m n -> exists ds, declarations css t 0 m ds) -> live t 0 ->
  at_or_above t 1 n -> same_declared css t t' 0 1 n n.
Proof.
  intros Hal Hd Hl Hn. assert (K : forall m, at_or_above t 1 m -> at_or_above t m n -> same_declared css t t' 0 1 m m); [|apply K; [exact Hn|reflexivity]].
  clear Hn. apply (rtc_ind_r (fun m => at_or_above t m n -> same_declared css t t' 0 1 m m) 1).
  - intros H1. destruct (Hd 1 ltac:(reflexivity) H1) as [ds D]. eapply same_body; [exact D|by eapply declarations_alike].
  - intros p c Hp Hpc IH Hc. destruct (Hd c ltac:(by eapply rtc_r) Hc) as [ds D].
    assert (Hne : c <> 1). { intros ->. pose proof (above_le _ _ _ _ Hl Hp) as Hx. apply (live_parent _ _ Hl) in Hpc. destruct (live_newer _ _ Hl p 1 ltac:(by left)). lia. }
    eapply (same_child css t t' 0 1 c c p p); [exact Hne|exact Hne|exact Hpc|by rewrite (alike_parent _ _ _ Hal)| |exact D|by eapply declarations_alike].
    apply IH. eapply rtc_l; [exact Hpc|exact Hc].
Qed.
Lemma styled_above t n m : live t 0 -> styled_element t 1 n -> at_or_above t 1 m -> at_or_above t m n -> styled_element t 1 m.
Proof.
  intros Hl F2 Hm Hmn. revert Hm F2. unfold at_or_above in Hmn. revert Hmn. generalize n. clear n. intros n Hmn.
  induction Hmn as [a|a c n Hac Hcn IH]; intros Hm F2; [exact F2|].
  assert (Hc : at_or_above t 1 c) by (eapply rtc_r; [exact Hm|exact Hac]). specialize (IH Hc F2).
  eapply (styled_up t 1 c a); [exact Hl|exact IH| |exact Hac].
  intros ->. pose proof (above_le _ _ _ _ Hl Hm) as Hx. apply (live_parent _ _ Hl) in Hac. destruct (live_newer _ _ Hl a 1 ltac:(by left)). lia.
Qed.
(** the second of two updates with the same data shows the same *)
Theorem same_again X fuel doc css v0 hist v os i1 x m1 t1 ids1 v1 o1 i2 v2 o2 n :
  from_document X fuel doc css = Ok v0 -> updates X fuel v0 hist = Ok (v, os) -> json_wf x = true ->
  prepare X fuel v i1 x = Ok (m1, t1, ids1) -> update X fuel v i1 x = Ok (v1, o1) -> update X fuel v1 i2 x = Ok (v2, o2) -> in_viewport i1 = in_viewport i2 ->
  tidy_css css -> (forall s, x_order X s ≡ₚ map_to_list s) -> fair css v t1 n -> same_flags (v_tree v) (v_tree v1) ->
  (forall a, at_or_above t1 a n -> at_rest (v_tree v) a /\ at_rest (v_tree v1) a) ->
  exists m2 t2 ids2, prepare X fuel v1 i2 x = Ok (m2, t2, ids2) /\ alike t1 t2 /\ fair css v1 t2 n /\
  forall k i, listed k = true \/ i = 0 -> shows_at (v_tree v2) n k i = shows_at (v_tree v1) n k i.
Proof.
  intros H0 H Hw Hp1 Hu1 Hu2 Hvp Htc Ho (F1 & F2 & F3 & F4) Hfl Hrest.
  pose proof (updates_more _ _ _ _ _ _ _ _ _ _ H Hu1) as H1.
  destruct (kept_history _ _ _ _ _ _ _ _ H0 H) as (_ & _ & _ & _ & _ & _ & _ & B0 & Bs0 & S0). destruct (kept_history _ _ _ _ _ _ _ _ H0 H1) as (_ & _ & _ & _ & _ & _ & _ & B1 & Bs1 & S1).
  destruct (update_looks _ _ _ _ _ _ _ Hu2) as (m2 & t2 & ids2 & Hp2 & L2). destruct (update_prepared _ _ _ _ _ _ _ _ _ _ Hu1 Hp1) as [_ L1].
  assert (Csb : forall w i m t ids w' o, update X fuel w i x = Ok (w', o) -> prepare X fuel w i x = Ok (m, t, ids) -> same_content t (v_tree w')).
  { clear. intros w i m t ids w' o Hu Hp. unfold update in Hu. rewrite Hp in Hu. cbn [bindR] in Hu. apply bindR_Ok in Hu as ([[ss t'] o'] & Hho & [= <- <-]).
    apply handle_output_sbs in Hho. cbn [fst snd] in Hho. exact (sbs_same _ _ Hho). }
  assert (Hal : alike t1 t2).
  { split.
    - eapply same_trans; [exact (Csb _ _ _ _ _ _ _ Hu1 Hp1)|]. eapply same_trans; [|exact (same_sym _ _ (Csb _ _ _ _ _ _ _ Hu2 Hp2))].
      destruct (update_again _ _ _ _ _ _ _ Hw Hu1) as [_ Ha]. exact (proj2 (proj2 (Ha _ _ _ Hu2))).
    - intros m. rewrite (prepare_ss _ _ _ _ _ _ _ _ Hp2 m), (prepare_ss _ _ _ _ _ _ _ _ Hp1 m). exact (Hfl m). }
  pose proof (proj1 (prepare_live _ _ _ _ _ _ _ _ S0 Hp1)) as Hl1.
  assert (F1' : tidy_inline t2). { intros q ds Hq. apply (F1 q). by rewrite <- (inline_content _ _ _ (proj1 Hal)). }
  assert (F2' : styled_element t2 (v_body v1) n). { rewrite B1. rewrite B0 in F2. exact (styled_element_alike _ _ _ _ Hal F2). }
  pose proof (plain_alike _ _ _ _ Hal F3) as F3'. pose proof (alike_sym _ _ Hal) as Hal'.
  assert (F4' : forall a s, at_or_above t2 (v_body v1) a -> at_or_above t2 a n -> s ∈ css_styles css -> rule_settled (v_bindings v1) t2 a s).
  { intros a s Ha Han Hs. rewrite Bs1, <- Bs0. eapply settled_content; [exact (proj1 Hal)|]. apply F4; [rewrite B0; rewrite B1 in Ha; by eapply above_alike|by eapply above_alike|exact Hs]. }
  assert (Hrest' : forall a, at_or_above t2 a n -> at_rest (v_tree v1) a). { intros a Ha. apply (Hrest a). by eapply above_alike. }
  exists m2, t2, ids2. split; [exact Hp2|]. split; [exact Hal|]. split; [exact (conj F1' (conj F2' (conj F3' F4')))|]. intros k i Hki.
  (* every element on the way has its declarations *)
  assert (Hdec : forall m, at_or_above t1 1 m -> at_or_above t1 m n -> exists ds, declarations css t1 0 m ds).
  { intros m Hm Hmn. assert (Hel : styled_element t1 (v_body v) m).
    { rewrite B0. rewrite B0 in F2. eapply styled_above; [exact Hl1|exact F2|exact Hm|exact Hmn]. }
    assert (Hpl : plain_selectors css t1 m). { intros s sel Hs Hsel. destruct (F3 s sel Hs Hsel) as [P1 P2]. split; [done|]. intros b c Hb. apply P2. by etransitivity. }
    pose proof (cascade_page _ _ _ _ _ _ _ _ _ _ _ _ _ m H0 H Hp1 Htc F1 Ho Hel (proj1 (Hrest m Hmn)) Hpl ltac:(intros a s Ha Ham; apply F4; [done|by etransitivity])) as (ds & _ & _ & _ & Hds & _).
    rewrite (so_root _ S0) in Hds. by exists ds. }
  assert (Hsd : same_declared css t1 t2 0 1 n n). { apply declared_twice; [exact Hal|exact Hdec|exact Hl1|]. rewrite B0 in F2. apply F2. }
  pose proof (cascade_page _ _ _ _ _ _ _ _ _ _ _ _ _ n H0 H Hp1 Htc F1 Ho F2 (proj1 (Hrest n ltac:(reflexivity))) F3 F4) as (ds & vars & p & parent & D1 & V1 & P1 & X1 & pe & E1 & C1).
  pose proof (cascade_page _ _ _ _ _ _ _ _ _ _ _ _ _ n H0 H1 Hp2 Htc F1' Ho F2' (Hrest' n ltac:(reflexivity)) F3' F4') as (ds' & vars' & p' & parent' & D2 & V2 & P2 & X2 & pe' & E2 & C2).
  rewrite (so_root _ S0), B0 in *. rewrite (so_root _ S1), B1 in *.
  rewrite L2. rewrite L1.
  assert (Hleak : forall k i, listed k = true \/ i = 0 -> fresh_property k = true \/ (exists vars ds w, declarations css t1 0 n ds /\ scope css t1 0 1 n vars /\ wins vars ds k i w /\ is_Some (meaning (sizes_at (in_viewport i1) t1 1 n) k w)) ->
    shows_at t2 n k i = shows_at t1 n k i).
  { intros k0 i0 Hki0 Hwhy. refine (no_leak X fuel css doc v0 hist v os i1 x m1 t1 ids1 n doc v0 _ v1 _ i2 x m2 t2 ids2 n H0 H Hp1 H0 H1 Hp2 Hvp Htc F1 F1' Ho (fun a Ha => proj1 (Hrest a Ha)) Hrest' _ F3 _ _ F3' _ _ k0 i0 Hki0 _); rewrite ?(so_root _ S0), ?B0, ?B1; assumption. }
  destruct (fresh_property k) eqn:Hk; [apply Hleak; [exact Hki|by left]|].
  assert (ds' = ds) as ->. { eapply declarations_fun; [exact D2|by eapply declarations_alike]. }
  assert (vars' = vars) as ->. { eapply scope_fun; [exact V2|by eapply scope_alike]. }
  destruct (C1 k i Hki) as (A1 & A2 & A3). destruct (C2 k i Hki) as (A1' & A2' & _). cbv zeta in *.
  assert (Hsz : sizes_at (in_viewport i2) t2 1 n = sizes_at (in_viewport i1) t1 1 n).
  { unfold sizes_at. rewrite Hvp. destruct (decide (n = 1)); [done|]. rewrite P2, P1. assert (p' = p) as -> by (rewrite (alike_parent _ _ _ Hal) in P2; congruence).
    unfold get_ctx. rewrite X2, X1. cbn [mbind option_bind]. rewrite E2, E1.
    assert (Hpar : at_or_above t1 p n) by (apply rtc_once; exact P1).
    assert (Elp : styled_element t1 1 p) by (eapply styled_up; eauto).
    assert (Hlk : forall q, fresh_property q = true -> listed q = false -> look q 0 (n_style parent', pe') = look q 0 (n_style parent, pe)).
    { intros q Hq Hlq. assert (Hel2 : styled_element t2 1 p) by (by eapply styled_element_alike).
      assert (Hplp : plain_selectors css t1 p). { intros s sel Hs Hsel. destruct (F3 s sel Hs Hsel) as [Q1 Q2]. split; [done|]. intros b c Hb. apply Q2. by etransitivity. }
      assert (Hx : shows_at t2 p q 0 = shows_at t1 p q 0).
      { refine (no_leak X fuel css doc v0 hist v os i1 x m1 t1 ids1 p doc v0 _ v1 _ i2 x m2 t2 ids2 p H0 H Hp1 H0 H1 Hp2 Hvp Htc F1 F1' Ho _ _ _ Hplp _ _ (plain_alike _ _ _ _ Hal Hplp) _ _ q 0 (or_intror eq_refl) (or_introl Hq)).
        - intros a Ha. exact (proj1 (Hrest a (rtc_transitive _ _ _ Ha Hpar))).
        - intros a Ha. apply Hrest'. etransitivity; [exact Ha|]. apply rtc_once. exact P2.
        - rewrite B0. exact Elp.
        - intros a s Ha Han. rewrite B0 in Ha. apply F4; [exact Ha|]. by etransitivity.
        - rewrite B1. exact Hel2.
        - intros a s Ha Han. rewrite B1 in Ha. apply F4'; [exact Ha|]. etransitivity; [exact Han|]. apply rtc_once. exact P2.
        - rewrite (so_root _ S0), B0. apply declared_twice; [exact Hal| |exact Hl1|apply Elp]. intros m Hm Hmp. apply Hdec; [exact Hm|]. by etransitivity. }
      unfold shows_at in Hx. rewrite X2, X1 in Hx. cbn in Hx. rewrite E2, E1 in Hx. exact Hx. }
    pose proof (Hlk KFontSize eq_refl eq_refl) as G1. pose proof (Hlk KColor eq_refl eq_refl) as G2. cbn [look] in G1, G2.
    assert (K1 : f_size (e_font pe') = f_size (e_font pe)) by (by injection G1). assert (K2 : e_color pe' = e_color pe) by (by injection G2). by rewrite K1, K2. }
  destruct A3 as [[w W]|U].
  - rewrite (A1' w W), (A1 w W). rewrite Hsz. rewrite L1, (A1 w W). destruct (meaning _ k w); [done|]. by apply rest_rest.
  - rewrite (A2' U), L1, (A2 U). by apply rest_rest.
Qed.

Lemma again_updates X fuel x viewport v v' : again X fuel x viewport v v' -> exists hist os, updates X fuel v hist = Ok (v', os).
Proof.
  induction 1 as [v|v v1 i v2 o H IH Hi Hu Hf]; [by exists [], []|]. destruct IH as (h & os & IH). exists (h ++ [(i, x)]), (os ++ [o]). exact (updates_more _ _ _ _ _ _ _ _ _ _ IH Hu).
Qed.
(** so do any number of them *)
Theorem same_stays X fuel doc css v0 hist v os i1 x m1 t1 ids1 v1 o1 w n :
  from_document X fuel doc css = Ok v0 -> updates X fuel v0 hist = Ok (v, os) -> json_wf x = true ->
  prepare X fuel v i1 x = Ok (m1, t1, ids1) -> update X fuel v i1 x = Ok (v1, o1) -> same_flags (v_tree v) (v_tree v1) -> again X fuel x (in_viewport i1) v1 w ->
  tidy_css css -> (forall s, x_order X s ≡ₚ map_to_list s) -> fair css v t1 n ->
  (forall u a, again X fuel x (in_viewport i1) v u -> at_or_above t1 a n -> at_rest (v_tree u) a) ->
  forall k i, listed k = true \/ i = 0 -> shows_at (v_tree w) n k i = shows_at (v_tree v1) n k i.
Proof.
  intros H0 H Hw Hp1 Hu1 Hfl Hag Htc Ho Hf Hrest.
  assert (Hv : again X fuel x (in_viewport i1) v v1) by (eapply again_more; [apply again_none|reflexivity|exact Hu1|exact Hfl]).
  assert (K : exists u h os' j m t ids o, again X fuel x (in_viewport i1) v u /\ updates X fuel v0 h = Ok (u, os') /\ in_viewport j = in_viewport i1 /\ prepare X fuel u j x = Ok (m, t, ids) /\ update X fuel u j x = Ok (w, o) /\
    same_flags (v_tree u) (v_tree w) /\ again X fuel x (in_viewport i1) v w /\ alike t1 t /\ fair css u t n /\ forall k i, listed k = true \/ i = 0 -> shows_at (v_tree w) n k i = shows_at (v_tree v1) n k i).
  { remember (in_viewport i1) as vp eqn:Evp. induction Hag as [v1|v1 w i w2 o Hag IH Hi Hu Hf2].
    - exists v, hist, os, i1, m1, t1, ids1, o1. split; [apply again_none|]. split; [exact H|]. split; [by rewrite Evp|]. split; [exact Hp1|]. split; [exact Hu1|]. split; [exact Hfl|]. split; [exact Hv|]. split; [apply alike_refl|]. split; [exact Hf|done].
    - destruct (IH Hu1 Hfl Hv) as (u & h & os' & j & m & t & ids & o' & A1 & A2 & A3 & A4 & A5 & A6 & A7 & A8 & A9 & A10).
      destruct (same_again X fuel doc css v0 h u os' j x m t ids w o' i w2 o n H0 A2 Hw A4 A5 Hu ltac:(congruence) Htc Ho A9 A6) as (m2 & t2 & ids2 & B1 & B2 & B3 & B4).
      { intros a Ha. assert (Ha' : at_or_above t1 a n) by (eapply above_alike; [exact (alike_sym _ _ A8)|exact Ha]). split; [exact (Hrest u a A1 Ha')|exact (Hrest w a A7 Ha')]. }
      assert (Hg : again X fuel x vp v w2) by exact (again_more _ _ _ _ _ _ _ _ _ A7 Hi Hu Hf2).
      exists w, (h ++ [(j, x)]), (os' ++ [o']), i, m2, t2, ids2, o. split; [exact A7|]. split; [exact (updates_more _ _ _ _ _ _ _ _ _ _ A2 A5)|]. split; [exact Hi|]. split; [exact B1|]. split; [exact Hu|]. split; [exact Hf2|].
      split; [exact Hg|]. split; [by eapply alike_trans|]. split; [exact B3|]. intros k q Hk. rewrite (B4 k q Hk). exact (A10 k q Hk). }
  destruct K as (u & h & os' & j & m & t & ids & o & _ & _ & _ & _ & _ & _ & _ & _ & _ & K). exact K.
Qed.
(** what an element shows determines its layout style *)
Lemma looks_style l e l' e' : (forall k, look k 0 (l', e') = look k 0 (l, e)) -> l' = l.
Proof.
  intros H. destruct l as [? ? ? ? ? [] [] [] [] [] [] [] [] ? ? ? ? ? ? ? ? ? ? ?], l' as [? ? ? ? ? [] [] [] [] [] [] [] [] ? ? ? ? ? ? ? ? ? ? ?].
  pose proof (H KDisplay) as A1. pose proof (H KOverflowX) as A2. pose proof (H KOverflowY) as A3. pose proof (H KPosition) as A4. pose proof (H KBoxSizing) as A5.
  pose proof (H KTop) as A6. pose proof (H KRight) as A7. pose proof (H KBottom) as A8. pose proof (H KLeft) as A9.
  pose proof (H KMarginTop) as B1. pose proof (H KMarginRight) as B2. pose proof (H KMarginBottom) as B3. pose proof (H KMarginLeft) as B4.
  pose proof (H KPaddingTop) as B5. pose proof (H KPaddingRight) as B6. pose proof (H KPaddingBottom) as B7. pose proof (H KPaddingLeft) as B8.
  pose proof (H KBorderTopWidth) as C1. pose proof (H KBorderRightWidth) as C2. pose proof (H KBorderBottomWidth) as C3. pose proof (H KBorderLeftWidth) as C4.
  pose proof (H KWidth) as D1. pose proof (H KHeight) as D2. pose proof (H KMinWidth) as D3. pose proof (H KMinHeight) as D4. pose proof (H KMaxWidth) as D5. pose proof (H KMaxHeight) as D6.
  pose proof (H KAlignContent) as F1. pose proof (H KAlignItems) as F2. pose proof (H KAlignSelf) as F3. pose proof (H KJustifyContent) as F4. pose proof (H KJustifyItems) as F5. pose proof (H KJustifySelf) as F6.
  pose proof (H KFlexDirection) as G1. pose proof (H KFlexWrap) as G2. pose proof (H KFlexBasis) as G3. pose proof (H KFlexGrow) as G4. pose proof (H KFlexShrink) as G5. pose proof (H KColumnGap) as G6. pose proof (H KRowGap) as G7.
  clear H. cbn in *.
  injection A1 as ->. injection A2 as ->. injection A3 as ->. injection A4 as ->. injection A5 as ->. injection A6 as ->. injection A7 as ->. injection A8 as ->. injection A9 as ->. injection B1 as ->. injection B2 as ->. injection B3 as ->. injection B4 as ->. injection B5 as ->. injection B6 as ->. injection B7 as ->. injection B8 as ->. injection D1 as ->. injection D2 as ->. injection D3 as ->. injection D4 as ->. injection D5 as ->. injection D6 as ->. injection F1 as ->. injection F2 as ->. injection F3 as ->. injection F4 as ->. injection F5 as ->. injection F6 as ->. injection G1 as ->. injection G2 as ->. injection G3 as ->. injection G4 as ->. injection G5 as ->. injection G6 as ->. injection G7 as ->. injection C1 as _ ->. injection C2 as _ ->. injection C3 as _ ->. injection C4 as _ ->. reflexivity.
Qed.
Lemma shows_style (t t' : Tree) n e e' : get_ctx t n = Some e -> get_ctx t' n = Some e' -> (forall k, shows_at t' n k 0 = shows_at t n k 0) -> n_style <$> t_nodes t' !! n = n_style <$> t_nodes t !! n.
Proof.
  unfold get_ctx, shows_at. intros He He' H. destruct (t_nodes t !! n) as [x|] eqn:Ex; [|discriminate He]. destruct (t_nodes t' !! n) as [x'|] eqn:Ex'; [|discriminate He'].
  cbn in *. rewrite He in H. rewrite He' in H. f_equal. apply (looks_style _ e _ e'). exact H.
Qed.
Lemma shows_there (t : Tree) n : is_Some (shows_at t n KColor 0) <-> is_Some (get_ctx t n).
Proof.
  unfold shows_at, get_ctx. destruct (t_nodes t !! n) as [x|]; cbn; [|split; by intros [? ?]]. destruct (n_ctx x) as [e|]; cbn; [|split; by intros [? ?]]. split; intros _; by eexists.
Qed.
Lemma layout_stays X fuel doc css v0 hist v os i1 x m1 t1 ids1 v1 o1 w n :
  from_document X fuel doc css = Ok v0 -> updates X fuel v0 hist = Ok (v, os) -> json_wf x = true ->
  prepare X fuel v i1 x = Ok (m1, t1, ids1) -> update X fuel v i1 x = Ok (v1, o1) -> same_flags (v_tree v) (v_tree v1) -> again X fuel x (in_viewport i1) v1 w ->
  tidy_css css -> (forall s, x_order X s ≡ₚ map_to_list s) -> fair css v t1 n ->
  (forall u a, again X fuel x (in_viewport i1) v u -> at_or_above t1 a n -> at_rest (v_tree u) a) ->
  exists st, n_style <$> t_nodes (v_tree v1) !! n = Some st /\ n_style <$> t_nodes (v_tree w) !! n = Some st.
Proof.
  intros H0 H Hw Hp1 Hu1 Hfl Hag Htc Ho Hf Hrest. pose proof (same_stays _ _ _ _ _ _ _ _ _ _ _ _ _ _ _ _ n H0 H Hw Hp1 Hu1 Hfl Hag Htc Ho Hf Hrest) as K.
  destruct (update_prepared _ _ _ _ _ _ _ _ _ _ Hu1 Hp1) as [_ L1]. destruct Hf as (_ & (_ & (e & He & _) & _) & _).
  assert (I1 : is_Some (get_ctx (v_tree v1) n)). { apply shows_there. rewrite (L1 n). apply shows_there. by eexists. }
  assert (I2 : is_Some (get_ctx (v_tree w) n)). { apply shows_there. rewrite (K KColor 0 (or_intror eq_refl)). by apply shows_there. }
  destruct I1 as [e1 E1], I2 as [e2 E2]. pose proof (shows_style _ _ n e1 e2 E1 E2 (fun k => K k 0 (or_intror eq_refl))) as Q.
  destruct (t_nodes (v_tree v1) !! n) as [x1|] eqn:Ex; [|unfold get_ctx in E1; rewrite Ex in E1; discriminate E1]. exists (n_style x1). split; [done|]. rewrite Q. done.
Qed.
