(** * Rules change only what they select (C88): proofs. *)
From Coq Require Import ZArith Lia.
From stdpp Require Import gmap.
From RecordUpdate Require Import RecordUpdate.
From Verif Require Import Str StrFacts F32 Res ResFacts Json PropKey Html Css Element Tree ViewModel Render Update Matching
  Cascade Initial Animation Apply Styling Events View
  SpecLive SpecLog SpecView SpecRender SpecTree SpecEvents FrameFacts EventFacts EventFrame
  RenderTree RenderNode RenderProps RenderAny RenderMore LiveFacts LiveUpdate LiveView LiveHistory LiveOrder
  SpecSelect SelectFacts SelectLive SelectFresh SpecStyle ApplyFacts CascadeFacts SpecShow ShowFacts SpecPage AnimationFacts StyleTrace StyleView StylePage StyleRest StyleMore SpecMove MoveFacts SpecSame SameFacts SpecIdle SpecCss SpecValues ValuePage SpecApart ApartFacts.

Section two.
Context (t t' : Tree) (E : bare t' = bare t).
Lemma bare_parent n : parent_of t' n = parent_of t n.
Proof.
  assert (H : bare_n <$> t_nodes t' !! n = bare_n <$> t_nodes t !! n) by (by rewrite <- !bare_lookup, E).
  unfold parent_of. destruct (t_nodes t' !! n) as [x|], (t_nodes t !! n) as [y|]; try discriminate H; [|reflexivity]. cbn [fmap option_fmap option_map mbind option_bind] in *. apply (inj Some) in H.
  exact (f_equal n_parent H).
Qed.
Lemma bare_above m n : at_or_above t m n -> at_or_above t' m n.
Proof. intros H. unfold at_or_above in *. eapply (rtc_subrel (fun a b => parent_of t b = Some a)); [|exact H]. intros a b Hab. by rewrite bare_parent. Qed.
Lemma bare_inline n e e' : get_ctx t n = Some e -> get_ctx t' n = Some e' -> e_style e' = e_style e.
Proof.
  intros He He'. pose proof (bare_ctx t n) as H. pose proof (bare_ctx t' n) as H'. rewrite E in H'. rewrite He in H. rewrite He' in H'. rewrite H in H'. cbn [fmap option_fmap option_map] in H'.
  apply (inj Some) in H'. symmetry. exact (f_equal e_style H').
Qed.
Context (css css' : Css) (root body : NodeId).
Lemma two_declarations n ds ds' : like_ruled css css' t t' root n -> declarations css t root n ds -> declarations css' t' root n ds' -> ds' = ds.
Proof.
  intros (r & R & R') (r1 & e & D & He & ->) (r2 & e' & D' & He' & ->). rewrite (declared_fun _ _ _ _ _ D _ R), (declared_fun _ _ _ _ _ D' _ R'). by rewrite (bare_inline _ _ _ He He').
Qed.
Lemma two_scopes n vars : scope css t root body n vars -> (forall a, at_or_above t body a -> at_or_above t a n -> like_ruled css css' t t' root a) -> forall vars', scope css' t' root body n vars' -> vars' = vars.
Proof.
  induction 1 as [|n p vars ds Hn Hp Hs IH Hd]; intros Hr vars' H'; inversion H' as [|n' p' vars0 ds' Hn' Hp' Hs' Hd']; subst; try done.
  rewrite bare_parent in Hp'. assert (p' = p) as -> by congruence.
  assert (Hb : at_or_above t body p). { clear -Hs. induction Hs as [|n p vars ds Hn Hp Hs IH Hd]; [reflexivity|]. eapply rtc_r; [exact IH|exact Hp]. }
  assert (Hpn : at_or_above t p n) by (apply rtc_once; exact Hp).
  rewrite (two_declarations p ds ds' (Hr p Hb Hpn) Hd Hd').
  assert (Hr' : forall a, at_or_above t body a -> at_or_above t a p -> like_ruled css css' t t' root a). { intros a Ha Hap. apply (Hr a Ha). eapply rtc_r; [exact Hap|exact Hp]. }
  rewrite (IH Hr' _ Hs'). reflexivity.
Qed.
End two.

Lemma rest_alike k st st' b b' : (forall q, fresh_property q = true -> listed q = false -> place_of q <> PlBackgrounds -> look q 0 st' = look q 0 st) ->
  (fresh_property k = false -> b' = b) -> rest_value k st' b' = rest_value k st b.
Proof.
  intros Hst Hb. destruct (fresh_property k) eqn:Hk.
  - rewrite !fresh_some by done. destruct (start_fresh k Hk) as [[y Hy]|(H1 & H2 & H3)]; [by rewrite !Hy|]. rewrite !H3. by apply Hst.
  - rewrite Hb by done. destruct st as [l e], st' as [l' e']. destruct k; try discriminate Hk; reflexivity.
Qed.
Lemma stays_place k : fresh_property k = false -> place_of k <> PlBackgrounds.
Proof. destruct k; intros H; try discriminate H; discriminate. Qed.

(** what is not on the page keeps its looks *)
Lemma off_page X fuel v i x m t ids a k j : sound v -> v_body v = 1 -> prepare X fuel v i x = Ok (m, t, ids) -> a <> 0 -> ~ at_or_above t 1 a -> place_of k <> PlBackgrounds ->
  shows_at t a k j = shows_at (v_tree v) a k j.
Proof.
  intros Hs Hb Hpr Ha Hoff Hk. unfold prepare in Hpr. apply bindR_Ok in Hpr as ([m0 rs] & Hvb & Hpr). apply bindR_Ok in Hpr as ([ta ids0] & Hup & Hpr).
  apply bindR_Ok in Hpr as (t1 & H1 & Hpr). apply bindR_Ok in Hpr as (t2 & H2 & Hpr). apply bindR_Ok in Hpr as (t3 & H3 & Hpr). injection Hpr as <- <- <-.
  pose proof (so_live _ Hs) as Hl. rewrite (so_root _ Hs) in Hl, H1. rewrite Hb in *.
  pose proof (view_bind_reactions_ok _ _ _ _ _ Hs Hvb) as Hok. destruct (update_trees_ok (x_read_inline_css X) rs (v_tree v) (v_ids v) 0 Hl Hok) as (ta' & ids' & Hup' & Hla & _). rewrite Hup in Hup'. injection Hup' as <- <-.
  assert (Hl1 : live t1 0) by exact (shown_live _ _ _ (content_shown _ _ (set_viewport_same _ _ _ _ H1)) Hla).
  destruct (styles_trace _ _ _ _ _ _ _ _ _ _ _ Hl1 H2) as (_ & Ho & Hal).
  assert (Hal3 : same_content t1 t3). { eapply same_trans; [exact (proj1 Hal)|]. eapply same_trans; [apply run_layout_same|by eapply final_positions_same]. }
  assert (Hoff1 : ~ at_or_above t1 1 a). { intros Hx. apply Hoff. clear - Hx Hal3. unfold at_or_above in *. eapply (rtc_subrel (fun a b => parent_of t1 b = Some a)); [|exact Hx]. intros p c Hpc.
    rewrite <- Hpc. exact (shown_parent _ _ c (content_shown _ _ Hal3)). }
  rewrite (positions_looks _ _ _ _ _ _ _ H3 a k j), (layout_looks X t2 a k j).
  transitivity (shows_at t1 a k j); [|etransitivity; [by eapply viewport_looks|apply drawn_shows; [by eapply update_trees_drawn|done]]].
  unfold shows_at. by rewrite (Ho a Hoff1).
Qed.

Lemma prepared_content X fuel v i x m t ids w o : update X fuel v i x = Ok (w, o) -> prepare X fuel v i x = Ok (m, t, ids) -> same_content t (v_tree w).
Proof.
  intros Hu Hp. unfold update in Hu. rewrite Hp in Hu. cbn [bindR] in Hu. apply bindR_Ok in Hu as ([[ss t2] o'] & Hho & [= <- <-]).
  apply handle_output_sbs in Hho. cbn [fst snd] in Hho. exact (sbs_same _ _ Hho).
Qed.

Section step.
Context (X X' : Externals) (fuel fuel' : nat) (doc : Html) (css css' : Css) (P : NodeId -> Prop).
Context (HX : same_language X X') (Hc : tidy_css css) (Hc' : tidy_css css') (Ho : forall s, x_order X s ≡ₚ map_to_list s) (Ho' : forall s, x_order X' s ≡ₚ map_to_list s).
Context (v0 v0' : View) (hist hist' : list (Input * json)) (v v' : View) (os os' : list Output).
Context (H0 : from_document X fuel doc css = Ok v0) (H : updates X fuel v0 hist = Ok (v, os)) (H0' : from_document X' fuel' doc css' = Ok v0') (H' : updates X' fuel' v0' hist' = Ok (v', os')).
Context (T : twin v v').
Context (i i' : Input) (x : json) (w w' : View) (o o' : Output) (m m' : json) (t t' : Tree) (ids ids' : gmap string NodeId).
Context (Hvp : in_viewport i' = in_viewport i) (Hp : prepare X fuel v i x = Ok (m, t, ids)) (Hu : update X fuel v i x = Ok (w, o)) (Hp' : prepare X' fuel' v' i' x = Ok (m', t', ids')) (Hu' : update X' fuel' v' i' x = Ok (w', o')).
Context (Hstep : forall a, P a -> a <> v_root v /\ (a <> v_body v -> forall p, parent_of t a = Some p -> P p) /\
  (at_or_above t (v_body v) a -> fair css v t a /\ fair css' v' t' a /\ at_rest (v_tree v) a /\ at_rest (v_tree v') a /\ like_ruled css css' t t' (v_root v) a)).
Context (Hbefore : forall a k j, P a -> listed k = true \/ j = 0 -> fresh_property k = false -> shows_at (v_tree v') a k j = shows_at (v_tree v) a k j).

Lemma step_bare : bare t' = bare t.
Proof.
  pose proof (tw_tree _ _ (update_twin _ _ _ _ _ _ _ _ _ _ _ _ _ HX T Hu Hu')) as E.
  rewrite (bare_content _ _ (prepared_content _ _ _ _ _ _ _ _ _ _ Hu Hp)), (bare_content _ _ (prepared_content _ _ _ _ _ _ _ _ _ _ Hu' Hp')). exact E.
Qed.
Lemma step_same a : P a -> at_or_above t 1 a -> forall k j, listed k = true \/ j = 0 -> shows_at t' a k j = shows_at t a k j.
Proof.
  pose proof step_bare as E.
  pose proof (reached_sound _ _ _ _ _ _ _ _ H0 H) as Hs. pose proof (reached_sound _ _ _ _ _ _ _ _ H0' H') as Hs'.
  destruct (kept_history _ _ _ _ _ _ _ _ H0 H) as (_ & _ & _ & _ & _ & _ & _ & Hb & _). destruct (kept_history _ _ _ _ _ _ _ _ H0' H') as (_ & _ & _ & _ & _ & _ & _ & Hb' & _).
  destruct (prepare_live _ _ _ _ _ _ _ _ Hs Hp) as [Hl _].
  assert (Hroot : paint_at t 0 = paint_at t' 0).
  { rewrite (prepare_root _ _ _ _ _ _ _ _ Hs Hb Hp), (prepare_root _ _ _ _ _ _ _ _ Hs' Hb' Hp'). by rewrite (root_painted _ _ _ _ _ _ _ _ H0 H), (root_painted _ _ _ _ _ _ _ _ H0' H'). }
  rewrite (so_root _ Hs), Hb in Hstep.
  assert (Hup : forall a, P a -> at_or_above t 1 a -> forall b, at_or_above t 1 b -> at_or_above t b a -> P b).
  { intros b Pb Hb1 c Hc1 Hcb. revert Pb Hb1. unfold at_or_above in Hcb. induction Hcb as [d|c d b Hcd Hdb IH]; intros Pb Hb1; [exact Pb|].
    assert (Hd : at_or_above t 1 d) by (eapply rtc_r; [exact Hc1|exact Hcd]). specialize (IH Hd Pb Hb1).
    apply (proj1 (proj2 (Hstep d IH))); [|exact Hcd]. intros ->. pose proof (above_le _ _ _ _ Hl Hc1) as Hx. apply (live_parent _ _ Hl) in Hcd. destruct (live_newer _ _ Hl c 1 ltac:(by left)). lia. }
  intros Pa Ha. revert Pa. pattern a. revert a Ha.
  assert (K : forall a, at_or_above t 1 a -> (forall p, a <> 1 -> parent_of t a = Some p -> P p -> forall k j, listed k = true \/ j = 0 -> shows_at t' p k j = shows_at t p k j) ->
    P a -> forall k j, listed k = true \/ j = 0 -> shows_at t' a k j = shows_at t a k j).
  { intros a Ha Hpar Pa k j Hkj. destruct (Hstep a Pa) as (_ & Hcl & Hon). destruct (Hon Ha) as ((F1 & F2 & F3 & F4) & (F1' & F2' & F3' & F4') & R & R' & Hsr).
    pose proof (cascade_page _ _ _ _ _ _ _ _ _ _ _ _ _ a H0 H Hp Hc F1 Ho F2 R F3 F4) as (ds & vars & p & parent & D & V & Q & Xp & pe & Ep & C).
    pose proof (cascade_page _ _ _ _ _ _ _ _ _ _ _ _ _ a H0' H' Hp' Hc' F1' Ho' F2' R' F3' F4') as (ds' & vars' & p' & parent' & D' & V' & Q' & Xp' & pe' & Ep' & C').
    rewrite (so_root _ Hs), Hb in *. rewrite (so_root _ Hs'), Hb' in *.
    assert (ds' = ds) as -> by exact (two_declarations t t' E css css' 0 a ds ds' Hsr D D').
    assert (vars' = vars) as ->.
    { refine (two_scopes t t' E css css' 0 1 a vars V _ vars' V'). intros b Hb1 Hba. pose proof (Hup a Pa Ha b Hb1 Hba) as Pb. destruct (Hstep b Pb) as (_ & _ & G). by destruct (G Hb1) as (_ & _ & _ & _ & ?). }
    rewrite (bare_parent t t' E) in Q'. assert (p' = p) as -> by congruence.
    assert (Hlook : forall q, fresh_property q = true -> listed q = false -> place_of q <> PlBackgrounds -> look q 0 (n_style parent', pe') = look q 0 (n_style parent, pe)).
    { intros q Hq Hlq Hpq. assert (Hx : shows_at t' p q 0 = shows_at t p q 0).
      { destruct (decide (a = 1)) as [->|Hne].
        - assert (p = 0) as ->. { apply (live_parent _ _ Hl) in Q. destruct (live_newer _ _ Hl p 1 ltac:(by left)). lia. } by apply paint_shows.
        - apply (Hpar p Hne Q); [by apply Hcl|by right]. }
      unfold shows_at in Hx. rewrite Xp, Xp' in Hx. cbn [mbind option_bind] in Hx. rewrite Ep, Ep' in Hx. exact Hx. }
    assert (Hsz : sizes_at (in_viewport i') t' 1 a = sizes_at (in_viewport i) t 1 a).
    { unfold sizes_at. rewrite Hvp. destruct (decide (a = 1)); [done|]. rewrite (bare_parent t t' E), Q. unfold get_ctx. rewrite Xp, Xp'. cbn [mbind option_bind]. rewrite Ep, Ep'.
      pose proof (Hlook KFontSize eq_refl eq_refl ltac:(discriminate)) as G1. pose proof (Hlook KColor eq_refl eq_refl ltac:(discriminate)) as G2. cbn [look] in G1, G2.
      assert (K1 : f_size (e_font pe') = f_size (e_font pe)) by (by injection G1). assert (K2 : e_color pe' = e_color pe) by (by injection G2). by rewrite K1, K2. }
    assert (Hrest : rest_value k (n_style parent', pe') (shows_at (v_tree v') a k j) = rest_value k (n_style parent, pe) (shows_at (v_tree v) a k j)).
    { apply rest_alike; [exact Hlook|]. intros Hf. by apply Hbefore. }
    destruct (C k j Hkj) as (A1 & A2 & A3). destruct (C' k j Hkj) as (A1' & A2' & _). cbv zeta in *. rewrite Hrest, Hsz in *.
    destruct A3 as [[y W]|U]; [by rewrite (A1' y W), (A1 y W)|by rewrite (A2' U), (A2 U)]. }
  intros a Ha. cbv beta. pattern a. refine (rtc_ind_r _ 1 _ _ a Ha).
  - apply K; [reflexivity|]. intros p Hne. done.
  - intros p c Hpb Hpc IH. apply K; [unfold at_or_above; eapply rtc_r; [exact Hpb|exact Hpc]|]. intros q _ Hq Pq. assert (q = p) as -> by congruence. by apply IH.
Qed.
Lemma step_after a : P a -> forall k j, listed k = true \/ j = 0 -> fresh_property k = false \/ at_or_above t (v_body v) a -> shows_at (v_tree w') a k j = shows_at (v_tree w) a k j.
Proof.
  intros Pa k j Hkj Hf. rewrite (proj2 (update_prepared _ _ _ _ _ _ _ _ _ _ Hu Hp) a k j), (proj2 (update_prepared _ _ _ _ _ _ _ _ _ _ Hu' Hp') a k j).
  pose proof (reached_sound _ _ _ _ _ _ _ _ H0 H) as Hs. pose proof (reached_sound _ _ _ _ _ _ _ _ H0' H') as Hs'.
  destruct (kept_history _ _ _ _ _ _ _ _ H0 H) as (_ & _ & _ & _ & _ & _ & _ & Hb & _). destruct (kept_history _ _ _ _ _ _ _ _ H0' H') as (_ & _ & _ & _ & _ & _ & _ & Hb' & _).
  rewrite Hb in Hf. pose proof step_bare as E.
  destruct (Classical_Prop.classic (at_or_above t 1 a)) as [Ha|Ha]; [by apply step_same|].
  destruct Hf as [Hf|Hf]; [|done].
  assert (Ha' : ~ at_or_above t' 1 a) by (intros Hx; apply Ha; exact (bare_above t' t (eq_sym E) 1 a Hx)).
  assert (Hne : a <> 0) by (rewrite <- (so_root _ Hs); exact (proj1 (Hstep a Pa))).
  rewrite (off_page _ _ _ _ _ _ _ _ a k j Hs Hb Hp Hne Ha (stays_place k Hf)), (off_page _ _ _ _ _ _ _ _ a k j Hs' Hb' Hp' Hne Ha' (stays_place k Hf)).
  by apply Hbefore.
Qed.
End step.

Lemma drawn_back t t' : same_drawn t t' -> same_drawn t' t.
Proof. intros H n. symmetry. apply H. Qed.
Lemma load_looks X X' fuel fuel' doc css css' v v' : same_language X X' -> from_document X fuel doc css = Ok v -> from_document X' fuel' doc css' = Ok v' ->
  forall a k j, place_of k <> PlBackgrounds -> shows_at (v_tree v') a k j = shows_at (v_tree v) a k j.
Proof.
  intros (L1 & L2 & L3 & L4) H H'. unfold from_document in H, H'. rewrite L2, L3, L4 in H'. destruct (scan_document _ _) as [templates body].
  apply bindR_Ok in H as ([[r root] b] & Hr & H). apply bindR_Ok in H' as ([[r' root'] b'] & Hr' & H'). pose proof (render_twice _ _ _ _ _ _ _ _ Hr Hr') as E. injection E as -> -> ->. clear Hr Hr'.
  apply bindR_Ok in H as (d & Hd & H). rewrite Hd in H'. cbn [bindR] in H'.
  apply bindR_Ok in H as (t & Ht & H). apply bindR_Ok in H' as (t' & Ht' & H'). apply stylesheet_drawn in Ht, Ht'.
  apply bindR_Ok in H as ([t2 ids] & Hu & H). apply bindR_Ok in H' as ([t2' ids'] & Hu' & H'). injection H as <-. injection H' as <-. cbn [v_tree].
  unfold apply_default_bindings_state in Hu, Hu'. apply update_trees_drawn in Hu, Hu'.
  intros a k j Hk. rewrite (drawn_shows _ _ a k j Hu' Hk), (drawn_shows _ _ a k j Ht' Hk), (drawn_shows _ _ a k j Hu Hk), (drawn_shows _ _ a k j Ht Hk). reflexivity.
Qed.

Section sides.
Context (X X' : Externals) (fuel fuel' : nat) (doc : Html) (css css' : Css) (P : NodeId -> Prop).
Context (HX : same_language X X') (Hc : tidy_css css) (Hc' : tidy_css css') (Ho : forall s, x_order X s ≡ₚ map_to_list s) (Ho' : forall s, x_order X' s ≡ₚ map_to_list s).
Lemma sides v v' : side_by_side X X' fuel fuel' doc css css' P v v' ->
  exists v0 v0' hist hist' os os', from_document X fuel doc css = Ok v0 /\ updates X fuel v0 hist = Ok (v, os) /\ from_document X' fuel' doc css' = Ok v0' /\ updates X' fuel' v0' hist' = Ok (v', os') /\
    twin v v' /\ forall a k j, P a -> listed k = true \/ j = 0 -> fresh_property k = false -> shows_at (v_tree v') a k j = shows_at (v_tree v) a k j.
Proof.
  induction 1 as [v v' H H'|v v' i i' x w w' o o' m m' t t' ids ids' Hsd IH Hvp Hp Hu Hp' Hu' Hstep].
  - exists v, v', [], [], [], []. split; [exact H|]. split; [reflexivity|]. split; [exact H'|]. split; [reflexivity|]. split; [by eapply load_twin|].
    intros a k j _ _ Hk. apply (load_looks _ _ _ _ _ _ _ _ _ HX H H'). by apply stays_place.
  - destruct IH as (v0 & v0' & hist & hist' & os & os' & H0 & H1 & H0' & H1' & T & Hb).
    exists v0, v0', (hist ++ [(i, x)]), (hist' ++ [(i', x)]), (os ++ [o]), (os' ++ [o']).
    split; [exact H0|]. split; [exact (updates_more _ _ _ _ _ _ _ _ _ _ H1 Hu)|]. split; [exact H0'|]. split; [exact (updates_more _ _ _ _ _ _ _ _ _ _ H1' Hu')|].
    split; [exact (update_twin _ _ _ _ _ _ _ _ _ _ _ _ _ HX T Hu Hu')|].
    intros a k j Pa Hkj Hf. eapply (step_after X X' fuel fuel' doc css css' P HX Hc Hc' Ho Ho' v0 v0' hist hist' v v' os os' H0 H1 H0' H1' T i i' x w w' o o' m m' t t' ids ids' Hvp Hp Hu Hp' Hu' Hstep Hb a Pa k j Hkj).
    by left.
Qed.
Lemma sides_local v v' i i' x w w' o o' m m' t t' ids ids' : side_by_side X X' fuel fuel' doc css css' P v v' -> in_viewport i' = in_viewport i ->
  prepare X fuel v i x = Ok (m, t, ids) -> update X fuel v i x = Ok (w, o) -> prepare X' fuel' v' i' x = Ok (m', t', ids') -> update X' fuel' v' i' x = Ok (w', o') ->
  (forall a, P a -> a <> v_root v /\ (a <> v_body v -> forall p, parent_of t a = Some p -> P p) /\
     (at_or_above t (v_body v) a -> fair css v t a /\ fair css' v' t' a /\ at_rest (v_tree v) a /\ at_rest (v_tree v') a /\ like_ruled css css' t t' (v_root v) a)) ->
  forall a, P a -> forall k j, listed k = true \/ j = 0 -> fresh_property k = false \/ at_or_above t (v_body v) a -> shows_at (v_tree w') a k j = shows_at (v_tree w) a k j.
Proof.
  intros Hsd Hvp Hp Hu Hp' Hu' Hstep a Pa k j Hkj Hf. destruct (sides _ _ Hsd) as (v0 & v0' & hist & hist' & os & os' & H0 & H1 & H0' & H1' & T & Hb).
  exact (step_after X X' fuel fuel' doc css css' P HX Hc Hc' Ho Ho' v0 v0' hist hist' v v' os os' H0 H1 H0' H1' T i i' x w w' o o' m m' t t' ids ids' Hvp Hp Hu Hp' Hu' Hstep Hb a Pa k j Hkj Hf).
Qed.
End sides.

(** ** Rules that do not ask for states *)
Section contents.
Context (t t' : Tree) (C : same_contents t t').
Lemma contents_parent n : parent_of t' n = parent_of t n.
Proof.
  specialize (C n). unfold parent_of. destruct (t_nodes t' !! n) as [x|], (t_nodes t !! n) as [y|]; try discriminate C; [|reflexivity].
  cbn [fmap option_fmap option_map mbind option_bind] in *. apply (inj Some) in C. exact (f_equal (fun z => fst (fst z)) C).
Qed.
Lemma contents_attached n : attached t' n = attached t n.
Proof.
  specialize (C n). unfold attached. destruct (t_nodes t' !! n) as [x|], (t_nodes t !! n) as [y|]; try discriminate C; [|reflexivity].
  cbn [fmap option_fmap option_map mbind option_bind] in *. apply (inj Some) in C. exact (f_equal (fun z => snd (fst z)) C).
Qed.
Lemma contents_says n e : get_ctx t n = Some e -> exists e', get_ctx t' n = Some e' /\ e_tag e' = e_tag e /\ e_attrs e' = e_attrs e.
Proof.
  specialize (C n). unfold get_ctx. destruct (t_nodes t' !! n) as [x|], (t_nodes t !! n) as [y|]; try discriminate C; [|discriminate].
  cbn [fmap option_fmap option_map mbind option_bind] in *. apply (inj Some) in C. apply (f_equal snd) in C. cbn [snd] in C. intros He. rewrite He in C.
  destruct (n_ctx x) as [e'|]; [|discriminate C]. cbn [fmap option_fmap option_map] in C. apply (inj Some) in C. unfold says in C. exists e'. split; [reflexivity|].
  split; [exact (f_equal (fun z => fst (fst (fst (fst z)))) C)|exact (f_equal (fun z => snd (fst (fst z))) C)].
Qed.
Lemma contents_selects root sel n : css_selects t root sel n -> (forall name, ~ SPseudoClass name ∈ sel) -> css_selects t' root sel n.
Proof.
  assert (S1 : forall n s, (forall name, s <> SPseudoClass name) -> css_simple t root n s -> css_simple t' root n s).
  { intros m s Hs (e & He & Hx). destruct (contents_says m e He) as (e' & He' & Ht & Ha). exists e'. split; [exact He'|]. destruct s; rewrite ?Ht, ?Ha; try exact Hx. destruct (Hs s eq_refl). }
  assert (S2 : forall n l, (forall name, ~ SPseudoClass name ∈ l) -> Forall (css_simple t root n) l -> Forall (css_simple t' root n) l).
  { intros m l Hl H. apply list.Forall_forall. intros s Hs. apply S1; [intros name ->; exact (Hl name Hs)|]. rewrite list.Forall_forall in H. exact (H s Hs). }
  induction 1 as [compound n H1 H2|left c compound m n Hs IH Hr H1 H2]; intros Hn.
  - apply selects_compound; [exact H1|by apply S2].
  - apply selects_combined with m.
    + apply IH. intros name Hx. apply (Hn name). apply elem_of_app. by left.
    + unfold css_related in *. destruct (Ascii.eqb c ">"); [by rewrite contents_parent|]. destruct (Ascii.eqb c "+"); [rewrite contents_parent; destruct Hr as (p & pre & post & A & B); exists p, pre, post; by rewrite contents_attached|].
      destruct (Ascii.eqb c "~"); [rewrite contents_parent; destruct Hr as (p & pre & mid & post & A & B); exists p, pre, mid, post; by rewrite contents_attached|].
      destruct (Ascii.eqb c " "); [|exact Hr]. clear - Hr C. induction Hr as [a b Hab|a b d Hab Hbd IHr]; [apply tc_once; by rewrite contents_parent|eapply tc_l; [by rewrite contents_parent|exact IHr]].
    + exact H1.
    + apply S2; [|exact H2]. intros name Hx. apply (Hn name). apply elem_of_app. right. by apply elem_of_cons; right.
Qed.
Lemma contents_applies root r n : stateless r -> css_applies t root r n -> css_applies t' root r n.
Proof. intros Hr (sel & Hs & Hx). exists sel. split; [exact Hs|]. apply contents_selects; [exact Hx|]. intros name Hn. exact (Hr sel name Hs Hn). Qed.
End contents.
Lemma contents_sym t t' : same_contents t t' -> same_contents t' t.
Proof. intros C n. symmetry. apply C. Qed.
Lemma further_declared t t' root n rules rules' : same_contents t t' -> Forall stateless rules -> extended (fun r => ~ css_applies t' root r n) rules rules' ->
  exists ds, declared t root n rules ds /\ declared t' root n rules' ds.
Proof.
  intros C Hs He. induction He as [|r rules rules' He IH|r rules rules' Hr He IH].
  - exists []. split; constructor.
  - apply list.Forall_cons in Hs as [Hr Hs]. destruct (IH Hs) as (ds & D & D'). destruct (Classical_Prop.classic (css_applies t root r n)) as [Ha|Ha].
    + exists (s_declaration r ++ ds). split; apply declared_yes; try assumption. exact (contents_applies t t' C root r n Hr Ha).
    + exists ds. split; apply declared_no; try assumption. intros Ha'. apply Ha. exact (contents_applies t' t (contents_sym _ _ C) root r n Hr Ha').
  - destruct (IH Hs) as (ds & D & D'). exists ds. split; [exact D|]. by apply declared_no.
Qed.
Lemma sides_contents X X' fuel fuel' doc css css' P v v' i i' x m m' t t' ids ids' w w' o o' : same_language X X' -> tidy_css css -> tidy_css css' -> (forall s, x_order X s ≡ₚ map_to_list s) -> (forall s, x_order X' s ≡ₚ map_to_list s) ->
  side_by_side X X' fuel fuel' doc css css' P v v' -> prepare X fuel v i x = Ok (m, t, ids) -> update X fuel v i x = Ok (w, o) -> prepare X' fuel' v' i' x = Ok (m', t', ids') -> update X' fuel' v' i' x = Ok (w', o') -> same_contents t t'.
Proof.
  intros HX Hc Hc' Ho Ho' Hsd Hp Hu Hp' Hu'. destruct (sides _ _ _ _ _ _ _ _ HX Hc Hc' Ho Ho' _ _ Hsd) as (v0 & v0' & hist & hist' & os & os' & _ & _ & _ & _ & T & _).
  apply bare_contents. exact (step_bare X X' fuel fuel' HX v v' T i i' x w w' o o' m m' t t' ids ids' Hp Hu Hp' Hu').
Qed.
Section further.
Context (X X' : Externals) (fuel fuel' : nat) (doc : Html) (css css' : Css) (P : NodeId -> Prop).
Context (HX : same_language X X') (Hc : tidy_css css) (Hc' : tidy_css css') (Ho : forall s, x_order X s ≡ₚ map_to_list s) (Ho' : forall s, x_order X' s ≡ₚ map_to_list s).
Context (Hst : Forall stateless (css_styles css)).
Lemma further_ruled v v' i i' x m m' t t' ids ids' w w' o o' : side_by_side X X' fuel fuel' doc css css' P v v' -> prepare X fuel v i x = Ok (m, t, ids) -> update X fuel v i x = Ok (w, o) -> prepare X' fuel' v' i' x = Ok (m', t', ids') -> update X' fuel' v' i' x = Ok (w', o') ->
  (forall a, P a -> a <> v_root v /\ (a <> v_body v -> forall p, parent_of t a = Some p -> P p) /\
     (at_or_above t (v_body v) a -> fair css v t a /\ fair css' v' t' a /\ at_rest (v_tree v) a /\ at_rest (v_tree v') a /\ extended (fun r => ~ css_applies t' (v_root v) r a) (css_styles css) (css_styles css'))) ->
  (forall a, P a -> a <> v_root v /\ (a <> v_body v -> forall p, parent_of t a = Some p -> P p) /\
     (at_or_above t (v_body v) a -> fair css v t a /\ fair css' v' t' a /\ at_rest (v_tree v) a /\ at_rest (v_tree v') a /\ like_ruled css css' t t' (v_root v) a)).
Proof.
  intros Hsd Hp Hu Hp' Hu' Hstep a Pa. destruct (Hstep a Pa) as (H1 & H2 & H3). split; [exact H1|]. split; [exact H2|]. intros Ha. destruct (H3 Ha) as (A1 & A2 & A3 & A4 & A5).
  split; [exact A1|]. split; [exact A2|]. split; [exact A3|]. split; [exact A4|].
  exact (further_declared t t' (v_root v) a _ _ (sides_contents _ _ _ _ _ _ _ _ _ _ _ _ _ _ _ _ _ _ _ _ _ _ _ HX Hc Hc' Ho Ho' Hsd Hp Hu Hp' Hu') Hst A5).
Qed.
Lemma further_sides v v' : with_further_rules X X' fuel fuel' doc css css' P v v' -> side_by_side X X' fuel fuel' doc css css' P v v'.
Proof.
  induction 1 as [v v' H H'|v v' i i' x w w' o o' m m' t t' ids ids' Hsd IH Hvp Hp Hu Hp' Hu' Hstep]; [exact (side_loaded _ _ _ _ _ _ _ _ _ _ H H')|].
  exact (side_more _ _ _ _ _ _ _ _ _ _ _ _ _ _ _ _ _ _ _ _ _ _ _ IH Hvp Hp Hu Hp' Hu' (further_ruled _ _ _ _ _ _ _ _ _ _ _ _ _ _ _ IH Hp Hu Hp' Hu' Hstep)).
Qed.
End further.

(** ** The texts in these elements *)
Lemma contents_contentless t t' m : same_contents t t' -> contentless t' m -> contentless t m.
Proof.
  intros C (e' & He' & Hx). specialize (C m). unfold get_ctx in *. destruct (t_nodes t' !! m) as [x|] eqn:Ex; [|discriminate He']. destruct (t_nodes t !! m) as [y|] eqn:Ey; [|discriminate C].
  cbn [fmap option_fmap option_map mbind option_bind] in *. apply (inj Some) in C. apply (f_equal snd) in C. cbn [snd] in C. rewrite He' in C. destruct (n_ctx y) as [e|] eqn:Hy; [|discriminate C].
  cbn [fmap option_fmap option_map] in C. apply (inj Some) in C. unfold says in C. exists e. split; [unfold get_ctx; rewrite Ey; exact Hy|].
  assert (e_text e' = e_text e) as <- by congruence. assert (e_tag e' = e_tag e) as <- by congruence. exact Hx.
Qed.
Lemma contents_text t t' n e spans : same_contents t t' -> get_ctx t n = Some e -> e_text e = Some spans -> exists e', get_ctx t' n = Some e' /\ e_text e' = Some spans.
Proof.
  intros C He Hx. specialize (C n). unfold get_ctx in *. destruct (t_nodes t' !! n) as [x|] eqn:Ex, (t_nodes t !! n) as [y|] eqn:Ey; try discriminate C; [|discriminate He].
  cbn [fmap option_fmap option_map mbind option_bind] in *. apply (inj Some) in C. apply (f_equal snd) in C. cbn [snd] in C. rewrite He in C. destruct (n_ctx x) as [e'|]; [|discriminate C].
  cbn [fmap option_fmap option_map] in C. apply (inj Some) in C. unfold says in C. exists e'. split; [reflexivity|]. rewrite <- Hx. congruence.
Qed.
Section texts.
Context (X X' : Externals) (fuel fuel' : nat) (doc : Html) (css css' : Css) (P : NodeId -> Prop).
Context (HX : same_language X X') (Hc : tidy_css css) (Hc' : tidy_css css') (Ho : forall s, x_order X s ≡ₚ map_to_list s) (Ho' : forall s, x_order X' s ≡ₚ map_to_list s).
Lemma sides_texts v v' i i' x w w' o o' m m' t t' ids ids' : side_by_side X X' fuel fuel' doc css css' P v v' -> in_viewport i' = in_viewport i ->
  prepare X fuel v i x = Ok (m, t, ids) -> update X fuel v i x = Ok (w, o) -> prepare X' fuel' v' i' x = Ok (m', t', ids') -> update X' fuel' v' i' x = Ok (w', o') ->
  (forall a, P a -> a <> v_root v /\ (a <> v_body v -> forall p, parent_of t a = Some p -> P p) /\
     (at_or_above t (v_body v) a -> fair css v t a /\ fair css' v' t' a /\ at_rest (v_tree v) a /\ at_rest (v_tree v') a /\ like_ruled css css' t t' (v_root v) a)) ->
  forall n e spans p k, at_or_above t (v_body v) n -> get_ctx t n = Some e -> e_text e = Some spans -> parent_of t n = Some p -> P p -> at_or_above t (v_body v) p ->
    (forall a, at_or_above t (v_body v) a -> above t a n -> ~ contentless t a) -> inherits k = true ->
    shows_at (v_tree w') n k 0 = shows_at (v_tree w) n k 0.
Proof.
  intros Hsd Hvp Hp Hu Hp' Hu' Hstep n e spans p k Hn He Hx Hpar Pp Hop Hcl Hk.
  pose proof (sides_contents _ _ _ _ _ _ _ _ _ _ _ _ _ _ _ _ _ _ _ _ _ _ _ HX Hc Hc' Ho Ho' Hsd Hp Hu Hp' Hu') as C.
  pose proof (sides_local X X' fuel fuel' doc css css' P HX Hc Hc' Ho Ho' _ _ _ _ _ _ _ _ _ _ _ _ _ _ _ Hsd Hvp Hp Hu Hp' Hu' Hstep p Pp k 0 (or_intror eq_refl) (or_intror Hop)) as L.
  destruct (sides _ _ _ _ _ _ _ _ HX Hc Hc' Ho Ho' _ _ Hsd) as (v0 & v0' & hist & hist' & os & os' & H0 & H1 & H0' & H1' & T & _).
  destruct (contents_text _ _ _ _ _ C He Hx) as (e' & He' & Hx').
  assert (Hab : forall a b, at_or_above t a b <-> at_or_above t' a b).
  { intros a b. unfold at_or_above. split; apply rtc_subrel; intros q r Hqr; [by rewrite (contents_parent t t' C)|by rewrite <- (contents_parent t t' C)]. }
  rewrite (proj2 (update_prepared _ _ _ _ _ _ _ _ _ _ Hu Hp) p k 0), (proj2 (update_prepared _ _ _ _ _ _ _ _ _ _ Hu' Hp') p k 0) in L.
  rewrite (proj2 (update_prepared _ _ _ _ _ _ _ _ _ _ Hu Hp) n k 0), (proj2 (update_prepared _ _ _ _ _ _ _ _ _ _ Hu' Hp') n k 0).
  rewrite (proj1 (text_page _ _ _ _ _ _ _ _ _ _ _ _ _ _ _ _ _ _ H0 H1 Hp Hn He Hx Hpar Hcl Hk)).
  assert (Hcl' : forall a, at_or_above t' (v_body v') a -> above t' a n -> ~ contentless t' a).
  { intros a Ha Hb Hd. apply (Hcl a); [rewrite (tw_body _ _ T) in Ha; by apply Hab| |exact (contents_contentless _ _ _ C Hd)].
    clear - Hb C. unfold above in *. induction Hb as [a b Hab|a b d Hab Hbd IHr]; [apply tc_once; by rewrite <- (contents_parent t t' C)|eapply tc_l; [by rewrite <- (contents_parent t t' C)|exact IHr]]. }
  assert (Hn' : at_or_above t' (v_body v') n) by (rewrite (tw_body _ _ T); by apply Hab).
  assert (Hpar' : parent_of t' n = Some p) by (by rewrite (contents_parent t t' C)).
  rewrite (proj1 (text_page _ _ _ _ _ _ _ _ _ _ _ _ _ _ _ _ _ _ H0' H1' Hp' Hn' He' Hx' Hpar' Hcl' Hk)). exact L.
Qed.
End texts.
