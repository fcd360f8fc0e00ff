(** * Styling with the rules sorted out at load time is styling with all rules
      matched afresh (C30). *)
From Coq Require Import ZArith Lia.
From stdpp Require Import gmap.
From RecordUpdate Require Import RecordUpdate.
From Verif Require Import Str StrFacts F32 Res ResFacts Json PropKey Html Css Element Tree ViewModel Render Update Matching
  Cascade Initial Animation Apply Styling Events View
  SpecLive SpecLog SpecView SpecRender SpecTree FrameFacts
  RenderTree RenderNode RenderProps RenderAny RenderMore LiveFacts LiveUpdate LiveView LiveHistory LiveOrder
  SpecSelect SelectFacts SelectLive.

Section afresh.
  Context (sheet : list Style).
  Notation fresh := (afresh_element sheet).
  Notation freshen := (afresh sheet).

  Lemma fresh_node t n : t_nodes (freshen t) !! n = set n_ctx (fmap fresh) <$> t_nodes t !! n.
  Proof. unfold afresh. cbn. by rewrite lookup_fmap. Qed.
  Lemma fresh_ctx t n : get_ctx (freshen t) n = fresh <$> get_ctx t n.
  Proof. unfold get_ctx. rewrite fresh_node. by destruct (t_nodes t !! n). Qed.
  Lemma fresh_get t n : get_element (freshen t) n = map_res fresh (get_element t n).
  Proof. unfold get_element. rewrite fresh_ctx. by destruct (get_ctx t n). Qed.
  Lemma fresh_parent t n : parent (freshen t) n = parent t n.
  Proof. unfold parent, get_node. rewrite fresh_node. by destruct (t_nodes t !! n). Qed.
  Lemma fresh_children t n : children (freshen t) n = children t n.
  Proof. unfold children, get_node. rewrite fresh_node. by destruct (t_nodes t !! n). Qed.
  Lemma fresh_style t n : style (freshen t) n = style t n.
  Proof. unfold style, get_node. rewrite fresh_node. by destruct (t_nodes t !! n). Qed.
  Lemma fresh_put t n e : put_element n (fresh e) (freshen t) = freshen (put_element n e t).
  Proof.
    unfold afresh, put_element. destruct t as [nodes next]. cbn. refine (f_equal (fun x => mkTree x next) _). apply map_eq. intros m. unfold set. cbn [t_nodes t_next].
    rewrite lookup_fmap.
    destruct (decide (n = m)) as [<-|Hne]; [|by rewrite !lookup_alter_ne, lookup_fmap by done].
    rewrite !lookup_alter, lookup_fmap. by destruct (nodes !! n).
  Qed.
  Lemma fresh_set_style t n l : set_style n l (freshen t) = map_res freshen (set_style n l t).
  Proof.
    unfold set_style, get_node. rewrite fresh_node. destruct (t_nodes t !! n) as [x|]; cbn; [|done]. f_equal.
    unfold afresh, put_node. destruct t as [nodes next]. cbn. refine (f_equal (fun x => mkTree x next) _). unfold set. cbn [t_nodes t_next]. by rewrite fmap_insert.
  Qed.

  Lemma fresh_simple s e : match_simple_selector view_pseudo s (fresh e) = match_simple_selector view_pseudo s e.
  Proof. by destruct s. Qed.
  Lemma fresh_next debug c n t : find_next_target debug c n (freshen t) = find_next_target debug c n t.
  Proof.
    unfold find_next_target. rewrite fresh_parent. destruct (Ascii.eqb c ">"); [done|]. destruct (Ascii.eqb c "+"); [|done].
    destruct (parent t n) as [[p|]| | |]; cbn [bindR]; try done. by rewrite fresh_children.
  Qed.
  Lemma fresh_components debug t l : forall n e,
    match_components debug view_pseudo l n (fresh e) (freshen t) = match_components debug view_pseudo l n e t.
  Proof.
    induction l as [|s l IH]; intros n e; cbn [match_components]; [done|]. destruct (as_combinator s) as [c|].
    - rewrite fresh_next. destruct (find_next_target debug c n t) as [[m|]| | |]; cbn [bindR]; try done.
      rewrite fresh_ctx. destruct (get_ctx t m) as [x|]; [|done]. apply IH.
    - rewrite fresh_simple. destruct (match_simple_selector view_pseudo s e); [by apply IH|done].
  Qed.
  Lemma fresh_match debug t s n : match_style debug view_pseudo s n (freshen t) = match_style debug view_pseudo s n t.
  Proof.
    unfold match_style. induction (s_selectors s) as [|sel sels IH]; cbn [match_any]; [done|].
    assert (He : match_complex_selector debug view_pseudo sel n (freshen t) = match_complex_selector debug view_pseudo sel n t).
    { unfold match_complex_selector. rewrite fresh_ctx. destruct (get_ctx t n) as [x|]; [|done]. apply fresh_components. }
    rewrite He. destruct (match_complex_selector debug view_pseudo sel n t) as [[|]| | |]; cbn [bindR]; done.
  Qed.
  Lemma fresh_rules fuel debug t n l : forall st, cascade_rules fuel debug n (freshen t) l st = cascade_rules fuel debug n t l st.
  Proof.
    unfold cascade_rules. induction l as [|[s|s] l IH]; intros st; cbn [foldR]; [done|..].
    - destruct (compute_declaration_block fuel (s_declaration s) st); cbn [bindR]; [apply IH|done..].
    - rewrite fresh_match. destruct (match_style debug view_pseudo s n t) as [b| | |]; cbn [bindR]; [|done..]. destruct b; [|apply IH].
      destruct (compute_declaration_block fuel (s_declaration s) st); cbn [bindR]; [apply IH|done..].
  Qed.

  Definition both (st : LE) : LE := (fst st, fresh (snd st)).
  Lemma both_assign {A} (o : option A) (f : A -> LE -> LE) st : (forall a, f a (both st) = both (f a st)) -> assign o f (both st) = both (assign o f st).
  Proof. by destruct o; cbn. Qed.
  Lemma both_on_e f st : (forall e, f (fresh e) = fresh (f e)) -> on_e f (both st) = both (on_e f st).
  Proof. intros H. unfold on_e, both. cbn [fst snd]. by rewrite H. Qed.
  Lemma both_on_l f st : on_l f (both st) = both (on_l f st).
  Proof. done. Qed.
  Lemma both_touch i st : touch_bg i (both st) = both (touch_bg i st).
  Proof. apply both_on_e. done. Qed.
  Lemma both_bg i f st : set_bg i f (both st) = both (set_bg i f st).
  Proof. apply both_on_e. done. Qed.
  Lemma both_tr i f st : set_tr i f (both st) = both (set_tr i f st).
  Proof. apply both_on_e. done. Qed.
  Lemma both_an i f st : set_an i f (both st) = both (set_an i f st).
  Proof. apply both_on_e. done. Qed.
  Lemma both_apply sizes key i v st : apply sizes key i v (both st) = both (apply sizes key i v st).
  Proof.
    destruct key; cbn [apply];
    lazymatch goal with
    | |- both _ = both _ => reflexivity
    | |- assign _ _ (touch_bg _ _) = _ => rewrite both_touch; apply both_assign; intros a; apply both_bg
    | |- assign _ _ _ = _ => apply both_assign; intros a;
        lazymatch goal with
        | |- on_l _ (on_e _ _) = _ => rewrite both_on_e by (intros e; reflexivity); reflexivity
        | |- on_l _ _ = _ => reflexivity
        | |- set_tr _ _ _ = _ => apply both_tr
        | |- set_an _ _ _ = _ => apply both_an
        | |- _ => apply both_on_e; intros e; reflexivity
        end
    | |- _ => idtac
    end.
    destruct v; try reflexivity; destruct (String.eqb _ _); reflexivity.
  Qed.
  Lemma fresh_apply sizes key i v l e : apply sizes key i v (l, fresh e) =
    (fst (apply sizes key i v (l, e)), fresh (snd (apply sizes key i v (l, e)))).
  Proof. exact (both_apply sizes key i v (l, e)). Qed.
  Lemma fresh_apply_all sizes ps : forall l e, apply_all sizes ps (l, fresh e) =
    (fst (apply_all sizes ps (l, e)), fresh (snd (apply_all sizes ps (l, e)))).
  Proof.
    unfold apply_all. induction ps as [|[[k i] v] ps IH]; intros l e; cbn [foldl]; [done|]. rewrite fresh_apply.
    destruct (apply sizes k i v (l, e)) as [l' e']. cbn [fst snd]. apply IH.
  Qed.
  Lemma fresh_twice e : fresh (fresh e) = fresh e. Proof. by destruct e. Qed.

  Lemma fresh_settle pe e : inherit (fresh pe) (reset_element_style (fresh e)) = fresh (inherit pe (reset_element_style e)).
  Proof. reflexivity. Qed.
  Lemma styles_settle pe e : e_styles (inherit pe (reset_element_style e)) = e_styles e.
  Proof. reflexivity. Qed.
  Lemma fresh_e_styles e : e_styles (fresh e) = map EDynamic sheet. Proof. reflexivity. Qed.
  Lemma fresh_e_style e : e_style (fresh e) = e_style e. Proof. reflexivity. Qed.
  Lemma fresh_e_animators e : e_animators (fresh e) = e_animators e. Proof. reflexivity. Qed.
  Lemma fresh_e_transitions e : e_transitions (fresh e) = e_transitions e. Proof. reflexivity. Qed.
  Lemma fresh_played an tr e : set e_transitions (fun _ => tr) (set e_animators (fun _ => an) (fresh e)) =
    fresh (set e_transitions (fun _ => tr) (set e_animators (fun _ => an) e)).
  Proof. reflexivity. Qed.

  Lemma fresh_cascade fuel debug css order time sizes vars n t pe layout e :
    (forall st, cascade_rules fuel debug n t (e_styles e) st = cascade_rules fuel debug n t (map EDynamic sheet) st) ->
    cascade_apply_styles fuel debug css order time sizes vars n (freshen t) (fresh pe) layout (fresh e) =
    map_res (fun r => (fst (fst r), fresh (snd (fst r)), snd r)) (cascade_apply_styles fuel debug css order time sizes vars n t pe layout e).
  Proof.
    intros Hr. unfold cascade_apply_styles. cbv zeta.
    rewrite fresh_settle. generalize (styles_settle pe e). generalize (inherit pe (reset_element_style e)). intros e1 H1.
    rewrite (fresh_e_styles e1), fresh_rules, H1, Hr, fresh_e_style, fresh_e_animators, fresh_e_transitions.
    destruct (cascade_rules fuel debug n t (map EDynamic sheet) (vars, ∅)) as [[vars1 s1]| | |]; cbn [bindR map_res]; [|reflexivity..].
    destruct (compute_declaration_block fuel (e_style e1) (vars1, s1)) as [[vars2 s2]| | |]; cbn [bindR map_res]; [|reflexivity..].
    destruct (play_animators fuel css time vars2 (e_animators e1, s2)) as [[an s3]| | |]; cbn [bindR map_res]; [|reflexivity..].
    destruct (play_transitions fuel time (e_transitions e1) s3) as [[tr s4]| | |]; cbn [bindR map_res]; [|reflexivity..].
    rewrite fresh_played. rewrite fresh_apply_all. destruct (apply_all sizes (order s4) _) as [l2 e2]. cbn [fst snd].
    rewrite fresh_e_transitions. destruct (mapR _ (e_transitions e2)) as [tr2| | |]; cbn [bindR map_res]; reflexivity.
  Qed.

  Lemma bindR_map {A B C} (f : A -> B) (r : res A) (k : B -> res C) : bindR (map_res f r) k = bindR r (fun a => k (f a)).
  Proof. by destruct r. Qed.
  Lemma foldR_fresh {A} (f : Tree -> A -> res Tree) (P : Tree -> Prop) l :
    (forall t a, a ∈ l -> P t -> f (freshen t) a = map_res freshen (f t a)) -> (forall t a t', a ∈ l -> P t -> f t a = Ok t' -> P t') ->
    forall t, P t -> foldR f (freshen t) l = map_res freshen (foldR f t l).
  Proof.
    induction l as [|a l IH]; intros Hf Hp t Ht; cbn [foldR]; [done|]. rewrite (Hf _ _ ltac:(apply elem_of_list_here) Ht).
    destruct (f t a) as [t1| | |] eqn:E; cbn [map_res bindR]; try done. apply IH.
    - intros t2 b Hb. apply Hf. by apply elem_of_list_further.
    - intros t2 b t3 Hb. apply Hp. by apply elem_of_list_further.
    - eapply Hp; [apply elem_of_list_here|exact Ht|exact E].
  Qed.

  Lemma fresh_styles fuel debug css order time (P : Tree -> Prop) :
    (forall t t', P t -> same_content t t' -> P t') ->
    (forall t n e, P t -> at_or_above t 1 n -> get_ctx t n = Some e -> forall st, cascade_rules fuel debug n t (e_styles e) st = cascade_rules fuel debug n t (map EDynamic sheet) st) ->
    forall depth n sizes vars t, P t -> live t 0 -> at_or_above t 1 n ->
    apply_styles fuel debug css order time depth n sizes vars (freshen t) = map_res freshen (apply_styles fuel debug css order time depth n sizes vars t).
  Proof.
    intros HP Hr. induction depth as [|depth IH]; intros n sizes vars t Ht Hl Hn; cbn [apply_styles]; [done|].
    rewrite fresh_parent. destruct (parent t n) as [p| | |] eqn:Ep; cbn [bindR map_res]; try done.
    assert (Hpe : ok_or (p ≫= get_ctx (freshen t)) (EParentNotFound n) = map_res fresh (ok_or (p ≫= get_ctx t) (EParentNotFound n))).
    { destruct p as [p|]; cbn [mbind option_bind]; [|done]. rewrite fresh_ctx. by destruct (get_ctx t p). }
    change (ok_or (p ← p; get_ctx (freshen t) p) (EParentNotFound n)) with (ok_or (p ≫= get_ctx (freshen t)) (EParentNotFound n)). rewrite Hpe.
    change (ok_or (p ← p; get_ctx t p) (EParentNotFound n)) with (ok_or (p ≫= get_ctx t) (EParentNotFound n)).
    destruct (ok_or (p ≫= get_ctx t) (EParentNotFound n)) as [pe| | |]; cbn [bindR map_res]; try done.
    rewrite fresh_style. destruct (style t n) as [layout| | |]; cbn [bindR map_res]; try done.
    rewrite fresh_get. destruct (get_element t n) as [e| | |] eqn:Ee; cbn [bindR map_res]; try done. apply get_element_ctx in Ee.
    change (e_text (fresh e)) with (e_text e). destruct (e_text e); [cbn [map_res]; f_equal; apply (fresh_put t n (inherit pe e))|].
    rewrite fresh_cascade by (by eapply Hr).
    destruct (cascade_apply_styles fuel debug css order time sizes vars n t pe layout e) as [[[l2 e2] vars2]| | |] eqn:Ec; cbn [bindR map_res fst snd]; try done.
    rewrite fresh_put, fresh_set_style. destruct (set_style n l2 (put_element n e2 t)) as [t1| | |] eqn:Es; cbn [bindR map_res]; try done.
    change (e_tag (fresh e2)) with (e_tag e2). destruct (_ || _); [done|]. rewrite fresh_children.
    destruct (children t1 n) as [cs| | |] eqn:Ecs; cbn [bindR map_res]; try done.
    assert (H1 : same_content t t1).
    { eapply same_trans; [eapply put_element_same; [exact Ee|exact (cascade_apply_content _ _ _ _ _ _ _ _ _ _ _ _ _ Ec)]|by eapply set_style_same]. }
    change (f_size (e_font (fresh e2))) with (f_size (e_font e2)). change (e_color (fresh e2)) with (e_color e2).
    apply (foldR_fresh _ (fun t' => same_content t t')); [|intros a c a' _ Ha Hx; eapply same_trans; [exact Ha|by eapply apply_styles_same]|done].
    intros a c Hc Ha. pose proof (content_shown _ _ Ha) as Hsa. pose proof (shown_live _ _ _ Hsa Hl) as Hla. apply IH; [by eapply HP|done|].
    assert (Hup : forall x y, at_or_above t x y -> at_or_above a x y).
    { intros x y Hxy. induction Hxy as [|x y z Hxy _ IHz]; [reflexivity|]. eapply rtc_l; [|exact IHz]. by rewrite (shown_parent _ _ _ Hsa). }
    eapply rtc_r; [apply Hup, Hn|]. rewrite (shown_parent _ _ _ Hsa). apply (live_parent _ _ Hl). apply children_spec in Ecs. subst cs.
    by rewrite (shown_attached _ _ _ (content_shown _ _ H1)) in Hc.
  Qed.
End afresh.

(** settled rules stay settled while the content is the same *)
Lemma settled_content bs t t' n s : same_content t t' -> rule_settled bs t n s -> rule_settled bs t' n s.
Proof.
  intros H (H1 & H2 & H3). split; [done|]. split; [done|]. intros Hc m key Hm. apply H3; [done|].
  clear H2 H3. induction Hm as [x y Hxy|x y z Hxy _ IH]; [apply tc_once|eapply tc_l; [|exact IH]]; by rewrite <- (shown_parent _ _ _ (content_shown _ _ H)).
Qed.
Lemma above_content t t' m n : same_content t t' -> at_or_above t' m n -> at_or_above t m n.
Proof.
  intros H Hm. induction Hm as [|x y z Hxy _ IH]; [reflexivity|]. eapply rtc_l; [|exact IH]. by rewrite <- (shown_parent _ _ _ (content_shown _ _ H)).
Qed.

Theorem static_rules_sound X fuel doc css v0 hist v os value m rs t ids input t1 sizes :
  from_document X fuel doc css = Ok v0 -> updates X fuel v0 hist = Ok (v, os) ->
  view_bind X v value = Ok (m, rs) -> update_trees (x_read_inline_css X) (v_tree v, v_ids v) rs = Ok (t, ids) ->
  set_viewport (v_root v) (in_viewport input) t = Ok t1 ->
  (forall n s, at_or_above t (v_body v) n -> s ∈ css_styles css -> rule_settled (v_bindings v) t n s) ->
  apply_styles fuel (x_debug X) (v_css v) (x_order X) (in_time input) (tree_depth t1) (v_body v) sizes ∅ (afresh (css_styles css) t1) =
  map_res (afresh (css_styles css)) (apply_styles fuel (x_debug X) (v_css v) (x_order X) (in_time input) (tree_depth t1) (v_body v) sizes ∅ t1).
Proof.
  intros H0 H Hb Hu Hvp Hse. destruct (kept_history _ _ _ _ _ _ _ _ H0 H) as (rn & t0 & Hm & Hre & Hfl & Hk & Hc & Hbody & Hbs & Hs).
  rewrite Hbody in *. assert (Hk1 : kept (x_debug X) (css_styles css) (v_bindings v) t0 t).
  { eapply kept_reactions; [exact Hk|by eapply view_bind_reactions_ok|by eapply view_bind_from|exact Hu]. }
  pose proof (set_viewport_same _ _ _ _ Hvp) as Hsv. destruct (rendered_live _ _ _ Hm Hre) as (Hl0 & Hat0 & Hr0).
  apply (fresh_styles _ _ _ _ _ _ (fun t' => same_content t t')).
  - intros a a' Ha Ha'. by eapply same_trans.
  - intros a n e Ha Hn He. pose proof (kept_content _ _ _ _ _ _ Hk1 Ha) as Hka.
    eapply (rules_afresh _ _ _ _ _ Hl0 Hat0 Hr0 Hka); [|exact He|exact Hn|].
    + intros k f key (p & b & Hin & Hpb). eapply stands_hints; [exact (re_stands _ _ _ Hre)| |exact Hpb].
      apply elem_of_list_In. rewrite <- Hfl. by apply elem_of_list_In.
    + intros s Hs'. eapply settled_content; [exact Ha|]. apply Hse; [|done]. by eapply above_content.
  - done.
  - exact (k_live _ _ _ _ _ (kept_content _ _ _ _ _ _ Hk1 Hsv)).
  - reflexivity.
Qed.
Theorem styled_live X fuel doc css v0 hist v os value m rs t ids :
  from_document X fuel doc css = Ok v0 -> updates X fuel v0 hist = Ok (v, os) ->
  view_bind X v value = Ok (m, rs) -> update_trees (x_read_inline_css X) (v_tree v, v_ids v) rs = Ok (t, ids) ->
  live t (v_root v).
Proof.
  intros H0 H Hb Hu. destruct (kept_history _ _ _ _ _ _ _ _ H0 H) as (rn & t0 & Hm & Hre & Hfl & Hk & Hc & Hbody & Hbs & Hs).
  pose proof (reached_sound _ _ _ _ _ _ _ _ H0 H) as Hso. rewrite (so_root _ Hso).
  eapply (k_live). eapply kept_reactions; [exact Hk|by eapply view_bind_reactions_ok|by eapply view_bind_from|exact Hu].
Qed.
