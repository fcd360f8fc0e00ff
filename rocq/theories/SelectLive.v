(** * Rules sorted out at load time stay right (C30). *)
From Coq Require Import ZArith Lia.
From stdpp Require Import gmap.
From RecordUpdate Require Import RecordUpdate.
From Verif Require Import Str StrFacts F32 Res ResFacts Json JsonFacts PropKey Html Css Element Tree ViewModel Render Update Matching
  Cascade Initial Animation Apply Styling Events View
  SpecBind SpecReact SpecLive SpecLog SpecView SpecRender SpecTree BindFacts ConformFacts ChangeFacts BindProps FrameFacts
  RenderTree RenderNode RenderProps RenderAny RenderMore LiveFacts LiveUpdate LiveView LiveSlots LiveValues LiveAlone LiveHistory LiveOrder
  SpecSelect SelectFacts.

(** ** Matching looks at the shown part of the tree only *)
Lemma simple_shown s e e' : shown e = shown e' -> match_simple_selector any_pseudo s e = match_simple_selector any_pseudo s e'.
Proof.
  intros H. unfold shown in H. injection H as H1 H2 H3 H4 H5 H6 H7 H8. destruct s; cbn [match_simple_selector]; rewrite ?H3, ?H5; done.
Qed.
Lemma parent_shown t t' n : same_shown t t' -> parent t' n = parent t n.
Proof.
  intros [_ H]. specialize (H n). unfold parent, get_node. destruct (t_nodes t !! n) as [x|], (t_nodes t' !! n) as [x'|]; cbn in *; try done.
  unfold node_shown in H. injection H as H1 _ _. by rewrite H1.
Qed.
Lemma children_shown t t' n : same_shown t t' -> children t' n = children t n.
Proof.
  intros [_ H]. specialize (H n). unfold children, get_node. destruct (t_nodes t !! n) as [x|], (t_nodes t' !! n) as [x'|]; cbn in *; try done.
  unfold node_shown in H. injection H as _ H1 _. by rewrite H1.
Qed.
Lemma next_shown debug t t' c n : same_shown t t' -> find_next_target debug c n t' = find_next_target debug c n t.
Proof.
  intros H. unfold find_next_target. rewrite (parent_shown _ _ _ H). destruct (Ascii.eqb c ">"); [done|]. destruct (Ascii.eqb c "+"); [|done].
  destruct (parent t n) as [[p|]| | |]; cbn [bindR]; try done. by rewrite (children_shown _ _ _ H).
Qed.
Lemma components_shown debug t t' l : same_shown t t' -> forall n e e', shown e = shown e' ->
  match_components debug any_pseudo l n e' t' = match_components debug any_pseudo l n e t.
Proof.
  intros H. induction l as [|s l IH]; intros n e e' He; cbn [match_components]; [done|]. destruct (as_combinator s) as [c|].
  - rewrite (next_shown _ _ _ _ _ H). destruct (find_next_target debug c n t) as [[m|]| | |]; cbn [bindR]; try done.
    pose proof (shown_ctx _ _ m H) as Hm. destruct (get_ctx t m) as [x|], (get_ctx t' m) as [x'|]; cbn in Hm; try done. cbn [unwrap bindR].
    apply IH. exact (inj Some _ _ Hm).
  - rewrite (simple_shown s e' e) by done. destruct (match_simple_selector any_pseudo s e); [by apply IH|done].
Qed.
Lemma style_shown debug t t' s n : same_shown t t' -> match_style debug any_pseudo s n t' = match_style debug any_pseudo s n t.
Proof.
  intros H. unfold match_style. induction (s_selectors s) as [|sel sels IH]; cbn [match_any]; [done|].
  assert (He : match_complex_selector debug any_pseudo sel n t' = match_complex_selector debug any_pseudo sel n t).
  { unfold match_complex_selector. pose proof (shown_ctx _ _ n H) as Hm. destruct (get_ctx t n) as [x|], (get_ctx t' n) as [x'|]; cbn in Hm; try done.
    cbn [unwrap bindR]. apply components_shown; [done|]. exact (inj Some _ _ Hm). }
  rewrite He. destruct (match_complex_selector debug any_pseudo sel n t) as [[|]| | |]; cbn [bindR]; done.
Qed.

(** ** The rule lists made at load time *)
Definition matched (debug : bool) (t0 : Tree) (n : NodeId) (s : Style) : bool :=
  match match_style debug any_pseudo s n t0 with Ok b => b | _ => false end.
Definition sorted_out (debug : bool) (t0 : Tree) (sheet : list Style) (n : NodeId) (e : Element) : list ElementStyle :=
  omap (fun s => classify (e_hints e) (matched debug t0 n s) s) sheet.
Definition add_rules (debug : bool) (t0 : Tree) (sheet : list Style) (n : NodeId) (e : Element) : Element :=
  e <| e_styles := e_styles e ++ sorted_out debug t0 sheet n e |>.

Lemma push_spec debug t0 sheet n : forall t t' e, push_styles debug sheet n t = Ok t' -> same_shown t0 t -> get_ctx t n = Some e ->
  get_ctx t' n = Some (add_rules debug t0 sheet n e) /\ (forall m, m <> n -> get_ctx t' m = get_ctx t m) /\ same_shown t t'.
Proof.
  induction sheet as [|s sheet IH]; intros t t' e H Hs He; unfold push_styles in H; cbn [foldR] in H.
  - injection H as <-. split; [|split; [done|apply shown_refl]]. rewrite He. unfold add_rules, sorted_out. cbn [omap]. rewrite app_nil_r. by destruct e.
  - apply bindR_Ok in H as (t1 & H1 & H). apply bindR_Ok in H1 as (b & Hb & H1). apply bindR_Ok in H1 as (e1 & He1 & H1).
    apply get_element_ctx in He1. rewrite He in He1. injection He1 as <-. rewrite (style_shown _ t0) in Hb by done.
    assert (Hm : matched debug t0 n s = b) by (unfold matched; by rewrite Hb).
    destruct (classify (e_hints e) b s) as [es|] eqn:Ec.
    + injection H1 as <-. set (e2 := set e_styles (λ l, l ++ [es]) e) in *. destruct (IH _ _ e2 H) as (I1 & I2 & I3).
      * eapply shown_trans; [exact Hs|]. by eapply put_shown.
      * by eapply get_put_same.
      * split; [|split].
        -- rewrite I1. f_equal. unfold add_rules, sorted_out. cbn [omap list_omap]. rewrite Hm, Ec. destruct e. cbn. by rewrite <- app_assoc.
        -- intros m Hne. rewrite I2 by done. by apply get_put_ne.
        -- eapply shown_trans; [|exact I3]. by eapply put_shown.
    + injection H1 as <-. destruct (IH _ _ e H Hs He) as (I1 & I2 & I3). split; [|done].
      rewrite I1. f_equal. unfold add_rules, sorted_out. cbn [omap list_omap]. by rewrite Hm, Ec.
Qed.

(** subtrees *)
Lemma above_le t root m n : live t root -> at_or_above t m n -> m <= n.
Proof.
  intros Hl. induction 1 as [|a b c Hab _ IH]; [done|]. apply (live_parent _ _ Hl) in Hab. destruct (live_newer _ _ Hl a b ltac:(by left)). lia.
Qed.
Lemma above_cases t root m n : live t root -> at_or_above t m n <-> m = n \/ exists c, c ∈ attached t m /\ at_or_above t c n.
Proof.
  intros Hl. split.
  - intros H. inversion H as [|a b c Hab Hbc]; subst; [by left|]. right. exists b. split; [by apply (live_parent _ _ Hl)|done].
  - intros [->|(c & Hc & H)]; [reflexivity|]. eapply rtc_l; [|exact H]. by apply (live_parent _ _ Hl).
Qed.
Lemma above_chain t a b m : at_or_above t a m -> at_or_above t b m -> at_or_above t a b \/ at_or_above t b a.
Proof.
  intros Ha Hb. revert Ha. induction Hb as [b|b c m Hbc Hcm IH]; intros Ha; [by left|].
  destruct (IH Ha) as [Hac|Hca].
  - apply rtc_inv_r in Hac as [->|(d & Had & Hd)]; [right; by apply rtc_once|]. left.
    assert (d = b) as -> by congruence. done.
  - right. eapply rtc_l; [exact Hbc|done].
Qed.
Lemma above_disjoint t root n c d m : live t root -> c ∈ attached t n -> d ∈ attached t n -> at_or_above t c m -> at_or_above t d m -> c = d.
Proof.
  intros Hl Hc Hd Hcm Hdm.
  assert (Hno : forall a b, a ∈ attached t n -> b ∈ attached t n -> at_or_above t a b -> a = b).
  { intros a b Ha Hb Hab. apply rtc_inv_r in Hab as [->|(x & Hax & Hx)]; [done|]. exfalso.
    apply (live_parent _ _ Hl) in Hb. assert (x = n) as -> by congruence. apply (above_le _ _ _ _ Hl) in Hax.
    destruct (live_newer _ _ Hl n a ltac:(by left)). lia. }
  destruct (above_chain _ _ _ _ Hcm Hdm) as [H|H]; [by apply Hno|]. symmetry. by apply Hno.
Qed.

Lemma calculate_spec debug t0 root sheet depth : live t0 root -> forall n t t', n < t_next t0 ->
  calculate_elements_stylesheet depth debug sheet n t = Ok t' -> same_shown t0 t ->
  (forall m, at_or_above t0 n m -> get_ctx t' m = add_rules debug t0 sheet m <$> get_ctx t m) /\
  (forall m, ~ at_or_above t0 n m -> get_ctx t' m = get_ctx t m) /\ same_shown t t'.
Proof.
  intros Hl. induction depth as [|depth IH]; intros n t t' Hlt H Hs; cbn [calculate_elements_stylesheet] in H; [done|].
  apply bindR_Ok in H as (t1 & H1 & H). apply bindR_Ok in H as (cs & Hcs & H).
  destruct (live_node _ _ Hl n Hlt) as (e0 & He0 & _). pose proof (shown_ctx _ _ n Hs) as Hn. rewrite He0 in Hn.
  destruct (get_ctx t n) as [e|] eqn:He; [|done]. clear Hn He0 e0.
  destruct (push_spec _ _ _ _ _ _ _ H1 Hs He) as (P1 & P2 & P3). pose proof (shown_trans _ _ _ Hs P3) as Hs1.
  rewrite (children_shown t0 t1 n Hs1) in Hcs. apply children_spec in Hcs. subst cs.
  assert (Hfold : forall cs t1 t', (forall c, c ∈ cs -> c ∈ attached t0 n) -> NoDup cs -> same_shown t0 t1 ->
    foldR (fun t c => calculate_elements_stylesheet depth debug sheet c t) t1 cs = Ok t' ->
    (forall m, (exists c, c ∈ cs /\ at_or_above t0 c m) -> get_ctx t' m = add_rules debug t0 sheet m <$> get_ctx t1 m) /\
    (forall m, ~ (exists c, c ∈ cs /\ at_or_above t0 c m) -> get_ctx t' m = get_ctx t1 m) /\ same_shown t1 t').
  { clear - IH Hl. induction cs as [|c cs IHcs]; intros t1 t' Hin Hnd Hs1 H; cbn [foldR] in H.
    - injection H as <-. split; [intros m (c & Hc & _); by apply elem_of_nil in Hc|]. split; [done|apply shown_refl].
    - apply bindR_Ok in H as (t2 & H2 & H). apply list.NoDup_cons in Hnd as [Hnc Hnd].
      assert (Hc : c ∈ attached t0 n) by (apply Hin, elem_of_list_here).
      assert (Hlt : c < t_next t0) by (destruct (live_newer _ _ Hl n c ltac:(by left)); lia).
      destruct (IH c t1 t2 Hlt H2 Hs1) as (I1 & I2 & I3).
      destruct (IHcs t2 t') as (J1 & J2 & J3); [intros d Hd; apply Hin; by apply elem_of_list_further|done|by eapply shown_trans|done|].
      assert (Hdis : forall m, at_or_above t0 c m -> ~ exists d, d ∈ cs /\ at_or_above t0 d m).
      { intros m Hm (d & Hd & Hdm). apply Hnc. replace c with d; [done|]. eapply above_disjoint; [exact Hl| |exact Hc|exact Hdm|exact Hm]. apply Hin. by apply elem_of_list_further. }
      split; [|split; [|by eapply shown_trans]].
      + intros m (d & Hd & Hdm). apply elem_of_cons in Hd as [->|Hd].
        * rewrite J2 by (by apply Hdis). by apply I1.
        * rewrite J1 by (by exists d). rewrite I2; [done|]. intros Hcm. apply (Hdis m Hcm). by exists d.
      + intros m Hm. rewrite J2, I2; [done|..].
        * intros Hcm. apply Hm. exists c. split; [apply elem_of_list_here|done].
        * intros (d & Hd & Hdm). apply Hm. exists d. split; [by apply elem_of_list_further|done]. }
  destruct (Hfold (attached t0 n) t1 t') as (F1 & F2 & F3); [done|apply (live_once _ _ Hl)|done|done|].
  assert (Hself : ~ exists c, c ∈ attached t0 n /\ at_or_above t0 c n).
  { intros (c & Hc & Hcn). apply (above_le _ _ _ _ Hl) in Hcn. destruct (live_newer _ _ Hl n c ltac:(by left)). lia. }
  split; [|split; [|by eapply shown_trans]].
  - intros m Hm. rewrite (above_cases _ _ _ _ Hl) in Hm. destruct Hm as [<-|Hm].
    + rewrite F2, P1, He by done. done.
    + assert (m <> n) by (intros ->; done). rewrite F1 by done. by rewrite P2.
  - intros m Hm. rewrite (above_cases _ _ _ _ Hl) in Hm. rewrite F2, P2; [done|..]; naive_solver.
Qed.

(** ** The loaded page *)
Lemma rbinds_styles read binds : forall e, e_styles (foldl (apply_rbind read) e binds) = e_styles e.
Proof.
  induction binds as [|b binds IH]; intros e; cbn [foldl]; [done|]. rewrite IH. destruct b as [k v|k v|k p q|k spans|ev args]; cbn [apply_rbind]; try done.
  destruct (String.eqb k "style"); [destruct (read v)|]; done.
Qed.
Lemma elem_of_styles read n r : e_styles (elem_of read n r) = [].
Proof. destruct r as [spans|src|tag binds kids marks]; cbn [elem_of]; [done..|]. cbn. by rewrite rbinds_styles. Qed.
Lemma rendered_under read t rn : marks_ok rn -> rendered read t rn -> forall n, n <> 0 -> n < t_next t -> at_or_above t 1 n.
Proof.
  intros Hm Hr. pose proof (rendered_tree_ok _ _ _ Hm Hr) as Hok. destruct (rendered_live _ _ _ Hm Hr) as (Hl & Hat & H1).
  intros n. induction n as [n IH] using (well_founded_induction lt_wf). intros Hn Hlt.
  destruct (decide (n = 1)) as [->|Hn1]; [reflexivity|]. destruct (Hok n Hlt) as (x & e & Hx & _ & _ & _ & _ & _ & _ & Hp & _).
  destruct (n_parent x) as [p|] eqn:Ep; [|tauto].
  assert (Hpo : parent_of t n = Some p) by (unfold parent_of; by rewrite Hx). pose proof (proj2 (live_parent _ _ Hl p n) Hpo) as Hc.
  destruct (live_newer _ _ Hl p n ltac:(by left)) as [Hpn _].
  assert (p <> 0). { intros ->. rewrite H1 in Hc. apply elem_of_list_singleton in Hc. done. }
  eapply rtc_r; [apply (IH p); [lia|done|lia]|exact Hpo].
Qed.
Lemma loaded_rules X fuel doc css v0 : from_document X fuel doc css = Ok v0 -> exists rn t0 tL ids0,
  marks_ok rn /\ rendered (x_read_inline_css X) t0 rn /\ flat (v_bindings v0) ≡ₚ bindings_of 1 rn /\ same_shown t0 tL /\
  (forall n e, n <> 0 -> get_ctx tL n = Some e -> e_styles e = sorted_out (x_debug X) t0 (css_styles css) n e) /\
  Forall (reaction_ok tL) (default_reactions (v_bindings v0)) /\ v_css v0 = css /\ v_body v0 = 1 /\ v_root v0 = 0 /\
  update_trees (x_read_inline_css X) (tL, ids0) (default_reactions (v_bindings v0)) = Ok (v_tree v0, v_ids v0).
Proof.
  intros H0. pose proof H0 as Hst.
  unfold from_document in H0. destruct (scan_document _ _) as [templates body]. 
  apply bindR_Ok in H0 as ([[r root] b] & Hr & H). apply bindR_Ok in H as (d & Hd & H). apply bindR_Ok in H as (t & Ht & H).
  apply bindR_Ok in H as ([t' ids] & Ha & H). injection H as <-. cbn [v_bindings v_tree v_ids v_css v_body v_root].
  destruct (render_any _ _ _ _ _ _ _ _ Hr) as (rn & ps & Hm & -> & -> & Hre & Hsid & Hso & Hfl & Hsch).
  exists rn, (r_tree r), t, (r_static_id r). pose proof (stylesheet_shown _ _ _ _ _ _ Ht) as Hsh.
  destruct (rendered_live _ _ _ Hm Hre) as (Hl & Hat & H1). do 4 (split; [done|]).
  split; [|split; [|done]].
  - intros n e Hn He. assert (Hlt1 : 1 < t_next (r_tree r)) by (rewrite (re_next _ _ _ Hre); pose proof (rsize_pos rn); lia).
    destruct (calculate_spec _ _ _ _ _ Hl _ _ _ Hlt1 Ht (shown_refl _)) as (C1 & _ & _).
    assert (Hlt : n < t_next (r_tree r)).
    { pose proof (shown_live _ _ _ Hsh Hl) as Hl2. apply (live_lt _ _ _ _ Hl2) in He. destruct Hsh as [Hs _]. by rewrite Hs. }
    rewrite (C1 n) in He by (by eapply rendered_under).
    destruct (stands_sub _ (r_tree r) rn (Some 0) 1 n (re_stands _ _ _ Hre)) as (par' & rk & Hk & _); [rewrite (re_next _ _ _ Hre) in Hlt; lia|].
    apply stands_root in Hk. unfold get_ctx in He. rewrite Hk in He. cbn in He. injection He as <-. unfold add_rules, sorted_out. cbn [e_styles set e_hints].
    by rewrite elem_of_styles.
  - apply default_reactions_ok. intros p b Hb. eapply binding_ok_def; [by apply shown_def|]. eapply stands_bindings_ok; [apply (re_stands _ _ _ Hre)|done|].
    apply elem_of_list_In. rewrite <- Hfl. by apply elem_of_list_In.
Qed.

(** ** Hints record the bound attributes *)
Definition hints_grow (h h' : Hints) : Prop :=
  dynamic_attrs h ⊆ dynamic_attrs h' /\ (has_dynamic_classes h = true -> has_dynamic_classes h' = true) /\
  (has_dynamic_id h = true -> has_dynamic_id h' = true).
Lemma grow_refl h : hints_grow h h. Proof. done. Qed.
Lemma grow_trans a b c : hints_grow a b -> hints_grow b c -> hints_grow a c.
Proof. unfold hints_grow. intros (A1 & A2 & A3) (B1 & B2 & B3). split; [set_solver|]. split; auto. Qed.
Lemma rbind_hints read b e : hints_grow (e_hints e) (e_hints (apply_rbind read e b)).
Proof.
  destruct b as [k v|k v|k p q|k spans|ev args]; cbn [apply_rbind]; try apply grow_refl.
  - destruct (String.eqb k "style"); [destruct (read v)|]; apply grow_refl.
  - split; [|done]. cbn. set_solver.
  - unfold hints_grow. cbn. destruct (String.eqb k "class"), (String.eqb k "id"); cbn; (split; [set_solver|done]).
Qed.
Lemma rbinds_hints read binds : forall e, hints_grow (e_hints e) (e_hints (foldl (apply_rbind read) e binds)).
Proof. induction binds as [|b binds IH]; intros e; cbn [foldl]; [apply grow_refl|]. eapply grow_trans; [apply (rbind_hints read b)|apply IH]. Qed.
Lemma rbind_in_hints read binds b : In b binds -> forall e, exists e', hints_grow (e_hints (apply_rbind read e' b)) (e_hints (foldl (apply_rbind read) e binds)).
Proof.
  induction binds as [|x binds IH]; [done|]. intros [->|H] e; cbn [foldl]; [exists e; apply rbinds_hints|]. apply IH, H.
Qed.
Definition hinted (e : Element) (flag : bool) (key : string) : Prop :=
  key ∈ dynamic_attrs (e_hints e) /\
  (flag = false -> (key = "class" -> has_dynamic_classes (e_hints e) = true) /\ (key = "id" -> has_dynamic_id (e_hints e) = true)).
Lemma hinted_grow e e' f key : hints_grow (e_hints e) (e_hints e') -> hinted e f key -> hinted e' f key.
Proof. intros (G1 & G2 & G3) [H1 H2]. split; [by apply G1|]. intros Hf. destruct (H2 Hf) as [H3 H4]. auto. Qed.
Definition params_bind (b : BindingParams) (m : NodeId) (flag : bool) (key : string) : Prop :=
  (flag = true /\ b = BTag m key) \/ (flag = false /\ exists i, b = BAttribute m key i).
Lemma stands_hints read t rn : forall par n p b m f key, stands read t par n rn -> In (p, b) (bindings_of n rn) -> params_bind (bd_params b) m f key ->
  exists e, get_ctx t m = Some e /\ hinted e f key.
Proof.
  induction rn as [spans|src|tag binds kids marks IH] using rnode_ind'; intros par n p b m f key Hs Hin Hb.
  - cbn [bindings_of] in Hin. apply span_bindings_in in Hin as (j & q & s & Hj & _ & ->). cbn in Hb. by destruct Hb as [[_ ?]|[_ (i & ?)]].
  - done.
  - rewrite bindings_of_elem in Hin. pose proof (stands_root _ _ _ _ _ Hs) as Hx.
    assert (Hctx : get_ctx t n = Some (elem_of read n (RElem tag binds kids marks))) by (unfold get_ctx; rewrite Hx; done).
    apply in_app_iff in Hin as [Hin|Hin]; [|apply in_app_iff in Hin as [Hin|Hin]].
    + apply in_flat_map in Hin as (rb & Hrb & Hin).
      destruct (rbind_in_hints read binds rb Hrb (create_element n <| e_tag := tag |>)) as (e' & He').
      destruct rb as [k v|k v|k p' q|k spans|ev args]; cbn [bind_bindings] in Hin; try done.
      * destruct Hin as [[= <- <-]|[]]. cbn in Hb. destruct Hb as [[-> [= <- <-]]|[_ (i & ?)]]; [|done]. eexists. split; [exact Hctx|].
        cbn [elem_of]. eapply (hinted_grow _ _ _ _ He'). split; [|done]. cbn. set_solver.
      * apply span_bindings_in in Hin as (j & q & s & Hj & _ & ->). cbn in Hb. destruct Hb as [[_ ?]|[-> (i & [= <- <- _])]]; [done|].
        eexists. split; [exact Hctx|]. cbn [elem_of]. eapply (hinted_grow _ _ _ _ He'). unfold hinted. cbn.
        destruct (String.eqb_spec k "class"), (String.eqb_spec k "id"); cbn; (split; [set_solver|]); intros _; split; done.
    + apply in_flat_map in Hin as (mk & Hmk & Hin). destruct mk as [p'|i v p' q|s c p' q]; cbn [mark_bindings] in Hin; [done|..].
      * destruct (place (S n) kids !! i) as [c|] eqn:Ec; [|done]. destruct Hin as [[= <- <-]|[]]. by destruct Hb as [[_ ?]|[_ (? & ?)]].
      * destruct Hin as [[= <- <-]|[]]. by destruct Hb as [[_ ?]|[_ (? & ?)]].
    + rewrite stands_eq in Hs. destruct Hs as [_ Hall]. cbn [kids_of] in Hall. clear Hx Hctx.
      revert Hall Hin. generalize (S n) as k0. induction IH as [|k l Hk IHk IHl]; intros k0; [done|].
      cbn [SpecTree.stand_all kid_bindings]. intros [H1 H2] Hin. apply in_app_iff in Hin as [Hin|Hin].
      * by eapply Hk.
      * by eapply IHl.
Qed.

(** ** Reactions leave the rule lists alone *)
Definition same_rules (t t' : Tree) : Prop := forall n, e_styles <$> get_ctx t' n = e_styles <$> get_ctx t n.
Lemma put_rules n e0 e t : get_ctx t n = Some e0 -> e_styles e = e_styles e0 -> same_rules t (put_element n e t).
Proof.
  intros H0 He m. rewrite get_ctx_put. destruct (decide (n = m)) as [<-|]; [|done]. destruct (ctx_node _ _ _ H0) as [x Hx]. rewrite Hx, H0. cbn. by rewrite He.
Qed.
Lemma update_tree_rules ric t ids r t' ids' : live t 0 -> reaction_ok t r -> update_tree ric (t, ids) r = Ok (t', ids') -> same_rules t t'.
Proof.
  intros Hl Hok H. destruct r as [n i x|p c vis|p s c z|n key b|n key i x]; cbn [update_tree] in H.
  - destruct Hok as (e & He & [spans Hsp]). rewrite He, Hsp in H. inv_ok. unfold mark_dirty in Hr. inv_ok. by eapply put_rules.
  - destruct Hok as (e & He & Hin & Htag). destruct (reattach_ok _ _ _ _ _ vis Hl He Hin Htag) as (t1 & H1 & _ & _ & Hc & _).
    rewrite H1 in H. cbn [bindR] in H. injection H as <- <-. intros m. by rewrite Hc.
  - destruct Hok as (e & He & H1 & H2 & Htag). destruct (repeat_ok _ _ _ _ _ _ _ Hl He H1 H2 Htag) as (t1 & Ht & _ & _ & Hc & _).
    rewrite Ht in H. cbn [bindR] in H. injection H as <- <-. intros m. by rewrite Hc.
  - apply bindR_Ok in H as (e & He & H). apply get_element_ctx in He. injection H as <- <-. eapply put_rules; [exact He|]. by destruct b.
  - apply bindR_Ok in H as (e & He & H). apply get_element_ctx in He. apply bindR_Ok in H as (spans & Hsp & H). cbv zeta in H.
    match type of H with (if _ then (do! t <- update_img_src _ _ (put_element _ ?e1 _); _) else _) = _ => set (e2 := e1) in * end.
    assert (He2 : e_styles e2 = e_styles e) by (subst e2; destruct (String.eqb key "style"); [destruct (ric _)|]; done). clearbody e2.
    assert (H2 : same_rules t (put_element n e2 t)) by (by eapply put_rules).
    destruct (_ && _); [|by injection H as <- <-].
    apply bindR_Ok in H as (t1 & H1 & H). injection H as <- <-. unfold update_img_src in H1.
    apply bindR_Ok in H1 as (c & Hc & H1). apply bindR_Ok in H1 as (ec & Hec & H1). apply get_element_ctx in Hec. unfold mark_dirty in H1. inv_ok.
    intros m. rewrite <- H2. by eapply put_rules.
Qed.
Lemma update_trees_rules ric rs : forall t ids t' ids', live t 0 -> Forall (reaction_ok t) rs -> update_trees ric (t, ids) rs = Ok (t', ids') -> same_rules t t'.
Proof.
  induction rs as [|r rs IH]; intros t ids t' ids' Hl Hrs H; [by injection H as <- <-|].
  inversion Hrs as [|? ? Hr Hrs']; subst. destruct (update_tree_ok ric t ids 0 r Hl Hr) as (t1 & H1 & Hl1 & Hs1 & He).
  unfold update_trees in H. cbn [foldR] in H. rewrite H1 in H. cbn [bindR] in H.
  intros n. rewrite <- (update_tree_rules _ _ _ _ _ _ Hl Hr H1 n). eapply IH; [exact Hl1| |exact H].
  eapply Forall_impl; [|exact Hrs']. intros r' Hr'. by eapply reaction_ok_def.
Qed.
Lemma content_rules t t' : same_content t t' -> same_rules t t'.
Proof.
  intros H n. destruct (get_ctx t n) as [e|] eqn:E.
  - destruct (same_ctx _ _ _ _ H E) as (e' & -> & Hc). unfold content in Hc. cbn. f_equal. congruence.
  - destruct (get_ctx t' n) as [e'|] eqn:E'; [|done]. destruct (same_ctx _ _ _ _ (same_sym _ _ H) E') as (e & He & _). congruence.
Qed.
Lemma update_rules X fuel v i x v' o : sound v -> update X fuel v i x = Ok (v', o) -> same_rules (v_tree v) (v_tree v').
Proof.
  intros Hs Hu. pose proof Hu as Hu'. apply update_content in Hu' as (m' & rs' & t & ids & Hb' & Ht & _ & Hid & Hc & _).
  pose proof (so_live _ Hs) as Hl. rewrite (so_root _ Hs) in Hl. intros n. rewrite (content_rules _ _ Hc n).
  eapply update_trees_rules; [exact Hl|by eapply view_bind_reactions_ok|exact Ht].
Qed.

(** ** What is still as at load time *)
Record kept (debug : bool) (sheet : list Style) (bs : Bindings) (t0 t : Tree) : Prop := {
  k_live : live t 0;
  k_def : same_definitions t0 t;
  k_root : attached t 0 = [1];
  k_attr : forall n key, ~ bound_attribute bs n key -> attr t n key = attr t0 n key;
  k_rules : forall n e, n <> 0 -> get_ctx t n = Some e -> e_styles e = sorted_out debug t0 sheet n e
}.
Definition from_bindings (bs : Bindings) (rs : list Reaction) : Prop :=
  forall r, In r rs -> exists p b, In (p, b) (flat bs) /\ fst (writes r) = slot_of (bd_params b).

Lemma rules_def debug sheet t0 t t' : same_definitions t t' -> same_rules t t' ->
  (forall n e, n <> 0 -> get_ctx t n = Some e -> e_styles e = sorted_out debug t0 sheet n e) ->
  (forall n e, n <> 0 -> get_ctx t' n = Some e -> e_styles e = sorted_out debug t0 sheet n e).
Proof.
  intros Hd Hr H n e Hn He. destruct (same_def_ctx _ _ _ _ (same_def_sym _ _ Hd) He) as (e1 & He1 & Heq).
  specialize (Hr n). rewrite He, He1 in Hr. cbn in Hr. apply (inj Some) in Hr. rewrite Hr, (H n e1 Hn He1). unfold sorted_out.
  unfold definition_of in Heq. injection Heq as _ _ _ _ _ _ ->. done.
Qed.
Lemma kept_reactions debug sheet bs t0 ric t ids rs t' ids' : kept debug sheet bs t0 t -> Forall (reaction_ok t) rs -> from_bindings bs rs ->
  update_trees ric (t, ids) rs = Ok (t', ids') -> kept debug sheet bs t0 t'.
Proof.
  intros [K1 K2 K3 K4 K5] Hok Hfb H. pose proof (update_trees_ok ric rs t ids 0 K1 Hok) as (t1 & ids1 & H1 & Hl1 & Hd1).
  rewrite H in H1. injection H1 as <- <-. split.
  - done.
  - by eapply same_def_trans.
  - refine (update_trees_inv ric (fun t _ => attached t 0 = [1]) rs t ids t' ids' K1 Hok _ H K3).
    intros r Hr a a' i Hl Hra Hd He Hat. pose proof (eff_attached _ _ _ He) as Ha. destruct r as [n j x|p c vis|p s c z|n key b|n key j x]; cbn [attached_after] in Ha; try (by rewrite Ha).
    + destruct Hra as (e & Hp & Hin & _). destruct Ha as (_ & Ha & _). rewrite Ha; [done|]. intros <-.
      destruct (live_root _ _ Hl) as [H0 _]. unfold defined in H0. rewrite Hp in H0. rewrite H0 in Hin. by apply elem_of_nil in Hin.
    + destruct (decide (p = 0)) as [->|Hne]; [|destruct Ha as (_ & Ha); by rewrite Ha].
      destruct Ha as (Ha & _). destruct (live_root _ _ Hl) as [H0 _]. rewrite Ha, H0. unfold block. rewrite !drop_nil, !take_nil. cbn.
      rewrite app_nil_r, Hat. apply filter_all_in. intros d _. apply not_elem_of_nil.
  - intros n key Hb. refine (update_trees_inv ric (fun t _ => attr t n key = attr t0 n key) rs t ids t' ids' K1 Hok _ H (K4 n key Hb)).
    intros r Hr a a' i Hl Hra Hd He Hat. rewrite (eff_attr _ _ _ He). destruct (Hfb r Hr) as (p & b & Hin & Hw).
    destruct r as [m j x|q c vis|q s c z|m k fl|m k j x]; cbn [attr_after]; try done.
    + rewrite decide_False; [done|]. intros [-> ->]. apply Hb. exists p, b. split; [done|]. left. destruct (bd_params b); try done. cbn in Hw. congruence.
    + rewrite decide_False; [done|]. intros [-> ->]. apply Hb. exists p, b. split; [done|]. right. exists j. destruct (bd_params b); try done. cbn in Hw. congruence.
  - eapply rules_def; [exact Hd1|by eapply update_trees_rules|done].
Qed.
Lemma kept_content debug sheet bs t0 t t' : kept debug sheet bs t0 t -> same_content t t' -> kept debug sheet bs t0 t'.
Proof.
  intros [K1 K2 K3 K4 K5] H. pose proof (content_shown _ _ H) as Hs. pose proof (shown_def _ _ Hs) as Hd. split.
  - by eapply shown_live.
  - by eapply same_def_trans.
  - by rewrite (shown_attached _ _ _ Hs).
  - intros n key Hb. rewrite (shown_attr _ _ _ _ Hs). by apply K4.
  - eapply rules_def; [exact Hd|by apply content_rules|done].
Qed.
Lemma view_bind_from X v x m rs : view_bind X v x = Ok (m, rs) -> from_bindings (v_bindings v) rs.
Proof.
  intros Hb r. revert r. apply List.Forall_forall. unfold view_bind in Hb. apply bindR_Ok in Hb as ([[m' ch] rs'] & Hb & [= <- <-]).
  eapply bind_reacts; [|exact Hb]. intros q w' rs Hr'. eapply Forall_impl; [|by eapply react_from]. cbv beta.
  intros r (b' & w2 & Hb'' & ->). exists q, b'. split; [done|]. by rewrite react_expected, writes_expected.
Qed.
(** the page before any update and the page it was loaded as *)
Lemma kept_loaded X fuel doc css v0 : from_document X fuel doc css = Ok v0 -> exists rn t0,
  marks_ok rn /\ rendered (x_read_inline_css X) t0 rn /\ flat (v_bindings v0) ≡ₚ bindings_of 1 rn /\
  kept (x_debug X) (css_styles css) (v_bindings v0) t0 (v_tree v0) /\ v_css v0 = css /\ v_body v0 = 1.
Proof.
  intros H. apply loaded_rules in H as (rn & t0 & tL & ids0 & Hm & Hre & Hfl & Hsh & Hru & Hok & Hc & Hb & Hr & Hu).
  exists rn, t0. do 3 (split; [done|]). split; [|done]. destruct (rendered_live _ _ _ Hm Hre) as (Hl & _ & H1).
  eapply kept_reactions; [|exact Hok| |exact Hu].
  - split.
    + by eapply shown_live.
    + by apply shown_def.
    + by rewrite (shown_attached _ _ _ Hsh).
    + intros n key _. by apply shown_attr.
    + exact Hru.
  - intros r Hr'. apply default_reactions_in in Hr' as (p & b & q & c & v & Hin & Hb' & ->). exists p, b. split; [done|]. by rewrite Hb'.
Qed.
Lemma kept_update X fuel debug sheet t0 v i x v' o : sound v -> update X fuel v i x = Ok (v', o) ->
  kept debug sheet (v_bindings v) t0 (v_tree v) -> kept debug sheet (v_bindings v') t0 (v_tree v').
Proof.
  intros Hs Hu Hk. destruct (update_keeps _ _ _ _ _ _ _ Hs Hu) as (K1 & _). rewrite K1.
  pose proof Hu as Hu'. apply update_content in Hu' as (m' & rs' & t & ids & Hb' & Ht & _ & Hid & Hc & _).
  eapply kept_content; [|exact Hc]. eapply kept_reactions; [exact Hk|by eapply view_bind_reactions_ok|by eapply view_bind_from|exact Ht].
Qed.
Lemma kept_history X fuel doc css v0 hist v os : from_document X fuel doc css = Ok v0 -> updates X fuel v0 hist = Ok (v, os) -> exists rn t0,
  marks_ok rn /\ rendered (x_read_inline_css X) t0 rn /\ flat (v_bindings v) ≡ₚ bindings_of 1 rn /\
  kept (x_debug X) (css_styles css) (v_bindings v) t0 (v_tree v) /\ v_css v = css /\ v_body v = 1 /\ v_bindings v = v_bindings v0 /\ sound v.
Proof.
  intros H0 H. destruct (kept_loaded _ _ _ _ _ H0) as (rn & t0 & Hm & Hre & Hfl & Hk & Hc & Hb). exists rn, t0. split; [done|]. split; [done|].
  pose proof (from_document_sound _ _ _ _ _ H0) as Hs. clear H0.
  assert (Hall : v_css v = v_css v0 /\ v_body v = v_body v0 /\ v_bindings v = v_bindings v0 /\ sound v /\ kept (x_debug X) (css_styles css) (v_bindings v) t0 (v_tree v)).
  { clear Hfl Hc Hb. revert v0 os H Hk Hs. induction hist as [|[i x] hist IH]; intros v0 os H Hk Hs; cbn [updates] in H; [injection H as <- <-; done|].
    apply bindR_Ok in H as ([v1 o] & Hu & H). apply bindR_Ok in H as ([v2 os'] & H' & [= <- <-]).
    destruct (IH _ _ H') as (I1 & I2 & I3 & I4 & I5); [by eapply kept_update|by eapply update_sound|].
    destruct (update_keeps _ _ _ _ _ _ _ Hs Hu) as (K1 & _). rewrite I1, I2. split; [|split; [|split; [by rewrite I3|done]]];
    unfold update in Hu; apply bindR_Ok in Hu as ([[m t] ids] & _ & Hu); apply bindR_Ok in Hu as ([[s t'] o'] & _ & [= <- <-]); done. }
  destruct Hall as (A1 & A2 & A3 & A4 & A5). rewrite A1, A2, A3, Hc, Hb. rewrite A3 in A5. done.
Qed.

(** ** Comparing matching now with matching at load time *)
Section compare.
  Context (debug : bool) (sheet : list Style) (bs : Bindings) (t0 t : Tree).
  Context (Hl0 : live t0 0) (Hat0 : forall n, n <> 0 -> attached t0 n = defined t0 n) (Hr0 : attached t0 0 = [1]).
  Context (K : kept debug sheet bs t0 t).
  Context (Hh : forall m f key, (exists p b, In (p, b) (flat bs) /\ params_bind (bd_params b) m f key) -> exists e, get_ctx t0 m = Some e /\ hinted e f key).

  Lemma kept_parent n p : parent_of t n = Some p -> parent_of t0 n = Some p.
  Proof.
    intros H. apply (live_parent _ _ (k_live _ _ _ _ _ K)) in H. apply (live_parent _ _ Hl0). destruct (decide (p = 0)) as [->|Hp].
    - rewrite (k_root _ _ _ _ _ K) in H. by rewrite Hr0.
    - rewrite Hat0 by done. rewrite <- (same_def_defined _ _ _ (k_def _ _ _ _ _ K)). by apply (live_defined _ _ (k_live _ _ _ _ _ K)).
  Qed.
  Lemma kept_ctx n e : get_ctx t n = Some e -> exists e0, get_ctx t0 n = Some e0 /\ e_tag e0 = e_tag e /\ e_hints e0 = e_hints e.
  Proof.
    intros H. destruct (same_def_ctx _ _ _ _ (same_def_sym _ _ (k_def _ _ _ _ _ K)) H) as (e0 & He0 & Hd). exists e0. split; [done|].
    unfold definition_of in Hd. split; congruence.
  Qed.

  Definition sees (mt : PseudoMatcher) (a : Tree) := walk (code_simple mt a) (code_related debug a).
  Lemma related_up (a : Tree) c m k : c <> "+"%char -> code_related debug a c m k -> c = ">"%char /\ parent_of a k = Some m.
  Proof.
    intros Hc H. destruct (decide (c = ">"%char)) as [->|Hne]; [|by apply code_unsupported in H]. split; [done|].
    unfold code_related, find_next_target in H. cbn [Ascii.eqb Bool.eqb] in H. by apply parent_spec in H.
  Qed.
  Lemma up_related (a : Tree) m k : parent_of a k = Some m -> code_related debug a ">" m k.
  Proof. intros H. apply child_code; [|done]. unfold parent_of in H. destruct (t_nodes a !! k) as [x|]; [by exists x|done]. Qed.

  (** what is seen now was seen at load time *)
  Lemma sees_before mt mt0 l : (forall c, SCombinator c ∈ l -> c <> "+"%char) -> forall n,
    (forall m s, m = n \/ (above t m n /\ exists c, SCombinator c ∈ l) -> s ∈ l -> as_combinator s = None -> code_simple mt t m s -> code_simple mt0 t0 m s) ->
    sees mt t l n -> sees mt0 t0 l n.
  Proof.
    unfold sees. induction l as [|s l IH]; intros Hc n HP; cbn [walk]; [done|].
    assert (Hc' : forall c, SCombinator c ∈ l -> c <> "+"%char) by (intros c Hin; apply Hc; by apply elem_of_list_further).
    destruct (as_combinator s) as [c|] eqn:E.
    - destruct s; try done. injection E as ->. intros (m & Hr & Hw). destruct (related_up _ _ _ _ (Hc c ltac:(apply elem_of_list_here)) Hr) as [-> Hm].
      exists m. split; [by apply up_related, kept_parent|]. revert Hw. apply IH; [done|].
      intros k s Hk Hin Hs. apply HP; [|by apply elem_of_list_further|done]. right. split; [|exists ">"%char; apply elem_of_list_here].
      destruct Hk as [->|[Hk _]]; [by apply tc_once|]. by eapply tc_r.
    - intros [H1 H2]. split; [apply HP; [by left|apply elem_of_list_here|done..]|]. revert H2. apply IH; [done|].
      intros k s' Hk Hin. apply HP; [|by apply elem_of_list_further]. destruct Hk as [->|[Hk (c & Hcc)]]; [by left|]. right. split; [done|]. exists c. by apply elem_of_list_further.
  Qed.
  (** what was seen at load time is seen now, for elements on the page *)
  Lemma sees_after mt mt0 l : (forall c, SCombinator c ∈ l -> c <> "+"%char) -> forall n, n = 0 \/ at_or_above t 1 n ->
    (forall m s, m = n \/ (above t m n /\ exists c, SCombinator c ∈ l) -> s ∈ l -> as_combinator s = None -> code_simple mt0 t0 m s -> code_simple mt t m s) ->
    sees mt0 t0 l n -> sees mt t l n.
  Proof.
    unfold sees. induction l as [|s l IH]; intros Hc n Hn HP; cbn [walk]; [done|].
    assert (Hc' : forall c, SCombinator c ∈ l -> c <> "+"%char) by (intros c Hin; apply Hc; by apply elem_of_list_further).
    destruct (as_combinator s) as [c|] eqn:E.
    - destruct s; try done. injection E as ->. intros (m & Hr & Hw). destruct (related_up _ _ _ _ (Hc c ltac:(apply elem_of_list_here)) Hr) as [-> Hm].
      assert (Hpar : parent_of t n = Some m /\ (m = 0 \/ at_or_above t 1 m)).
      { destruct Hn as [->|Hn].
        - exfalso. apply (live_parent _ _ Hl0) in Hm. destruct (live_newer _ _ Hl0 m 0 ltac:(by left)). lia.
        - apply rtc_inv_r in Hn as [<-|(p & Hp & Hpn)].
          + assert (H1 : parent_of t 1 = Some 0) by (apply (live_parent _ _ (k_live _ _ _ _ _ K)); rewrite (k_root _ _ _ _ _ K); by left).
            pose proof (kept_parent _ _ H1) as H2. assert (m = 0) as -> by congruence. split; [done|by left].
          + pose proof (kept_parent _ _ Hpn) as H2. assert (m = p) as -> by congruence. split; [done|by right]. }
      destruct Hpar as [Hpar Hm']. exists m. split; [by apply up_related|]. revert Hw. apply IH; [done|done|].
      intros k s Hk Hin Hs. apply HP; [|by apply elem_of_list_further|done]. right. split; [|exists ">"%char; apply elem_of_list_here].
      destruct Hk as [->|[Hk _]]; [by apply tc_once|]. by eapply tc_r.
    - intros [H1 H2]. split; [apply HP; [by left|apply elem_of_list_here|done..]|]. revert H2. apply IH; [done|done|].
      intros k s' Hk Hin. apply HP; [|by apply elem_of_list_further]. destruct Hk as [->|[Hk (c & Hcc)]]; [by left|]. right. split; [done|]. exists c. by apply elem_of_list_further.
  Qed.

  Lemma any_simple_true f s : any_simple f s = true <-> exists sel c, sel ∈ s_selectors s /\ c ∈ sel /\ f c = true.
  Proof.
    unfold any_simple. rewrite existsb_exists. split.
    - intros (sel & Hs & H). apply existsb_exists in H as (c & Hc & Hf). exists sel, c. by rewrite !elem_of_list_In.
    - intros (sel & c & Hs & Hc & Hf). exists sel. rewrite <- elem_of_list_In. split; [done|]. apply existsb_exists. exists c. by rewrite <- elem_of_list_In.
  Qed.
  Lemma simple_same mt mt0 s e e0 : e_tag e0 = e_tag e -> (forall key, looks_at s key -> e_attrs e0 !! key = e_attrs e !! key) ->
    (forall name, s <> SPseudoClass name) -> match_simple_selector mt0 s e0 = match_simple_selector mt s e.
  Proof.
    intros Ht Ha Hp. destruct s; cbn [match_simple_selector looks_at] in *; rewrite ?Ht; try done; try (by rewrite Ha). by edestruct Hp.
  Qed.
  Lemma static_unbound n e s key : get_ctx t n = Some e -> is_static (e_hints e) s = true -> rule_settled bs t n s ->
    rule_looks_at s key -> ~ bound_attribute bs n key.
  Proof.
    intros He Hst (_ & Hfl & _) Hlk Hb.
    assert (Hx : exists f, (exists p b, In (p, b) (flat bs) /\ params_bind (bd_params b) n f key)).
    { destruct Hb as (p & b & Hin & [Hb|Hb]); [exists true|exists false]; exists p, b; (split; [done|]); [by left|by right]. }
    destruct Hx as (f & Hf). destruct (Hh _ _ _ Hf) as (e0 & He0 & Hh1 & Hh2).
    destruct (kept_ctx _ _ He) as (e0' & He0' & _ & Hhe). rewrite He0 in He0'. injection He0' as <-. rewrite Hhe in Hh1, Hh2.
    unfold is_static in Hst. apply orb_true_iff in Hst as [Hst|Hst].
    - apply negb_true_iff in Hst. unfold has_dynamic_properties in Hst. rewrite !orb_false_iff in Hst. destruct Hst as [[Hst _] _].
      unfold has_dynamic_attrs in Hst. apply negb_false_iff, bool_decide_eq_true in Hst. rewrite Hst in Hh1. set_solver.
    - rewrite !andb_true_iff in Hst. destruct Hst as [[S1 S2] S3]. apply negb_true_iff in S1.
      pose proof Hlk as Hlk'. destruct Hlk as (sel & c & Hs & Hc & Hlk). destruct c as [|id|cl|name|name op value| |name|name|comb]; cbn in Hlk; try done.
      + subst key. destruct f.
        * apply (Hfl "id"); [by right|done|]. destruct Hf as (p & b & Hin & [[_ Hb']|[? _]]); [|done]. by exists p, b.
        * destruct (Hh2 eq_refl) as [_ Hi]. rewrite (Hi eq_refl) in S3. cbn in S3. apply negb_true_iff in S3.
          assert (has_id_selector s = true) by (apply any_simple_true; by exists sel, (SId id)). congruence.
      + subst key. destruct f.
        * apply (Hfl "class"); [by left|done|]. destruct Hf as (p & b & Hin & [[_ Hb']|[? _]]); [|done]. by exists p, b.
        * destruct (Hh2 eq_refl) as [Hi _]. rewrite (Hi eq_refl) in S2. cbn in S2. apply negb_true_iff in S2.
          assert (has_class_selector s = true) by (apply any_simple_true; by exists sel, (SClass cl)). congruence.
      + subst name. assert (has_attrs_selector (dynamic_attrs (e_hints e)) s = true); [|congruence].
        apply any_simple_true. exists sel, (SAttribute key op value). split; [done|]. split; [done|]. by apply bool_decide_eq_true.
  Qed.

  Lemma attrs_same n m e s sel c key : get_ctx t n = Some e -> is_static (e_hints e) s = true -> rule_settled bs t n s ->
    sel ∈ s_selectors s -> c ∈ sel -> m = n \/ (above t m n /\ exists c, SCombinator c ∈ rev sel) -> looks_at c key -> attr t m key = attr t0 m key.
  Proof.
    intros He Hst Hse Hs Hc Hm Hlk. apply (k_attr _ _ _ _ _ K). assert (Hr : rule_looks_at s key) by (by exists sel, c). destruct Hm as [->|[Hm (d & Hd)]].
    - by eapply static_unbound.
    - destruct Hse as (_ & _ & Hse). apply (Hse); [|done..]. exists sel, d. split; [done|]. by rewrite elem_of_list_In, in_rev, <- elem_of_list_In.
  Qed.

  Lemma rev_no_plus sel : no_plus sel -> forall c, SCombinator c ∈ rev sel -> c <> "+"%char.
  Proof. intros H c Hc. apply H. by rewrite elem_of_list_In, in_rev, <- elem_of_list_In. Qed.
  Lemma in_rev_sel {A} (x : A) sel : x ∈ rev sel -> x ∈ sel.
  Proof. by rewrite !elem_of_list_In, <- in_rev. Qed.

  Lemma pseudo_or c : (exists name, c = SPseudoClass name) \/ (forall name, c <> SPseudoClass name).
  Proof. destruct c as [|id|cl|name|name op value| |name|name|comb]; try (right; done). left. by exists name. Qed.
  Lemma now_then n e s : get_ctx t n = Some e -> is_static (e_hints e) s = true -> rule_settled bs t n s ->
    match_style debug view_pseudo s n t = Ok true -> matched debug t0 n s = true.
  Proof.
    intros He Hst Hse H. destruct (kept_ctx _ _ He) as (e0 & He0 & _). pose proof Hse as (Hnp & _).
    destruct (style_total debug any_pseudo t0 s n (live_linked _ _ Hl0) Hnp ltac:(by exists e0)) as [b Hb]. unfold matched. rewrite Hb.
    apply (style_selects _ _ _ _ _ _ Hb). destruct (proj1 (style_selects _ _ _ _ _ _ H) eq_refl) as (sel & Hs & Hsel).
    exists sel. split; [done|]. rewrite selects_walk in *. revert Hsel. apply (sees_before view_pseudo any_pseudo); [by apply rev_no_plus, Hnp|].
    intros m c Hm Hc Hcs (em & Hem & Hmatch). destruct (kept_ctx _ _ Hem) as (em0 & Hem0 & Htag & _). exists em0. split; [done|].
    destruct (pseudo_or c) as [(name & ->)|Hp]; [done|]. rewrite <- Hmatch. apply simple_same; [done| |done].
    intros key Hk. pose proof (attrs_same _ m _ s sel c key He Hst Hse Hs (in_rev_sel _ _ Hc) Hm Hk) as Ha. unfold attr in Ha. by rewrite Hem, Hem0 in Ha.
  Qed.
  Lemma then_now n e s : get_ctx t n = Some e -> at_or_above t 1 n -> is_static (e_hints e) s = true -> has_pseudo_class_selector s = false -> rule_settled bs t n s ->
    matched debug t0 n s = true -> match_style debug view_pseudo s n t = Ok true.
  Proof.
    intros He Hon Hst Hnps Hse H. pose proof Hse as (Hnp & _).
    destruct (style_total debug view_pseudo t s n (live_linked _ _ (k_live _ _ _ _ _ K)) Hnp ltac:(by exists e)) as [b Hb]. rewrite Hb. f_equal.
    apply (style_selects _ _ _ _ _ _ Hb). unfold matched in H. destruct (match_style debug any_pseudo s n t0) as [b0| | |] eqn:E; try done.
    apply (style_selects _ _ _ _ _ _ E) in H as (sel & Hs & Hsel).
    exists sel. split; [done|]. rewrite selects_walk in *. revert Hsel. apply (sees_after view_pseudo any_pseudo); [by apply rev_no_plus, Hnp|by right|].
    intros m c Hm Hc Hcs (em0 & Hem0 & Hmatch).
    assert (Hem : exists em, get_ctx t m = Some em).
    { destruct (same_def_ctx _ _ _ _ (k_def _ _ _ _ _ K) Hem0) as (em & Hem & _). by exists em. }
    destruct Hem as [em Hem]. destruct (kept_ctx _ _ Hem) as (em0' & Hem0' & Htag & _). rewrite Hem0 in Hem0'. injection Hem0' as <-. exists em. split; [done|].
    rewrite <- Hmatch. symmetry. apply simple_same; [done|..].
    - intros key Hk. pose proof (attrs_same _ m _ s sel c key He Hst Hse Hs (in_rev_sel _ _ Hc) Hm Hk) as Ha. unfold attr in Ha. by rewrite Hem, Hem0 in Ha.
    - intros name ->. assert (has_pseudo_class_selector s = true); [|congruence]. apply any_simple_true. exists sel, (SPseudoClass name).
      split; [done|]. split; [by apply in_rev_sel|done].
  Qed.

  (** the rules of an element compute the same as all rules matched afresh *)
  Lemma rules_afresh fuel n e : get_ctx t n = Some e -> at_or_above t 1 n -> (forall s, s ∈ sheet -> rule_settled bs t n s) ->
    forall st, cascade_rules fuel debug n t (e_styles e) st = cascade_rules fuel debug n t (map EDynamic sheet) st.
  Proof.
    intros He Hon Hse. assert (n <> 0). { intros ->. apply (above_le _ _ _ _ (k_live _ _ _ _ _ K)) in Hon. lia. }
    rewrite (k_rules _ _ _ _ _ K n e) by done. unfold sorted_out, cascade_rules. revert Hse. generalize sheet as l.
    induction l as [|s l IH]; intros Hse st; [done|]. specialize (IH ltac:(intros s' Hs'; apply Hse; by apply elem_of_list_further)).
    specialize (Hse s ltac:(apply elem_of_list_here)). cbn [omap list_omap map foldR].
    destruct (style_total debug view_pseudo t s n (live_linked _ _ (k_live _ _ _ _ _ K)) (proj1 Hse) ltac:(by exists e)) as [b Hb].
    unfold classify. destruct (matched debug t0 n s) eqn:Em, (is_static (e_hints e) s) eqn:Es; cbn [andb].
    - destruct (has_pseudo_class_selector s) eqn:Ep; cbn [negb foldR].
      + rewrite Hb. cbn [bindR]. destruct b; cbn [bindR]; [|apply IH]. destruct (compute_declaration_block _ _ _); cbn [bindR]; [apply IH|done..].
      + rewrite (then_now _ _ _ He Hon Es Ep Hse Em). cbn [bindR]. destruct (compute_declaration_block _ _ _); cbn [bindR]; [apply IH|done..].
    - cbn [foldR]. rewrite Hb. cbn [bindR]. destruct b; cbn [bindR]; [|apply IH]. destruct (compute_declaration_block _ _ _); cbn [bindR]; [apply IH|done..].
    - destruct b; [by rewrite (now_then _ _ _ He Es Hse Hb) in Em|]. rewrite Hb. cbn [bindR]. apply IH.
    - cbn [foldR]. rewrite Hb. cbn [bindR]. destruct b; cbn [bindR]; [|apply IH]. destruct (compute_declaration_block _ _ _); cbn [bindR]; [apply IH|done..].
  Qed.
End compare.
