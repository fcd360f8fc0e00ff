(** * The element tree of a view is live at all times. *)
From Coq Require Import ZArith Lia.
From stdpp Require Import gmap.
From RecordUpdate Require Import RecordUpdate.
From Verif Require Import Str StrFacts F32 Res ResFacts Json JsonFacts PropKey Html Css Element Tree ViewModel Render Update Matching
  Cascade Initial Animation Apply Styling Events View
  SpecBind SpecReact SpecLive SpecView SpecRender SpecTree BindFacts BindProps FrameFacts RenderTree RenderProps RenderAny RenderMore LiveFacts LiveUpdate.

(** ** Trees that show the same *)
Definition shown (e : Element) := (e_node e, e_children e, e_tag e, e_text e, e_attrs e, e_attrs_bindings e, e_listeners e, e_hints e).
Definition node_shown (x : Node) := (n_parent x, n_children x, shown <$> n_ctx x).
Definition same_shown (t t' : Tree) : Prop :=
  t_next t = t_next t' /\ forall n, node_shown <$> t_nodes t !! n = node_shown <$> t_nodes t' !! n.
Lemma shown_refl t : same_shown t t. Proof. done. Qed.
Lemma shown_trans a b c : same_shown a b -> same_shown b c -> same_shown a c.
Proof. intros [H1 H2] [H3 H4]. split; [congruence|]. intros n. by rewrite H2. Qed.
Lemma content_shown t t' : same_content t t' -> same_shown t t'.
Proof.
  intros [H1 H2]. split; [done|]. intros n. specialize (H2 n). destruct (t_nodes t !! n) as [x|], (t_nodes t' !! n) as [y|]; try done.
  cbn in *. injection H2 as Hp Hc Hx. unfold node_shown. rewrite Hp, Hc. do 2 f_equal.
  destruct (n_ctx x) as [e|], (n_ctx y) as [e'|]; try done. cbn in *. unfold content in Hx. unfold shown. congruence.
Qed.

Lemma shown_ctx t t' n : same_shown t t' -> shown <$> get_ctx t n = shown <$> get_ctx t' n.
Proof.
  intros [_ H]. specialize (H n). unfold get_ctx. destruct (t_nodes t !! n) as [x|], (t_nodes t' !! n) as [y|]; try done.
  cbn in *. by injection H.
Qed.
Lemma shown_attached t t' n : same_shown t t' -> attached t' n = attached t n.
Proof. intros [_ H]. specialize (H n). unfold attached. destruct (t_nodes t !! n), (t_nodes t' !! n); try done. by injection H. Qed.
Lemma shown_parent t t' n : same_shown t t' -> parent_of t' n = parent_of t n.
Proof. intros [_ H]. specialize (H n). unfold parent_of. destruct (t_nodes t !! n), (t_nodes t' !! n); try done. by injection H. Qed.
Lemma shown_def t t' : same_shown t t' -> same_definitions t t'.
Proof.
  intros H. split; [apply H|]. intros n. pose proof (shown_ctx _ _ n H) as Hn.
  destruct (get_ctx t n) as [e|], (get_ctx t' n) as [e'|]; try done. cbn in *. injection Hn. intros. unfold definition_of. congruence.
Qed.
Lemma shown_text t t' n i : same_shown t t' -> text_span t' n i = text_span t n i.
Proof. intros H. pose proof (shown_ctx _ _ n H) as Hn. unfold text_span. destruct (get_ctx t n) as [e|], (get_ctx t' n) as [e'|]; try done. cbn in *. injection Hn. intros. congruence. Qed.
Lemma shown_attr_spans t t' n i : same_shown t t' -> attr_spans t' n i = attr_spans t n i.
Proof. intros H. pose proof (shown_ctx _ _ n H) as Hn. unfold attr_spans. destruct (get_ctx t n) as [e|], (get_ctx t' n) as [e'|]; try done. cbn in *. injection Hn. intros. congruence. Qed.
Lemma shown_attr t t' n i : same_shown t t' -> attr t' n i = attr t n i.
Proof. intros H. pose proof (shown_ctx _ _ n H) as Hn. unfold attr. destruct (get_ctx t n) as [e|], (get_ctx t' n) as [e'|]; try done. cbn in *. injection Hn. intros. congruence. Qed.
Lemma shown_live t t' root : same_shown t t' -> live t root -> live t' root.
Proof.
  intros H Hl. eapply live_same; [exact Hl|by apply shown_def| |intros; by apply shown_attached|intros; by apply shown_parent].
  intros m Hm. destruct H as [H1 H2]. rewrite <- H1 in Hm. specialize (H2 m). rewrite (live_beyond _ _ Hl) in H2 by done.
  by destruct (t_nodes t' !! m).
Qed.

(** ** Rendering and matching give a live tree *)
Lemma rendered_parent read t rn c y q : rendered read t rn -> t_nodes t !! c = Some y -> n_parent y = Some q ->
  exists x, t_nodes t !! q = Some x /\ c ∈ n_children x.
Proof.
  intros [R1 R2 R3 R4] Hy Hq. destruct (decide (c = 0)) as [->|Hc0].
  { change (t_nodes t !! 0 = Some y) in Hy. rewrite R1 in Hy. injection Hy as <-. done. }
  assert (Hlt : c < 1 + rsize rn).
  { destruct (decide (c < 1 + rsize rn)); [done|]. rewrite R3 in Hy by lia. done. }
  destruct (stands_sub read t rn (Some 0) 1 c R4) as (par' & rk & H1 & _ & _ & H2); [lia|].
  apply stands_root in H1. change (t_nodes t !! c = Some y) in Hy. rewrite H1 in Hy. injection Hy as <-. cbn in Hq. subst par'.
  destruct H2 as [(-> & -> & [= ->])|(q' & pq & rq & i & [= <-] & _ & Hsq & Hpl & _)].
  - eexists. split; [exact R1|]. cbn. by left.
  - apply stands_root in Hsq. eexists. split; [exact Hsq|]. cbn. by eapply elem_of_list_lookup_2.
Qed.

Lemma rendered_live read t rn : marks_ok rn -> rendered read t rn -> live t 0 /\ (forall n, n <> 0 -> attached t n = defined t n) /\ attached t 0 = [1].
Proof.
  intros Hmo Hre. pose proof (rendered_tree_ok _ _ _ Hmo Hre) as Hok. pose proof (re_beyond _ _ _ Hre) as Hb.
  pose proof (re_root _ _ _ Hre) as R1.
  assert (H0 : defined t 0 = []) by (unfold defined, get_ctx; by rewrite R1).
  assert (H1 : attached t 0 = [1]) by (unfold attached; by rewrite R1).
  assert (Hat : forall n, n <> 0 -> attached t n = defined t n).
  { intros n Hn. unfold attached, defined, get_ctx. destruct (decide (n < t_next t)) as [Hlt|Hge].
    - destruct (Hok n Hlt) as (x & e & Hx & He & _ & Hc & _). rewrite Hx. cbn. rewrite He. symmetry. by apply Hc.
    - rewrite Hb by lia. done. }
  assert (Hlt : forall n c, c ∈ attached t n -> n < t_next t).
  { intros n c. unfold attached. destruct (decide (n < t_next t)) as [Hlt|Hge]; [done|]. rewrite Hb by lia. by intros ?%elem_of_nil. }
  assert (Hpar : forall n c, c ∈ attached t n <-> parent_of t c = Some n).
  { intros n c. split.
    - intros Hc. destruct (Hok n (Hlt _ _ Hc)) as (x & e & Hx & He & _ & _ & _ & _ & Hp & _).
      unfold attached in Hc. rewrite Hx in Hc. apply Hp in Hc as (y & Hy & Hyp). unfold parent_of. by rewrite Hy.
    - unfold parent_of. destruct (t_nodes t !! c) as [y|] eqn:Ey; [|done]. cbn. intros Hp.
      destruct (rendered_parent _ _ _ _ _ _ Hre Ey Hp) as (x & Hx & Hc). unfold attached. by rewrite Hx. }
  assert (Hde : forall n c, c ∈ defined t n -> n <> 0 /\ c ∈ attached t n).
  { intros n c Hc. destruct (decide (n = 0)) as [->|Hn]; [rewrite H0 in Hc; by apply elem_of_nil in Hc|]. by rewrite Hat. }
  split; [|done]. split.
  - exact Hb.
  - intros n Hn. destruct (Hok n Hn) as (x & e & Hx & He & Hen & Hc & _ & _ & _ & _ & Himg). exists e.
    assert (Hg : get_ctx t n = Some e) by (unfold get_ctx; by rewrite Hx). split; [done|]. split; [done|]. intros Htag.
    assert (Hn0 : n <> 0). { intros ->. rewrite R1 in Hx. injection Hx as <-. cbn in He. injection He as <-. done. }
    split; [by apply Hat|]. rewrite <- Hat by done. unfold attached. rewrite Hx. by apply Himg.
  - intros n. assert (Hnd : NoDup (attached t n)).
    { unfold attached. destruct (decide (n < t_next t)) as [Hl|Hge]; [|rewrite Hb by lia; constructor].
      destruct (Hok n Hl) as (x & e & Hx & _ & _ & _ & Hnd & _). by rewrite Hx. }
    split; [done|]. destruct (decide (n = 0)) as [->|Hn]; [rewrite H0; constructor|]. by rewrite <- Hat.
  - intros n c Hn. by rewrite Hat.
  - intros n c Hc. assert (Hc' : c ∈ attached t n) by (destruct Hc as [?|Hc]; [done|by apply Hde]).
    destruct (Hok n (Hlt _ _ Hc')) as (x & e & Hx & _ & _ & _ & _ & Hnew & _). apply Hnew. unfold attached in Hc'. by rewrite Hx in Hc'.
  - exact Hpar.
  - intros n m c Hn Hm. apply Hde in Hn as [_ Hn]. apply Hde in Hm as [_ Hm]. apply Hpar in Hn. apply Hpar in Hm. congruence.
  - split; [done|]. intros n c Hc. apply Hde in Hc as [Hn Hc]. apply Hpar in Hc. intros H. apply Hpar in H. congruence.
Qed.

Lemma foldR_shown {A} (f : Tree -> A -> res Tree) l : (forall t a t', f t a = Ok t' -> same_shown t t') ->
  forall t t', foldR f t l = Ok t' -> same_shown t t'.
Proof.
  intros Hf. induction l as [|a l IH]; intros t t' H; cbn [foldR] in H; [injection H as <-; apply shown_refl|].
  apply bindR_Ok in H as (t1 & H1 & H). eapply shown_trans; [by eapply Hf|by apply IH].
Qed.
Lemma put_shown n e t e0 : get_ctx t n = Some e0 -> shown e = shown e0 -> same_shown t (put_element n e t).
Proof.
  intros H0 Hs. split; [done|]. intros m. unfold put_element. cbn. destruct (decide (n = m)) as [<-|Hne]; [|by rewrite lookup_alter_ne].
  rewrite lookup_alter. unfold get_ctx in H0. destruct (t_nodes t !! n) as [x|]; [|done]. cbn in *. unfold node_shown. cbn. rewrite H0. cbn. by rewrite Hs.
Qed.
Lemma stylesheet_shown debug styles fuel : forall n t t', calculate_elements_stylesheet fuel debug styles n t = Ok t' -> same_shown t t'.
Proof.
  induction fuel as [|fuel IH]; intros n t t' H; cbn [calculate_elements_stylesheet] in H; [done|].
  apply bindR_Ok in H as (t1 & H1 & H). apply bindR_Ok in H as (cs & Hcs & H). eapply shown_trans.
  - unfold push_styles in H1. eapply foldR_shown; [|exact H1]. clear. intros t s t' H. cbv beta in H.
    apply bindR_Ok in H as (b & Hb & H). apply bindR_Ok in H as (e & He & H). apply get_element_ctx in He.
    destruct (classify _ _ _); injection H as <-; [|apply shown_refl]. by eapply put_shown.
  - eapply foldR_shown; [|exact H]. intros t2 c t3 Hx. exact (IH _ _ _ Hx).
Qed.

(** ** Reactions come from bindings *)
Section reacts.
  Context (fmt : f64 -> string) (bs : Bindings) (tr : Transformers) (df : Defaults) (P : Reaction -> Prop).
  Context (HP : forall p w rs, react fmt bs tr p w = Ok rs -> Forall P rs).

  Lemma bind_fields_reacts src path apath m : Forall (fun e => forall p a d ch rs, bind_value fmt bs tr df (snd e) (src (fst e)) p a = Ok (d, ch, rs) -> Forall P rs) m ->
    forall m' ch rs, bind_fields fmt bs tr df src path apath m = Ok (m', ch, rs) -> Forall P rs.
  Proof.
    induction 1 as [|[k d] m Hd Hm IH]; intros m' ch rs H; cbn [bind_fields] in H; [injection H as <- <- <-; constructor|].
    apply bindR_Ok in H as ([[d' ch1] rs1] & H1 & H). apply bindR_Ok in H as ([[m1 ch2] rs2] & H2 & H). injection H as <- <- <-.
    apply Forall_app. split; [by eapply Hd|by eapply IH].
  Qed.
  Lemma bind_object_reacts src own path apath m : Forall (fun e => forall p a d ch rs, bind_value fmt bs tr df (snd e) (src (fst e)) p a = Ok (d, ch, rs) -> Forall P rs) m ->
    forall m' ch rs, bind_object fmt bs tr df src own path apath m = Ok (m', ch, rs) -> Forall P rs.
  Proof.
    intros Hm m' ch rs H. unfold bind_object in H. apply bindR_Ok in H as ([[o ch1] rs1] & H1 & H).
    apply bind_fields_reacts in H1; [|done]. destruct ch1; [|by injection H as <- <- <-].
    apply bindR_Ok in H as (rs2 & H2 & H). injection H as <- <- <-. apply Forall_app. split; [done|by eapply HP].
  Qed.
  Lemma bind_leaf_reacts dst src p d ch rs : bind_leaf fmt bs tr dst src p = Ok (d, ch, rs) -> Forall P rs.
  Proof.
    unfold bind_leaf. destruct (json_eq dst src); [intros [= <- <- <-]; constructor|]. intros H. apply bindR_Ok in H as (rs2 & H2 & H).
    injection H as <- <- <-. by eapply HP.
  Qed.
  Lemma bind_null_reacts dst : forall p a d ch rs, bind_value fmt bs tr df dst JNull p a = Ok (d, ch, rs) -> Forall P rs.
  Proof.
    induction dst as [| b | n | s | l IH | m IH] using json_ind'; intros p a d ch rs H; rewrite bind_value_eq in H; try (by eapply bind_leaf_reacts).
    - destruct l; [injection H as <- <- <-; constructor|]. apply bindR_Ok in H as (rs2 & H2 & H). injection H as <- <- <-. by eapply HP.
    - eapply (bind_object_reacts (fun _ => JNull)); [exact IH|exact H].
  Qed.
  Lemma bind_reacts src : forall dst p a d ch rs, bind_value fmt bs tr df dst src p a = Ok (d, ch, rs) -> Forall P rs.
  Proof.
    induction src as [| b | n | s | next IH | sm IH] using json_ind'; [apply bind_null_reacts|..]; intros dst p a d ch rs H; rewrite bind_value_eq in H.
    1-3: destruct dst; try (by eapply bind_leaf_reacts); injection H as <- <- <-; constructor.
    - destruct dst as [| | | | cur | m]; try (by eapply bind_leaf_reacts). unfold bind_array in H.
      apply bindR_Ok in H as ([[c ch0] rs0] & H0 & H). apply bindR_Ok in H as ([[l ch1] rs1] & H1 & H). injection H as <- <- <-.
      apply Forall_app. split.
      + unfold resize_array in H0. destruct (Nat.eqb _ _); [injection H0 as <- <- <-; constructor|].
        destruct (df !! a); [|injection H0 as <- <- <-; constructor]. apply bindR_Ok in H0 as (rs2 & H2 & H0). injection H0 as <- <- <-. by eapply HP.
      + clear H0. revert c l ch1 rs1 H1. generalize 0 as i. induction IH as [|s next Hs Hn IHn]; intros i c l ch1 rs1 H1; destruct c as [|d0 c]; cbn [bind_elems] in H1; try done;
          try (injection H1 as <- <- <-; constructor).
        apply bindR_Ok in H1 as ([[d1 ch2] rs2] & H2 & H1). apply bindR_Ok in H1 as ([[l3 ch3] rs3] & H3 & H1). injection H1 as <- <- <-.
        apply Forall_app. split; [by eapply Hs|by eapply IHn].
    - destruct dst as [| | | | cur | m]; try (by eapply bind_leaf_reacts); [injection H as <- <- <-; constructor|].
      eapply bind_object_reacts; [|exact H]. apply List.Forall_forall. intros [k d0] _ p' a' d' ch' rs' H'. cbn [fst snd] in H'.
      unfold field_of in H'. destruct (obj_get k sm) as [s|] eqn:E; [|by eapply bind_null_reacts].
      apply obj_get_In in E. rewrite List.Forall_forall in IH. eapply (IH _ E). exact H'.
  Qed.
End reacts.

Lemma react_from fmt bs tr p w rs : react fmt bs tr p w = Ok rs ->
  Forall (fun r => exists b w', In (p, b) (flat bs) /\ r = react_value_change fmt b w') rs.
Proof.
  unfold react. destruct (obj_get p bs) as [l|] eqn:E; [|intros [= <-]; constructor]. intros H. apply mapR_Forall2 in H.
  apply obj_get_In in E. assert (Hl : forall b, In b l -> In (p, b) (flat bs)) by (intros b Hb; apply in_flat; eauto). clear E.
  induction H as [|b r l rs Hb Hrs IH]; [constructor|]. constructor.
  - apply bindR_Ok in Hb as (w' & _ & [= <-]). exists b, w'. split; [apply Hl; by left|done].
  - apply IH. intros b' Hb'. apply Hl. by right.
Qed.

Lemma binding_reaction_ok t fmt b w : binding_ok t b -> reaction_ok t (react_value_change fmt b w).
Proof.
  unfold binding_ok, react_value_change. destruct (bd_params b) as [n i|p n v|n k i|n k|p s z]; cbn [reaction_ok].
  - intros (e & spans & He & Hs & _). exists e. split; [done|]. rewrite Hs. eauto.
  - done.
  - done.
  - done.
  - intros (e & He & Hsz & Htag). destruct (as_array w) as [l|]; cbn [reaction_ok]; exists e; split; try done.
    + destruct (Nat.ltb_spec z (List.length l)); split; try lia; done.
    + split; [lia|]. done.
Qed.
Lemma binding_ok_def t t' b : same_definitions t t' -> binding_ok t b -> binding_ok t' b.
Proof.
  intros Hd. unfold binding_ok. destruct (bd_params b) as [n i|p n v|n k i|n k|p s z].
  - intros (e & spans & He & Hs & Hi). destruct (same_def_ctx _ _ _ _ Hd He) as (e' & He' & Heq). injection Heq as _ _ _ Heq _ _ _.
    rewrite Hs in Heq. destruct (e_text e') as [sp|] eqn:Et; [|done]. cbn in Heq. injection Heq as Heq. exists e', sp. split; [done|]. split; [done|lia].
  - intros (e & He & H). destruct (same_def_ctx _ _ _ _ Hd He) as (e' & He' & Heq). injection Heq as _ Hc Ht _ _ _ _. exists e'. by rewrite Hc, Ht.
  - intros (e & He & [l Hl]). destruct (same_def_ctx _ _ _ _ Hd He) as (e' & He' & Heq). injection Heq as _ _ _ _ Heq _ _. exists e'. split; [done|].
    assert (Hk : (List.length <$> e_attrs_bindings e') !! k = (List.length <$> e_attrs_bindings e) !! k) by (by rewrite Heq).
    rewrite !lookup_fmap, Hl in Hk. cbn in Hk. destruct (e_attrs_bindings e' !! k); [eauto|done].
  - intros [e He]. destruct (same_def_ctx _ _ _ _ Hd He) as (e' & He' & Heq). eauto.
  - intros (e & He & H). destruct (same_def_ctx _ _ _ _ Hd He) as (e' & He' & Heq). injection Heq as _ Hc Ht _ _ _ _. exists e'. by rewrite Hc, Ht.
Qed.

(** ** Views *)
Record sound (v : View) : Prop := {
  so_live : live (v_tree v) (v_root v);
  so_bind : forall p b, In (p, b) (flat (v_bindings v)) -> binding_ok (v_tree v) b;
  so_root : v_root v = 0
}.

Lemma view_bind_reactions_ok X v x m rs : sound v -> view_bind X v x = Ok (m, rs) -> Forall (reaction_ok (v_tree v)) rs.
Proof.
  intros Hs H. unfold view_bind in H. apply bindR_Ok in H as ([[m' ch] rs'] & H & [= <- <-]).
  eapply bind_reacts; [|exact H]. intros p w rs Hr. eapply Forall_impl; [|by eapply react_from]. cbv beta.
  intros r (b & w' & Hb & ->). apply binding_reaction_ok. by eapply so_bind.
Qed.

Lemma default_reactions_ok t bs : (forall p b, In (p, b) (flat bs) -> binding_ok t b) -> Forall (reaction_ok t) (default_reactions bs).
Proof.
  intros Hb. apply List.Forall_forall. intros r Hr. unfold default_reactions in Hr. apply in_flat_map in Hr as ([p l] & Hp & Hr).
  apply elem_of_list_In, elem_of_list_omap in Hr as (b & Hbl & Hr). cbn [snd] in Hbl. apply elem_of_list_In in Hbl.
  assert (Hok : binding_ok t b) by (eapply (Hb p); apply in_flat; eauto). unfold binding_ok in Hok.
  destruct (bd_params b); try done. injection Hr as <-. exact Hok.
Qed.

Lemma from_document_stages X fuel doc css v : from_document X fuel doc css = Ok v ->
  exists templates body r root b t rn ps, scan_document (h_children doc) ∅ = (templates, body) /\
    render (x_translate X) (x_read_inline_css X) templates fuel body renderer_new = Ok (r, root, b) /\
    marks_ok rn /\ rendered (x_read_inline_css X) (r_tree r) rn /\ flat (v_bindings v) ≡ₚ bindings_of 1 rn /\ obj_sorted (v_bindings v) = true /\
    r_static_id r = add_ids ∅ (ids_of 1 rn) /\
    r_schema r = foldl define_value schema_new ps /\ v_model v = r_schema r /\
    same_shown (r_tree r) t /\ (forall p b, In (p, b) (flat (v_bindings v)) -> binding_ok t b) /\
    apply_default_bindings_state (x_read_inline_css X) (v_bindings v) (t, r_static_id r) = Ok (v_tree v, v_ids v) /\
    v_root v = 0 /\ v_body v = 1 /\ v_transformers v = x_transformers X /\ v_css v = css /\ v_session v = session_new.
Proof.
  unfold from_document. destruct (scan_document _ _) as [templates body]. intros H.
  apply bindR_Ok in H as ([[r root] b] & Hr & H). apply bindR_Ok in H as (d & Hd & H). apply bindR_Ok in H as (t & Ht & H).
  apply bindR_Ok in H as ([t' ids] & Ha & H). injection H as <-. cbn.
  destruct (render_any _ _ _ _ _ _ _ _ Hr) as (rn & ps & Hm & -> & -> & Hre & Hsid & Hso & Hfl & Hsch).
  exists templates, body, r, 0, 1, t, rn, ps. do 9 (split; [done|]).
  pose proof (stylesheet_shown _ _ _ _ _ _ Ht) as Hsh. split; [done|]. split; [|done].
  intros p b Hb. eapply binding_ok_def; [by apply shown_def|]. eapply stands_bindings_ok; [apply (re_stands _ _ _ Hre)|done|].
  apply elem_of_list_In. rewrite <- Hfl. by apply elem_of_list_In.
Qed.

Lemma from_document_sound X fuel doc css v : from_document X fuel doc css = Ok v -> sound v.
Proof.
  intros H. apply from_document_stages in H as (templates & body & r & root & b & t & rn & ps & _ & _ & Hm & Hre & Hfl & _ & _ & _ & _ & Hsh & Hb & Ha & Hr0 & _).
  destruct (rendered_live _ _ _ Hm Hre) as (Hl & _). pose proof (shown_live _ _ _ Hsh Hl) as Hl'.
  destruct (update_trees_ok (x_read_inline_css X) _ t (r_static_id r) 0 Hl' (default_reactions_ok _ _ Hb)) as (t' & ids' & H' & Hl2 & Hd).
  unfold apply_default_bindings_state in Ha. rewrite Ha in H'. injection H' as Heq _. subst t'. split; [by rewrite Hr0| |done].
  intros p b' Hb'. eapply binding_ok_def; [exact Hd|by eapply Hb].
Qed.

Lemma update_sound X fuel v i x v' o : sound v -> update X fuel v i x = Ok (v', o) -> sound v'.
Proof.
  intros Hs H. apply update_content in H as (m & rs & t & ids & Hb & Ht & _ & _ & Hc & Hbs & _ & _ & _ & Hroot & _).
  pose proof (view_bind_reactions_ok _ _ _ _ _ Hs Hb) as Hok. pose proof Hs as [Hl Hbi H0].
  destruct (update_trees_ok (x_read_inline_css X) rs (v_tree v) (v_ids v) (v_root v) Hl Hok) as (t' & ids' & H' & Hl' & Hd).
  rewrite Ht in H'. injection H' as Heq _. subst t'. pose proof (content_shown _ _ Hc) as Hsh.
  split.
  - rewrite Hroot. by eapply shown_live.
  - intros p b Hin. rewrite Hbs in Hin. eapply binding_ok_def; [|by eapply Hbi]. eapply same_def_trans; [exact Hd|by apply shown_def].
  - by rewrite Hroot.
Qed.
Lemma updates_sound X fuel : forall hist v v' os, sound v -> updates X fuel v hist = Ok (v', os) -> sound v'.
Proof.
  induction hist as [|[i x] hist IH]; intros v v' os Hs H; cbn [updates] in H; [by injection H as <- _|].
  apply bindR_Ok in H as ([v1 o1] & H1 & H). apply bindR_Ok in H as ([v2 os2] & H2 & H). injection H as <- <-.
  eapply IH; [|exact H2]. by eapply update_sound.
Qed.
Lemma reached_sound X fuel doc css v0 hist v os : from_document X fuel doc css = Ok v0 -> updates X fuel v0 hist = Ok (v, os) -> sound v.
Proof. intros H0 H. eapply updates_sound; [|exact H]. by eapply from_document_sound. Qed.
