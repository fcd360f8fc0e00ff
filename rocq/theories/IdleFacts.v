(** * Rules for elements that a page does not have (C86): proofs. *)
From Coq Require Import ZArith Lia.
From stdpp Require Import gmap.
From RecordUpdate Require Import RecordUpdate.
From Verif Require Import Str StrFacts F32 Res ResFacts Json JsonFacts PropKey Html Css Element Tree ViewModel Render Update Matching
  Cascade Initial Animation Apply Styling Events View
  SpecBind SpecReact SpecLive SpecView SpecRender SpecTree BindFacts BindProps FrameFacts RenderTree RenderProps RenderAny RenderMore LiveFacts LiveUpdate
  LiveView SelectLive SpecIdle.

Definition refuses (e : Element) (r : Style) : Prop := forall c, In c (s_selectors r) -> exists tag, asks_for tag c /\ e_tag e <> tag.
Definition absent (t : Tree) (r : Style) : Prop := forall n, is_Some (t_nodes t !! n) -> exists e, get_ctx t n = Some e /\ refuses e r.

Lemma refused debug m t n e tag before after : (forall s, In s after -> as_combinator s = None) -> e_tag e <> tag ->
  match_components debug m (after ++ SType tag :: before) n e t = Ok false.
Proof.
  intros Ha Ht. induction after as [|s after IH]; cbn [app match_components as_combinator].
  - cbn [match_simple_selector]. apply String.eqb_neq in Ht. by rewrite Ht.
  - rewrite (Ha s (or_introl eq_refl)). rewrite IH by (intros s' Hs; apply Ha; by right). by destruct (match_simple_selector m s e).
Qed.
Lemma refuses_rule debug m t n e r : get_ctx t n = Some e -> refuses e r -> match_style debug m r n t = Ok false.
Proof.
  intros He Hr. unfold match_style. unfold refuses in Hr. induction (s_selectors r) as [|c cs IH]; [done|]. cbn [match_any].
  destruct (Hr c (or_introl eq_refl)) as (tag & (before & after & -> & Ha) & Ht).
  unfold match_complex_selector. rewrite He. cbn [unwrap bindR]. rewrite rev_app_distr. cbn [rev]. rewrite <- app_assoc. cbn [app].
  rewrite refused; [|intros s Hs; apply Ha; by apply in_rev|done]. cbn [bindR]. apply IH. intros c' Hc. apply Hr. by right.
Qed.
Lemma kind_static h r : by_kind r -> is_static h r = true.
Proof.
  intros Hk. unfold is_static, has_attrs_selector, has_class_selector, has_id_selector, any_simple.
  assert (Hno : forall f, (forall s, match s with SId _ | SClass _ | SAttribute _ _ _ => True | _ => f s = false end) -> existsb (existsb f) (s_selectors r) = false).
  { intros f Hf. apply not_true_is_false. intros H. apply existsb_exists in H as (c & Hc & H). apply existsb_exists in H as (s & Hs & H).
    specialize (Hk c s Hc Hs). specialize (Hf s). destruct s; congruence || contradiction. }
  rewrite !Hno by (intros []; done). cbn. by rewrite !orb_true_r.
Qed.

Lemma absent_shown t t' r : same_shown t t' -> absent t r -> absent t' r.
Proof.
  intros Hs Ha n Hn. assert (Hn' : is_Some (t_nodes t !! n)).
  { destruct Hs as [_ Hs]. specialize (Hs n). destruct Hn as [x Hx]. rewrite Hx in Hs. by destruct (t_nodes t !! n). }
  destruct (Ha n Hn') as (e & He & Hr). pose proof (shown_ctx _ _ n Hs) as H. rewrite He in H. cbn in H.
  destruct (get_ctx t' n) as [e'|]; [|done]. exists e'. split; [done|]. cbn in H. unfold refuses in *. unfold shown in H.
  assert (e_tag e' = e_tag e) as -> by congruence. exact Hr.
Qed.

Lemma push_app debug l l' n t : push_styles debug (l ++ l') n t = (do! t <- push_styles debug l n t; push_styles debug l' n t).
Proof. unfold push_styles. apply foldR_app. Qed.
Lemma push_shown debug l n t t' : push_styles debug l n t = Ok t' -> same_shown t t'.
Proof.
  unfold push_styles. intros H1. eapply foldR_shown; [|exact H1]. clear. intros t s t' H. cbv beta in H.
  apply bindR_Ok in H as (b & Hb & H). apply bindR_Ok in H as (e & He & H). apply get_element_ctx in He.
  destruct (classify _ _ _); injection H as <-; [|apply shown_refl]. by eapply put_shown.
Qed.
Lemma push_idle debug l r l' n t t' : by_kind r -> absent t r -> is_Some (t_nodes t !! n) ->
  push_styles debug (l ++ l') n t = Ok t' -> push_styles debug (l ++ r :: l') n t = Ok t'.
Proof.
  intros Hk Ha Hn H. rewrite push_app in H |- *. apply bindR_Ok in H as (t1 & H1 & H). rewrite H1. cbn [bindR].
  pose proof (push_shown _ _ _ _ _ H1) as Hs. pose proof (absent_shown _ _ _ Hs Ha) as Ha1.
  assert (Hn1 : is_Some (t_nodes t1 !! n)). { destruct Hs as [_ Hs]. specialize (Hs n). destruct Hn as [x Hx]. rewrite Hx in Hs. by destruct (t_nodes t1 !! n). }
  destruct (Ha1 n Hn1) as (e & He & Hr). unfold push_styles. cbn [foldR].
  rewrite (refuses_rule debug any_pseudo t1 n e r He Hr). cbn [bindR]. unfold get_element. rewrite He. cbn [ok_or bindR].
  unfold classify. rewrite (kind_static _ r Hk). cbn [bindR]. exact H.
Qed.
Lemma children_node t n cs : children t n = Ok cs -> is_Some (t_nodes t !! n).
Proof. unfold children, get_node. destruct (t_nodes t !! n); [by eexists|done]. Qed.
Lemma calculate_idle debug l r l' fuel : by_kind r -> forall n t t', absent t r ->
  calculate_elements_stylesheet fuel debug (l ++ l') n t = Ok t' -> calculate_elements_stylesheet fuel debug (l ++ r :: l') n t = Ok t'.
Proof.
  intros Hk. induction fuel as [|fuel IH]; intros n t t' Ha H; [done|]. cbn [calculate_elements_stylesheet] in *.
  apply bindR_Ok in H as (t1 & H1 & H). apply bindR_Ok in H as (cs & Hcs & H). pose proof (push_shown _ _ _ _ _ H1) as Hs.
  assert (Hn : is_Some (t_nodes t !! n)). { rewrite (children_shown _ _ n Hs) in Hcs. by eapply children_node. }
  rewrite (push_idle debug l r l' n t t1 Hk Ha Hn H1). cbn [bindR]. rewrite Hcs. cbn [bindR].
  pose proof (absent_shown _ _ _ Hs Ha) as Ha1. clear -IH H Ha1. revert t1 H Ha1.
  induction cs as [|c cs IHc]; intros t1 H Ha1; [done|]. cbn [foldR] in *. apply bindR_Ok in H as (t2 & H2 & H).
  rewrite (IH c t1 t2 Ha1 H2). cbn [bindR]. apply IHc; [exact H|]. eapply absent_shown; [|exact Ha1]. by eapply stylesheet_shown.
Qed.

Lemma load_idle X fuel doc l r l' an v0 : by_kind r -> from_document X fuel doc (mkCss (l ++ l') an) = Ok v0 -> without_element v0 r ->
  from_document X fuel doc (mkCss (l ++ r :: l') an) = Ok (v0 <| v_css := mkCss (l ++ r :: l') an |>).
Proof.
  intros Hk H0 Hw. pose proof H0 as Hst. pose proof (from_document_sound _ _ _ _ _ Hst) as Hso.
  unfold from_document in H0 |- *. destruct (scan_document _ _) as [templates body].
  apply bindR_Ok in H0 as ([[rr root] b] & Hr & H). apply bindR_Ok in H as (d & Hd & H). apply bindR_Ok in H as (t & Ht & H).
  apply bindR_Ok in H as ([t' ids] & Hu & H). rewrite Hr. cbn [bindR]. rewrite Hd. cbn [bindR]. cbn [css_styles] in *.
  rewrite (calculate_idle (x_debug X) l r l' _ Hk b (r_tree rr) t).
  - cbn [bindR]. rewrite Hu. cbn [bindR]. injection H as <-. reflexivity.
  - injection H as <-. destruct (render_any _ _ _ _ _ _ _ _ Hr) as (rn & ps & Hm & -> & -> & Hre & Hsid & Hso' & Hfl & Hsch).
    pose proof (stylesheet_shown _ _ _ _ _ _ Ht) as Hsh. destruct (rendered_live _ _ _ Hm Hre) as (Hl & Hat & H1).
    assert (Hok : Forall (reaction_ok t) (default_reactions (r_bindings rr))).
    { apply default_reactions_ok. intros p b Hb. eapply binding_ok_def; [by apply shown_def|]. eapply stands_bindings_ok; [apply (re_stands _ _ _ Hre)|done|].
      apply elem_of_list_In. rewrite <- Hfl. by apply elem_of_list_In. }
    destruct (update_trees_ok (x_read_inline_css X) _ t (r_static_id rr) 0 (shown_live _ _ _ Hsh Hl) Hok) as (t2 & ids2 & Hu2 & _ & Hdef).
    unfold apply_default_bindings_state in Hu. rewrite Hu in Hu2. injection Hu2 as <- <-.
    pose proof (same_def_trans _ _ _ (shown_def _ _ Hsh) Hdef) as Hall.
    intros n Hn. assert (Hlt : n < t_next (r_tree rr)).
    { destruct (le_lt_dec (t_next (r_tree rr)) n) as [Hle|]; [|done]. rewrite (live_beyond _ _ Hl n Hle) in Hn. by destruct Hn. }
    destruct (live_node _ _ Hl n Hlt) as (e & He & _). exists e. split; [done|].
    destruct (same_def_ctx _ _ _ _ Hall He) as (e' & He' & Heq). intros c Hc.
    destruct (Hw c Hc) as (tag & Has & Hno). exists tag. split; [done|]. specialize (Hno n e' He').
    unfold definition_of in Heq. assert (e_tag e' = e_tag e) by congruence. congruence.
  - exact Ht.
Qed.

Lemma foldR_same {S A} (f g : S -> A -> res S) l : (forall s a, f s a = g s a) -> forall s, foldR f s l = foldR g s l.
Proof. intros H. induction l as [|a l IH]; intros s; [reflexivity|]. cbn [foldR]. rewrite H. destruct (g s a); cbn [bindR]; [apply IH|reflexivity..]. Qed.
Lemma play_css fuel time l l' an vars st : play_animators fuel (mkCss l' an) time vars st = play_animators fuel (mkCss l an) time vars st.
Proof. reflexivity. Qed.
Lemma cascade_css fuel debug order time l l' an sizes vars n t p lay e :
  cascade_apply_styles fuel debug (mkCss l' an) order time sizes vars n t p lay e = cascade_apply_styles fuel debug (mkCss l an) order time sizes vars n t p lay e.
Proof.
  unfold cascade_apply_styles. destruct (cascade_rules _ _ _ _ _ _) as [[vs s]| | |]; cbn [bindR]; [|reflexivity..].
  destruct (compute_declaration_block _ _ _) as [[vs' s']| | |]; cbn [bindR]; [|reflexivity..].
  rewrite (play_css fuel time l l' an). reflexivity.
Qed.
Lemma apply_css fuel debug order time l l' an : forall depth n sizes vars t,
  apply_styles fuel debug (mkCss l' an) order time depth n sizes vars t = apply_styles fuel debug (mkCss l an) order time depth n sizes vars t.
Proof.
  induction depth as [|depth IH]; intros n sizes vars t; [reflexivity|]. cbn [apply_styles].
  destruct (parent t n) as [p| | |]; cbn [bindR]; [|reflexivity..]. destruct (ok_or _ _) as [pe| | |]; cbn [bindR]; [|reflexivity..].
  destruct (style t n) as [lay| | |]; cbn [bindR]; [|reflexivity..]. destruct (get_element t n) as [e| | |]; cbn [bindR]; [|reflexivity..].
  destruct (e_text e); [reflexivity|]. rewrite (cascade_css fuel debug order time l l' an).
  destruct (cascade_apply_styles _ _ _ _ _ _ _ _ _ _ _ _) as [[[lay' e'] vars']| | |]; cbn [bindR]; [|reflexivity..].
  destruct (set_style _ _ _) as [t1| | |]; cbn [bindR]; [|reflexivity..]. destruct (_ || _); [reflexivity|].
  destruct (children t1 n) as [cs| | |]; cbn [bindR]; [|reflexivity..].
  apply foldR_same. intros t2 c. apply IH.
Qed.

(** the rules of the sheet are not looked at after loading *)
Lemma update_css X fuel v i x l l' an : v_css v = mkCss l an ->
  update X fuel (v <| v_css := mkCss l' an |>) i x = (do! (v1, o) <- update X fuel v i x; Ok (v1 <| v_css := mkCss l' an |>, o)).
Proof.
  intros Hc. unfold update, prepare.
  assert (Hb : view_bind X (v <| v_css := mkCss l' an |>) x = view_bind X v x) by reflexivity. rewrite Hb. clear Hb.
  destruct (view_bind X v x) as [[m rs]| | |]; cbn [bindR]; [|reflexivity..].
  change (v_tree (v <| v_css := mkCss l' an |>)) with (v_tree v). change (v_ids (v <| v_css := mkCss l' an |>)) with (v_ids v).
  destruct (update_trees _ _ rs) as [[t ids]| | |]; cbn [bindR]; [|reflexivity..].
  change (v_root (v <| v_css := mkCss l' an |>)) with (v_root v). destruct (set_viewport _ _ t) as [t1| | |]; cbn [bindR]; [|reflexivity..].
  change (v_css (v <| v_css := mkCss l' an |>)) with (mkCss l' an). rewrite Hc.
  change (v_body (v <| v_css := mkCss l' an |>)) with (v_body v).
  rewrite (apply_css fuel (x_debug X) (x_order X) (in_time i) l l' an). destruct (apply_styles _ _ _ _ _ _ _ _ _ t1) as [t2| | |]; cbn [bindR]; [|reflexivity..].
  destruct (compute_final_positions _ _ _ _ _ _) as [t3| | |]; cbn [bindR]; [|reflexivity..].
  change (v_transformers (v <| v_css := mkCss l' an |>)) with (v_transformers v). change (v_session (v <| v_css := mkCss l' an |>)) with (v_session v).
  destruct (handle_output _ _ _ _ _ _ _) as [[[s t4] o]| | |]; cbn [bindR]; [|reflexivity..]. reflexivity.
Qed.
Lemma update_keeps_css X fuel v i x v' o : update X fuel v i x = Ok (v', o) -> v_css v' = v_css v.
Proof. unfold update. intros H. apply bindR_Ok in H as ([[m t] ids] & _ & H). apply bindR_Ok in H as ([[s t'] o'] & _ & H). injection H as <- _. reflexivity. Qed.
Lemma updates_css X fuel l l' an : forall hist v, v_css v = mkCss l an ->
  updates X fuel (v <| v_css := mkCss l' an |>) hist = (do! (v1, os) <- updates X fuel v hist; Ok (v1 <| v_css := mkCss l' an |>, os)).
Proof.
  induction hist as [|[i x] hist IH]; intros v Hc; [done|]. cbn [updates]. rewrite (update_css X fuel v i x l l' an Hc).
  destruct (update X fuel v i x) as [[v1 o]| | |] eqn:E; cbn [bindR]; [|reflexivity..].
  rewrite IH by (by rewrite (update_keeps_css _ _ _ _ _ _ _ E)). by destruct (updates X fuel v1 hist) as [[v2 os]| | |].
Qed.

Lemma load_extended X fuel doc an rules rules' v0 : extended (fun r => by_kind r /\ without_element v0 r) rules rules' ->
  forall pre, from_document X fuel doc (mkCss (pre ++ rules) an) = Ok v0 ->
  from_document X fuel doc (mkCss (pre ++ rules') an) = Ok (v0 <| v_css := mkCss (pre ++ rules') an |>).
Proof.
  intros He. induction He as [|r rules rules' He IH|r rules rules' [Hk Hw] He IH]; intros pre H0.
  - rewrite H0. f_equal. pose proof (loaded_rules _ _ _ _ _ H0) as (? & ? & ? & ? & _ & _ & _ & _ & _ & _ & Hc & _). clear H0.
    rewrite <- Hc. by destruct v0.
  - specialize (IH (pre ++ [r])). rewrite <- !app_assoc in IH. cbn [app] in IH. exact (IH H0).
  - specialize (IH pre H0). apply (load_idle X fuel doc pre r rules' an _ Hk) in IH; [exact IH|exact Hw].
Qed.
