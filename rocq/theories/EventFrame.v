(** * Everything before the input events leaves the element flags alone. *)
From Coq Require Import ZArith Lia.
From stdpp Require Import gmap.
From RecordUpdate Require Import RecordUpdate.
From Verif Require Import Str F32 Res ResFacts Json PropKey Html Css Element Tree ViewModel Render Update Matching
  Cascade Initial Animation Apply Styling Events View SpecReact SpecLive SpecView SpecRender SpecTree SpecEvents
  FrameFacts RenderTree RenderProps RenderAny RenderMore LiveFacts LiveUpdate LiveView EventFacts.

Definition same_states (t t' : Tree) : Prop := forall n, st_of t' n = st_of t n.
Lemma ss_refl t : same_states t t. Proof. done. Qed.
Lemma ss_trans a b c : same_states a b -> same_states b c -> same_states a c.
Proof. intros H1 H2 n. by rewrite H2. Qed.
Lemma ss_put t n e e0 : get_ctx t n = Some e0 -> e_state e = e_state e0 -> same_states t (put_element n e t).
Proof.
  intros H He k. unfold st_of. destruct (decide (n = k)) as [<-|Hne].
  - erewrite get_put_same by done. rewrite H. cbn. by rewrite He.
  - by rewrite get_put_ne.
Qed.
Lemma ss_flag g t t' n : same_states t t' -> flag g t' n <-> flag g t n.
Proof. intros H. by rewrite !flag_st, H. Qed.
Lemma ss_some t t' n : same_states t t' -> is_Some (get_ctx t n) -> is_Some (get_ctx t' n).
Proof. intros H [e He]. specialize (H n). unfold st_of in H. rewrite He in H. destruct (get_ctx t' n); [by eexists|done]. Qed.

Lemma foldR_ss {A} (f : Tree -> A -> res Tree) l : (forall t a t', f t a = Ok t' -> same_states t t') ->
  forall t t', foldR f t l = Ok t' -> same_states t t'.
Proof.
  intros Hf. induction l as [|a l IH]; intros t t' H; cbn [foldR] in H; [injection H as <-; apply ss_refl|].
  apply bindR_Ok in H as (t1 & H1 & H). eapply ss_trans; [by eapply Hf|by eapply IH].
Qed.

(** ** Reactions *)
Lemma ss_nodes t n x f : t_nodes t !! n = Some x -> n_ctx (f x) = n_ctx x -> same_states t (put_node t n (f x)).
Proof.
  intros Hx Hf k. unfold st_of, get_ctx, put_node. cbn. destruct (decide (n = k)) as [<-|Hne].
  - rewrite lookup_insert, Hx. cbn. by rewrite Hf.
  - by rewrite lookup_insert_ne.
Qed.
Lemma set_parent_ss n p t t' : set_parent n p t = Ok t' -> same_states t t'.
Proof. unfold set_parent, get_node. intros H. inv_ok. by apply (ss_nodes t n r (fun r => r <| n_parent := p |>)). Qed.
Lemma put_children_ss n p t t' : put_children n p t = Ok t' -> same_states t t'.
Proof. unfold put_children, get_node. intros H. inv_ok. by apply (ss_nodes t n r (fun r => r <| n_children := p |>)). Qed.
Lemma set_style_ss n p t t' : set_style n p t = Ok t' -> same_states t t'.
Proof. unfold set_style, get_node. intros H. inv_ok. by apply (ss_nodes t n r (fun r => r <| n_style := p |>)). Qed.
Lemma add_child_ss p c t t' : add_child p c t = Ok t' -> same_states t t'.
Proof. unfold add_child. intros H. inv_ok. eapply ss_trans; [by eapply set_parent_ss|by eapply put_children_ss]. Qed.
Lemma insert_child_ss p i c t t' : insert_child_at_index p i c t = Ok t' -> same_states t t'.
Proof.
  unfold insert_child_at_index. intros H. apply bindR_Ok in H as (cs & _ & H). destruct (_ <? _)%nat; [done|].
  inv_ok. eapply ss_trans; [by eapply set_parent_ss|by eapply put_children_ss].
Qed.
Lemma remove_at_ss p i t t' : remove_child_at_index p i t = Ok t' -> same_states t t'.
Proof.
  unfold remove_child_at_index. intros H. apply bindR_Ok in H as (cs & _ & H). destruct (cs !! i); [|done].
  inv_ok. eapply ss_trans; [by eapply put_children_ss|by eapply set_parent_ss].
Qed.
Lemma mark_dirty_id n t t' : mark_dirty n t = Ok t' -> t' = t.
Proof. unfold mark_dirty. intros H. by inv_ok. Qed.

Lemma update_tree_ss ric t ids r t' ids' : update_tree ric (t, ids) r = Ok (t', ids') -> same_states t t'.
Proof.
  destruct r as [n j x|p c vis|p s c z|n k b|n k j x]; cbn [update_tree]; intros H.
  - destruct (get_ctx t n) as [e|] eqn:He; [|done]. destruct (e_text e); [|done].
    apply bindR_Ok in H as (t1 & H1 & H). injection H as <- <-. apply mark_dirty_id in H1 as ->. by eapply ss_put.
  - apply bindR_Ok in H as (t1 & H1 & H). injection H as <- <-. unfold reattach in H1.
    apply bindR_Ok in H1 as (pe & _ & H1). apply bindR_Ok in H1 as (di & _ & H1). apply bindR_Ok in H1 as (cur & _ & H1).
    destruct vis, (position _ _); inv_ok; try apply ss_refl; [by eapply insert_child_ss|by eapply remove_at_ss].
  - apply bindR_Ok in H as (t1 & H1 & H). injection H as <- <-. unfold repeat_children in H1.
    apply bindR_Ok in H1 as (pe & _ & H1). apply bindR_Ok in H1 as (vs & _ & H1). apply bindR_Ok in H1 as (sh & _ & H1). apply bindR_Ok in H1 as (hi & _ & H1).
    apply bindR_Ok in H1 as (t2 & H2 & H1). eapply ss_trans.
    + eapply foldR_ss; [|exact H2]. intros t3 a t4 H3. cbv beta in H3. destruct (memb _ _); [injection H3 as <-; apply ss_refl|by eapply add_child_ss].
    + eapply foldR_ss; [|exact H1]. intros t3 a t4 H3. cbv beta in H3. destruct (memb _ _); [|injection H3 as <-; apply ss_refl].
      unfold remove_child in H3. inv_ok. by eapply remove_at_ss.
  - apply bindR_Ok in H as (e & He & H). apply get_element_ctx in He. injection H as <- <-. eapply ss_put; [done|]. by destruct b.
  - apply bindR_Ok in H as (e & He & H). apply get_element_ctx in He. apply bindR_Ok in H as (sp & _ & H).
    set (e1 := e <| e_attrs_bindings ::= _ |> <| e_attrs ::= _ |>) in H.
    set (e2 := if String.eqb k "style" then _ else e1) in H.
    assert (He2 : e_state e2 = e_state e). { unfold e2. destruct (String.eqb k "style"); [|done]. by destruct (ric _). }
    assert (H1 : same_states t (put_element n e2 t)) by by eapply ss_put.
    destruct (_ && _); [|by injection H as <- <-]. apply bindR_Ok in H as (t2 & H2 & H). injection H as <- <-. eapply ss_trans; [exact H1|].
    unfold update_img_src in H2. apply bindR_Ok in H2 as (c & _ & H2). apply bindR_Ok in H2 as (ce & Hce & H2). apply get_element_ctx in Hce.
    apply mark_dirty_id in H2 as ->. by eapply ss_put.
Qed.
Lemma update_trees_ss ric rs : forall t ids t' ids', update_trees ric (t, ids) rs = Ok (t', ids') -> same_states t t'.
Proof.
  unfold update_trees. induction rs as [|r rs IH]; intros t ids t' ids' H; cbn [foldR] in H; [injection H as <- <-; apply ss_refl|].
  apply bindR_Ok in H as ([t1 ids1] & H1 & H). eapply ss_trans; [by eapply update_tree_ss|by eapply IH].
Qed.

(** ** Styling *)
Lemma apply_state sizes key i v st : e_state (snd (apply sizes key i v st)) = e_state (snd st).
Proof.
  destruct key; try reflexivity; cbn [apply]; unfold assign;
    repeat (case_match; try reflexivity).
Qed.
Lemma apply_all_state sizes l st : e_state (snd (apply_all sizes l st)) = e_state (snd st).
Proof.
  unfold apply_all. revert st; induction l as [|[[k i] v] l IH]; intros st; [done|].
  cbn [foldl]. by rewrite IH, apply_state.
Qed.
Lemma cascade_apply_state fuel debug css order time sizes vars node t p layout e r :
  cascade_apply_styles fuel debug css order time sizes vars node t p layout e = Ok r -> e_state (snd (fst r)) = e_state e.
Proof.
  unfold cascade_apply_styles. intros H.
  repeat (apply bindR_Ok in H as (? & ? & H); repeat match goal with x : (_ * _)%type |- _ => destruct x end).
  match type of H with context [apply_all ?a ?b ?c] => pose proof (apply_all_state a b c) as Hc; destruct (apply_all a b c) as [l' e'] end.
  apply bindR_Ok in H as (? & ? & H). injection H as _ <- _. cbn [fst snd] in *. transitivity (e_state e'); [reflexivity|]. rewrite Hc. reflexivity.
Qed.
Lemma apply_styles_ss fuel debug css order time depth : forall node sizes vars t t',
  apply_styles fuel debug css order time depth node sizes vars t = Ok t' -> same_states t t'.
Proof.
  induction depth as [|depth IH]; intros node sizes vars t t' H; cbn [apply_styles] in H; [done|].
  apply bindR_Ok in H as (p & Hp & H). apply bindR_Ok in H as (pe & Hpe & H).
  apply bindR_Ok in H as (layout & Hl & H). apply bindR_Ok in H as (e & He & H).
  apply get_element_ctx in He.
  destruct (e_text e); [injection H as <-; by eapply ss_put|].
  apply bindR_Ok in H as ([[layout' e'] vars'] & Hc & H). apply bindR_Ok in H as (t1 & Ht1 & H).
  apply cascade_apply_state in Hc. cbn in Hc.
  assert (H1 : same_states t t1).
  { eapply ss_trans; [by eapply ss_put|by eapply set_style_ss]. }
  destruct (_ || _); [by injection H as <-|].
  apply bindR_Ok in H as (cs & Hcs & H). eapply ss_trans; [exact H1|].
  eapply foldR_ss; [|exact H]. intros t2 c t3 H3. eapply IH. exact H3.
Qed.
Lemma set_viewport_ss root vp t t' : set_viewport root vp t = Ok t' -> same_states t t'.
Proof. unfold set_viewport. intros H. inv_ok. destruct (_ && _); inv_ok; [by eapply set_style_ss|apply ss_refl]. Qed.
Lemma run_layout_ss X t : same_states t (run_layout X t).
Proof. intros n. unfold st_of, get_ctx, run_layout. cbn. rewrite map_lookup_imap. by destruct (t_nodes t !! n). Qed.
Lemma final_positions_ss depth : forall node loc op cl t t',
  compute_final_positions depth node loc op cl t = Ok t' -> same_states t t'.
Proof.
  induction depth as [|depth IH]; intros node loc op cl t t' H; cbn [compute_final_positions] in H; [done|].
  apply bindR_Ok in H as (layout & Hl & H). apply bindR_Ok in H as (e & He & H). apply get_element_ctx in He.
  match type of H with (let '(_, _) := ?p in _) = _ => destruct p as [cl' loc'] end.
  apply bindR_Ok in H as (cs & Hcs & H).
  apply (foldR_ss _ _ (fun t2 c t3 H3 => IH _ _ _ _ t2 t3 H3)) in H.
  eapply ss_trans; [|exact H]. by eapply ss_put.
Qed.

Lemma prepare_ss X fuel v i x m t ids : prepare X fuel v i x = Ok (m, t, ids) -> same_states (v_tree v) t.
Proof.
  unfold prepare. intros H. apply bindR_Ok in H as ([m0 rs] & Hb & H). apply bindR_Ok in H as ([t0 ids0] & Ht & H).
  apply bindR_Ok in H as (t1 & H1 & H). apply bindR_Ok in H as (t2 & H2 & H). apply bindR_Ok in H as (t3 & H3 & H). injection H as <- <- <-.
  eapply ss_trans; [by eapply update_trees_ss|]. eapply ss_trans; [by eapply set_viewport_ss|]. eapply ss_trans; [by eapply apply_styles_ss|].
  eapply ss_trans; [apply run_layout_ss|]. by eapply final_positions_ss.
Qed.

(** the tree before the input events is live, with the same definitions *)
Lemma prepare_live X fuel v i x m t ids : sound v -> prepare X fuel v i x = Ok (m, t, ids) -> live t 0 /\ same_definitions (v_tree v) t.
Proof.
  intros Hs. unfold prepare. intros H. apply bindR_Ok in H as ([m0 rs] & Hb & H). apply bindR_Ok in H as ([t0 ids0] & Ht & H).
  apply bindR_Ok in H as (t1 & H1 & H). apply bindR_Ok in H as (t2 & H2 & H). apply bindR_Ok in H as (t3 & H3 & H). injection H as <- <- <-.
  pose proof (view_bind_reactions_ok _ _ _ _ _ Hs Hb) as Hok. pose proof Hs as [Hl Hbi H0].
  destruct (update_trees_ok (x_read_inline_css X) rs (v_tree v) (v_ids v) (v_root v) Hl Hok) as (t' & ids' & H' & Hl' & Hd).
  rewrite Ht in H'. injection H' as Heq _. subst t'. rewrite H0 in Hl'.
  assert (Hc : same_content t0 t3).
  { eapply same_trans; [by eapply set_viewport_same|]. eapply same_trans; [by eapply apply_styles_same|].
    eapply same_trans; [apply run_layout_same|]. by eapply final_positions_same. }
  apply content_shown in Hc. split; [by eapply shown_live|]. eapply same_def_trans; [exact Hd|by apply shown_def].
Qed.

(** ** Loading: all flags are off *)
Lemma apply_rbind_state read e b : e_state (apply_rbind read e b) = e_state e.
Proof. destruct b; cbn; try done; repeat case_match; done. Qed.
Lemma elem_state read n r : e_state (elem_of read n r) = state_default.
Proof.
  destruct r as [spans|src|tag binds kids ?]; cbn; try done.
  assert (H : forall e, e_state (foldl (apply_rbind read) e binds) = e_state e).
  { induction binds as [|b bs IH]; intros e; [done|]. cbn. by rewrite IH, apply_rbind_state. }
  by rewrite H.
Qed.
Lemma rendered_states read t rn n x : rendered read t rn -> st_of t n = Some x -> x = state_default.
Proof.
  intros [R1 R2 R3 R4] H. unfold st_of, get_ctx in H. destruct (t_nodes t !! n) as [y|] eqn:Hy; [|done]. cbn in H.
  destruct (decide (n = 0)) as [->|Hn0].
  { change (t_nodes t !! 0 = Some y) in Hy. rewrite R1 in Hy. injection Hy as <-. cbn in H. by injection H as <-. }
  assert (Hlt : n < 1 + rsize rn). { destruct (decide (n < 1 + rsize rn)); [done|]. rewrite R3 in Hy by lia. done. }
  destruct (stands_sub read t rn (Some 0) 1 n R4) as (par' & rk & H1 & _); [lia|]. apply stands_root in H1.
  change (t_nodes t !! n = Some y) in Hy. rewrite H1 in Hy. injection Hy as <-. cbn in H. injection H as <-. apply elem_state.
Qed.
Lemma stylesheet_ss debug styles fuel : forall n t t', calculate_elements_stylesheet fuel debug styles n t = Ok t' -> same_states t t'.
Proof.
  induction fuel as [|fuel IH]; intros n t t' H; cbn [calculate_elements_stylesheet] in H; [done|].
  apply bindR_Ok in H as (t1 & H1 & H). apply bindR_Ok in H as (cs & Hcs & H). eapply ss_trans.
  - unfold push_styles in H1. eapply foldR_ss; [|exact H1]. clear. intros t s t' H. cbv beta in H.
    apply bindR_Ok in H as (b & Hb & H). apply bindR_Ok in H as (e & He & H). apply get_element_ctx in He.
    destruct (classify _ _ _); injection H as <-; [|apply ss_refl]. by eapply ss_put.
  - eapply foldR_ss; [|exact H]. intros t2 c t3 Hx. exact (IH _ _ _ Hx).
Qed.
Lemma loaded_states X fuel doc css v n x : from_document X fuel doc css = Ok v -> st_of (v_tree v) n = Some x -> x = state_default.
Proof.
  intros H. pose proof H as H'. apply from_document_stages in H' as (templates & body & r & root & b & t & rn & ps & Hsc & Hr & _ & Hre & _).
  unfold from_document in H. rewrite Hsc, Hr in H. cbn [bindR] in H.
  apply bindR_Ok in H as (d & _ & H). apply bindR_Ok in H as (t1 & H1 & H). apply bindR_Ok in H as ([t2 ids] & H2 & H). injection H as <-. cbn.
  apply stylesheet_ss in H1. unfold apply_default_bindings_state in H2. apply update_trees_ss in H2. rewrite (H2 n), (H1 n). by apply rendered_states with (1 := Hre).
Qed.
