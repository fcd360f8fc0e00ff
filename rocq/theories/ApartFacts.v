(** * Contents and styling are apart (C87): proofs. *)
From Coq Require Import ZArith Lia.
From stdpp Require Import gmap.
From RecordUpdate Require Import RecordUpdate.
From Verif Require Import Str StrFacts F32 Res ResFacts Json JsonFacts PropKey Html Css Element Tree ViewModel Render Update Matching
  Cascade Initial Animation Apply Styling Events View
  SpecBind SpecReact SpecLive SpecView SpecRender SpecTree BindFacts BindProps FrameFacts RenderTree RenderProps RenderAny RenderMore LiveFacts LiveUpdate
  LiveView SpecMove SpecApart.

(** ** A page without its looks *)
Definition bare_e (e : Element) : Element :=
  mkElement (e_node e) (e_children e) (e_tag e) (e_text e) (e_attrs e) (e_attrs_bindings e) vzero vzero vzero OFFill [] borders_default black font_default (e_listeners e)
    f1 f1 None None PEAuto PAuto true (e_hints e) [] (e_style e) [] state_default [].
Definition bare_n (x : Node) : Node := mkNode (n_parent x) (n_children x) default_layout (bare_e <$> n_ctx x) layout_zero.
Definition bare (t : Tree) : Tree := mkTree (bare_n <$> t_nodes t) (t_next t).
Definition rmap {A B} (f : A -> B) (r : res A) : res B := do! a <- r; Ok (f a).

Lemma bare_lookup t n : t_nodes (bare t) !! n = bare_n <$> t_nodes t !! n.
Proof. unfold bare. cbn [t_nodes]. apply lookup_fmap. Qed.
Lemma bare_ctx t n : get_ctx (bare t) n = bare_e <$> get_ctx t n.
Proof. unfold get_ctx. rewrite bare_lookup. by destruct (t_nodes t !! n). Qed.
Lemma bare_node t n : get_node (bare t) n = rmap bare_n (get_node t n).
Proof. unfold get_node. rewrite bare_lookup. by destruct (t_nodes t !! n). Qed.
Lemma bare_children t n : children (bare t) n = children t n.
Proof. unfold children. rewrite bare_node. by destruct (get_node t n). Qed.
Lemma bare_put t n x : bare (put_node t n x) = put_node (bare t) n (bare_n x).
Proof. unfold bare, put_node, set. cbn [t_nodes t_next]. f_equal. apply fmap_insert. Qed.
Lemma bare_put_element n e t : bare (put_element n e t) = put_element n (bare_e e) (bare t).
Proof.
  unfold bare, put_element, set. cbn [t_nodes t_next]. f_equal. apply map_eq. intros m. rewrite lookup_fmap. destruct (decide (n = m)) as [<-|Hne].
  - rewrite !lookup_alter, lookup_fmap. by destruct (t_nodes t !! n).
  - rewrite !lookup_alter_ne, lookup_fmap by done. done.
Qed.
Lemma bare_set_parent n p t : rmap bare (set_parent n p t) = set_parent n p (bare t).
Proof. unfold set_parent. rewrite bare_node. destruct (get_node t n) as [x| | |]; cbn; [|reflexivity..]. by rewrite bare_put. Qed.
Lemma bare_put_children n cs t : rmap bare (put_children n cs t) = put_children n cs (bare t).
Proof. unfold put_children. rewrite bare_node. destruct (get_node t n) as [x| | |]; cbn; [|reflexivity..]. by rewrite bare_put. Qed.

(** ** What looks at bare pages only *)
Definition alike_r {A B} (f : A -> B) (a a' : res A) : Prop := rmap f a = rmap f a'.
Definition respects {A B} (f : A -> B) (op : Tree -> res A) : Prop := forall t t', bare t = bare t' -> alike_r f (op t) (op t').
Lemma alike_refl {A B} (f : A -> B) a : alike_r f a a. Proof. done. Qed.
Lemma alike_bind {A B C D} (f : A -> B) (g : C -> D) a a' k k' : alike_r f a a' -> (forall x x', f x = f x' -> alike_r g (k x) (k' x')) -> alike_r g (do! x <- a; k x) (do! x <- a'; k' x).
Proof.
  unfold alike_r. intros H Hk. destruct a as [x|e| |], a' as [x'|e'| |]; cbn in *; try discriminate H; [|congruence|reflexivity..].
  apply Hk. by injection H.
Qed.
Lemma alike_step {A C D} (g : C -> D) (a : res A) k k' : (forall x, alike_r g (k x) (k' x)) -> alike_r g (do! x <- a; k x) (do! x <- a; k' x).
Proof. intros Hk. destruct a; cbn [bindR]; [apply Hk|reflexivity..]. Qed.
Lemma alike_same {A} (f : A -> A) a a' : alike_r f a a' -> (forall x, f x = x) -> a = a'.
Proof. unfold alike_r. intros H Hf. destruct a, a'; cbn in *; rewrite ?Hf in H; congruence. Qed.
Lemma resp_exact (op : Tree -> res Tree) : (forall t, rmap bare (op t) = op (bare t)) -> respects bare op.
Proof. intros H t t' E. unfold alike_r. by rewrite !H, E. Qed.
Lemma resp_children n t t' : bare t = bare t' -> children t n = children t' n.
Proof. intros E. by rewrite <- (bare_children t), <- (bare_children t'), E. Qed.
Lemma resp_ctx n t t' : bare t = bare t' -> bare_e <$> get_ctx t n = bare_e <$> get_ctx t' n.
Proof. intros E. by rewrite <- !bare_ctx, E. Qed.
Lemma resp_element n : respects bare_e (fun t => get_element t n).
Proof.
  intros t t' E. pose proof (resp_ctx n _ _ E) as H. unfold alike_r, get_element. destruct (get_ctx t n), (get_ctx t' n); try discriminate H; [|reflexivity].
  apply (inj Some) in H. unfold rmap. cbn [ok_or bindR]. by rewrite H.
Qed.
Lemma resp_put n e e' t t' : bare t = bare t' -> bare_e e = bare_e e' -> bare (put_element n e t) = bare (put_element n e' t').
Proof. intros E He. by rewrite !bare_put_element, E, He. Qed.
Lemma resp_set_parent n p : respects bare (set_parent n p).
Proof. apply resp_exact. apply bare_set_parent. Qed.
Lemma resp_put_children n cs : respects bare (put_children n cs).
Proof. apply resp_exact. apply bare_put_children. Qed.
Lemma resp_add p c : respects bare (add_child p c).
Proof.
  intros t t' E. unfold add_child. eapply alike_bind; [by apply resp_set_parent|]. intros u u' Eu. rewrite (resp_children p _ _ Eu).
  apply alike_step. intros cs. by apply resp_put_children.
Qed.
Lemma resp_insert p i c : respects bare (insert_child_at_index p i c).
Proof.
  intros t t' E. unfold insert_child_at_index. rewrite (resp_children p _ _ E). apply alike_step. intros cs. destruct (_ <? _)%nat; [reflexivity|]. eapply alike_bind; [by apply resp_set_parent|]. intros u u' Eu. by apply resp_put_children.
Qed.
Lemma resp_remove_at p i : respects bare (remove_child_at_index p i).
Proof.
  intros t t' E. unfold remove_child_at_index. rewrite (resp_children p _ _ E). apply alike_step. intros cs.
  destruct (cs !! i); [|reflexivity]. eapply alike_bind; [by apply resp_put_children|]. intros u u' Eu. by apply resp_set_parent.
Qed.
Lemma resp_remove p c : respects bare (remove_child p c).
Proof.
  intros t t' E. unfold remove_child. rewrite (resp_children p _ _ E). apply alike_step. intros cs.
  apply alike_step. intros i. by apply resp_remove_at.
Qed.
Lemma resp_fold {A} (f g : Tree -> A -> res Tree) l : (forall a t t', bare t = bare t' -> alike_r bare (f t a) (g t' a)) -> forall t t', bare t = bare t' -> alike_r bare (foldR f t l) (foldR g t' l).
Proof.
  intros H. induction l as [|a l IH]; intros t t' E; cbn [foldR]; [unfold alike_r; cbn; by rewrite E|].
  eapply alike_bind; [by apply H|]. intros u u' Eu. by apply IH.
Qed.
Lemma bare_e_children e e' : bare_e e = bare_e e' -> e_children e = e_children e'.
Proof. intros H. exact (f_equal e_children H). Qed.
Lemma resp_reattach p n v : respects bare (reattach p n v).
Proof.
  intros t t' E. unfold reattach. eapply alike_bind; [by apply resp_element|]. intros e e' Ee. rewrite (bare_e_children _ _ Ee). cbv zeta.
  apply alike_step. intros i. rewrite (resp_children p _ _ E).
  apply alike_step. intros cs.
  destruct v, (position n cs) as [j|]; [unfold alike_r; cbn; by rewrite E| |by apply resp_remove_at|unfold alike_r; cbn; by rewrite E].
  apply alike_step. intros k. by apply resp_insert.
Qed.
Lemma resp_repeat p a b c : respects bare (repeat_children p a b c).
Proof.
  intros t t' E. unfold repeat_children. eapply alike_bind; [by apply resp_element|]. intros e e' Ee. rewrite (bare_e_children _ _ Ee). cbv zeta. rewrite (resp_children p _ _ E).
  apply alike_step. intros cs.
  apply alike_step. intros l. apply alike_step. intros h.
  eapply alike_bind.
  - apply resp_fold; [|exact E]. intros n u u' Eu. destruct (memb n cs); [unfold alike_r; cbn; by rewrite Eu|by apply resp_add].
  - intros u u' Eu. apply resp_fold; [|exact Eu]. intros n w w' Ew. destruct (memb n cs); [by apply resp_remove|unfold alike_r; cbn; by rewrite Ew].
Qed.
Lemma resp_dirty n : respects bare (mark_dirty n).
Proof.
  intros t t' E. unfold mark_dirty. assert (H : alike_r bare_n (get_node t n) (get_node t' n)) by (unfold alike_r; by rewrite <- !bare_node, E).
  eapply alike_bind; [exact H|]. intros _ _ _. unfold alike_r. cbn. by rewrite E.
Qed.
Lemma resp_img n src : respects bare (update_img_src n src).
Proof.
  intros t t' E. unfold update_img_src, child_at_index. rewrite (resp_children n _ _ E). apply alike_step. intros c.
  eapply alike_bind; [by apply resp_element|]. intros e e' Ee. apply resp_dirty. apply resp_put; [exact E|]. exact Ee.
Qed.

Lemma bare_text f e : bare_e (e <| e_text ::= f |>) = bare_e e <| e_text ::= f |>. Proof. reflexivity. Qed.
Lemma bare_attrs f e : bare_e (e <| e_attrs ::= f |>) = bare_e e <| e_attrs ::= f |>. Proof. reflexivity. Qed.
Lemma bare_bindings f e : bare_e (e <| e_attrs_bindings ::= f |>) = bare_e e <| e_attrs_bindings ::= f |>. Proof. reflexivity. Qed.
Lemma bare_style f e : bare_e (e <| e_style ::= f |>) = bare_e e <| e_style ::= f |>. Proof. reflexivity. Qed.

Definition bare_st (st : TreeIds) : TreeIds := (bare (fst st), snd st).
Lemma alike_ids (r r' : res Tree) (ids : gmap string NodeId) : alike_r bare r r' -> alike_r bare_st (do! t <- r; Ok (t, ids)) (do! t <- r'; Ok (t, ids)).
Proof. intros H. eapply alike_bind; [exact H|]. intros t t' E. unfold alike_r, bare_st, rmap. cbn [bindR fst snd]. by rewrite E. Qed.
Lemma alike_ok (t t' : Tree) (ids : gmap string NodeId) : bare t = bare t' -> alike_r bare_st (Ok (t, ids)) (Ok (t', ids)).
Proof. intros E. unfold alike_r, bare_st, rmap. cbn [bindR fst snd]. by rewrite E. Qed.
Lemma resp_update_tree ric st st' r : bare_st st = bare_st st' -> alike_r bare_st (update_tree ric st r) (update_tree ric st' r).
Proof.
  destruct st as [t ids], st' as [t' ids']. unfold bare_st. cbn [fst snd]. intros E. assert (ids' = ids) as -> by congruence. apply (f_equal fst) in E. cbn [fst] in E.
  unfold update_tree. destruct r as [node span text|p node visible|p start cursor end_|node key tag|node key span text].
  - pose proof (resp_ctx node _ _ E) as Hc. destruct (get_ctx t node) as [e|], (get_ctx t' node) as [e'|]; try discriminate Hc; [|reflexivity].
    assert (He : bare_e e = bare_e e') by exact (inj Some _ _ Hc). pose proof (f_equal e_text He) as Ht. cbn [bare_e e_text] in Ht. rewrite <- Ht. destruct (e_text e) as [sp|]; [|reflexivity].
    apply alike_ids. apply resp_dirty. apply resp_put; [exact E|]. by rewrite !bare_text, He.
  - apply alike_ids. by apply resp_reattach.
  - apply alike_ids. by apply resp_repeat.
  - eapply alike_bind; [by apply resp_element|]. intros e e' He. apply alike_ok. apply resp_put; [exact E|]. destruct tag; by rewrite !bare_attrs, He.
  - eapply alike_bind; [by apply resp_element|]. intros e e' He. pose proof (f_equal e_attrs_bindings He) as Hb. cbn [bare_e e_attrs_bindings] in Hb. rewrite <- Hb.
    apply alike_step. intros sp. cbv zeta.
    set (value := text_to_string (text_set span text sp)). clearbody value.
    set (x := if String.eqb key "style" then match ric value with Some s => e <| e_attrs_bindings ::= <[key:=text_set span text sp]> |> <| e_attrs ::= <[key:=value]> |> <| e_style := s |> | None => e <| e_attrs_bindings ::= <[key:=text_set span text sp]> |> <| e_attrs ::= <[key:=value]> |> end else e <| e_attrs_bindings ::= <[key:=text_set span text sp]> |> <| e_attrs ::= <[key:=value]> |>).
    set (y := if String.eqb key "style" then match ric value with Some s => e' <| e_attrs_bindings ::= <[key:=text_set span text sp]> |> <| e_attrs ::= <[key:=value]> |> <| e_style := s |> | None => e' <| e_attrs_bindings ::= <[key:=text_set span text sp]> |> <| e_attrs ::= <[key:=value]> |> end else e' <| e_attrs_bindings ::= <[key:=text_set span text sp]> |> <| e_attrs ::= <[key:=value]> |>).
    assert (Hxy : bare_e x = bare_e y). { unfold x, y. destruct (String.eqb key "style"); [destruct (ric value)|]; by rewrite ?bare_style, !bare_attrs, !bare_bindings, He. }
    clearbody x y. pose proof (f_equal e_tag Hxy) as Htag. cbn [bare_e e_tag] in Htag. rewrite Htag.
    pose proof (resp_put node x y t t' E Hxy) as Hp. destruct (_ && _); [|by apply alike_ok]. apply alike_ids. by apply resp_img.
Qed.
Lemma resp_update_trees ric rs : forall st st', bare_st st = bare_st st' -> alike_r bare_st (update_trees ric st rs) (update_trees ric st' rs).
Proof.
  unfold update_trees. induction rs as [|r rs IH]; intros st st' E; cbn [foldR]; [unfold alike_r, rmap; cbn [bindR]; by rewrite E|].
  eapply alike_bind; [by apply resp_update_tree|]. intros u u' Eu. by apply IH.
Qed.

(** ** Loading and updating *)
Lemma bare_content t t' : same_content t t' -> bare t = bare t'.
Proof.
  intros [Hn H]. unfold bare. rewrite Hn. f_equal. apply map_eq. intros n. rewrite !lookup_fmap. specialize (H n).
  destruct (t_nodes t !! n) as [x|], (t_nodes t' !! n) as [y|]; try discriminate H; [|reflexivity]. cbn [fmap option_fmap option_map] in *. f_equal. apply (inj Some) in H. unfold node_content in H.
  unfold bare_n. assert (n_parent x = n_parent y) as -> by congruence. assert (n_children x = n_children y) as -> by congruence. f_equal.
  assert (Hc : content <$> n_ctx x = content <$> n_ctx y) by congruence. destruct (n_ctx x) as [e|], (n_ctx y) as [e'|]; try discriminate Hc; [|reflexivity].
  cbn [fmap option_fmap option_map] in *. f_equal. apply (inj Some) in Hc. unfold content in Hc. unfold bare_e. clear - Hc. injection Hc. intros -> _ -> -> -> -> -> -> -> ->. reflexivity.
Qed.
Lemma bare_put_same n e e0 t : get_ctx t n = Some e0 -> bare_e e = bare_e e0 -> bare (put_element n e t) = bare t.
Proof.
  intros H0 He. rewrite bare_put_element. unfold put_element, bare, set. cbn [t_nodes t_next]. f_equal. apply map_eq. intros m. destruct (decide (n = m)) as [<-|Hne]; [|by rewrite lookup_alter_ne].
  rewrite lookup_alter, lookup_fmap. unfold get_ctx in H0. destruct (t_nodes t !! n) as [x|]; [|reflexivity]. cbn in H0. cbn [fmap option_fmap option_map]. f_equal. unfold bare_n. cbn [n_parent n_children n_style n_ctx n_layout].
  rewrite H0, He. reflexivity.
Qed.
Lemma bare_fold {A} (f : Tree -> A -> res Tree) l : (forall t a t', f t a = Ok t' -> bare t' = bare t) -> forall t t', foldR f t l = Ok t' -> bare t' = bare t.
Proof.
  intros Hf. induction l as [|a l IH]; intros t t' H; cbn [foldR] in H; [by injection H as <-|]. apply bindR_Ok in H as (t1 & H1 & H). rewrite (IH _ _ H). by eapply Hf.
Qed.
Lemma bare_stylesheet debug styles fuel : forall n t t', calculate_elements_stylesheet fuel debug styles n t = Ok t' -> bare t' = bare t.
Proof.
  induction fuel as [|fuel IH]; intros n t t' H; cbn [calculate_elements_stylesheet] in H; [discriminate H|].
  apply bindR_Ok in H as (t1 & H1 & H). apply bindR_Ok in H as (cs & _ & H). rewrite (bare_fold _ _ (fun t a t' => IH a t t') _ _ H).
  unfold push_styles in H1. eapply bare_fold; [|exact H1]. clear. intros t s t' H. cbv beta in H.
  apply bindR_Ok in H as (b & Hb & H). apply bindR_Ok in H as (e & He & H). apply get_element_ctx in He.
  destruct (classify _ _ _); injection H as <-; [|reflexivity]. by eapply bare_put_same.
Qed.


Record twin (v w : View) : Prop := {
  tw_tree : bare (v_tree w) = bare (v_tree v); tw_ids : v_ids w = v_ids v; tw_model : v_model w = v_model v; tw_bindings : v_bindings w = v_bindings v;
  tw_defaults : v_defaults w = v_defaults v; tw_transformers : v_transformers w = v_transformers v; tw_root : v_root w = v_root v; tw_body : v_body w = v_body v }.

Lemma render_twice tr ric templates f f' b r r' : render tr ric templates f b renderer_new = Ok r -> render tr ric templates f' b renderer_new = Ok r' -> r' = r.
Proof.
  intros H H'. destruct (le_ge_dec f f') as [L|L].
  - pose proof (render_fuel tr ric templates f f' b renderer_new L) as E. rewrite H, H' in E. specialize (E ltac:(discriminate)). by injection E.
  - pose proof (render_fuel tr ric templates f' f b renderer_new L) as E. rewrite H, H' in E. specialize (E ltac:(discriminate)). by injection E.
Qed.
Lemma load_twin X X' fuel fuel' doc css css' v v' : same_language X X' -> from_document X fuel doc css = Ok v -> from_document X' fuel' doc css' = Ok v' -> twin v v'.
Proof.
  intros (L1 & L2 & L3 & L4) H H'. unfold from_document in H, H'. rewrite L2, L3, L4 in H'. destruct (scan_document _ _) as [templates body].
  apply bindR_Ok in H as ([[r root] b] & Hr & H). apply bindR_Ok in H' as ([[r' root'] b'] & Hr' & H'). pose proof (render_twice _ _ _ _ _ _ _ _ Hr Hr') as E. injection E as -> -> ->. clear Hr Hr'.
  apply bindR_Ok in H as (d & Hd & H). rewrite Hd in H'. cbn [bindR] in H'.
  apply bindR_Ok in H as (t & Ht & H). apply bindR_Ok in H' as (t' & Ht' & H'). apply bare_stylesheet in Ht, Ht'.
  apply bindR_Ok in H as ([t2 ids] & Hu & H). apply bindR_Ok in H' as ([t2' ids'] & Hu' & H'). injection H as <-. injection H' as <-.
  unfold apply_default_bindings_state in Hu, Hu'.
  assert (E : alike_r bare_st (update_trees (x_read_inline_css X) (t, r_static_id r) (default_reactions (r_bindings r))) (update_trees (x_read_inline_css X) (t', r_static_id r) (default_reactions (r_bindings r)))).
  { apply resp_update_trees. unfold bare_st. cbn [fst snd]. congruence. }
  rewrite Hu, Hu' in E. unfold alike_r, rmap, bare_st in E. cbn [bindR fst snd] in E.
  assert (Ei : ids' = ids) by congruence. assert (Et : bare t2' = bare t2) by congruence. constructor; cbn; assumption || reflexivity.
Qed.
Lemma update_twin X X' fuel fuel' v v' i i' x w w' o o' : same_language X X' -> twin v v' -> update X fuel v i x = Ok (w, o) -> update X' fuel' v' i' x = Ok (w', o') -> twin w w'.
Proof.
  intros (L1 & L2 & L3 & L4) T H H'.
  destruct (update_content _ _ _ _ _ _ _ H) as (m & rs & t & ids & Hb & Ht & M1 & M2 & M3 & M4 & M5 & M6 & _ & M7 & M8).
  destruct (update_content _ _ _ _ _ _ _ H') as (m' & rs' & t' & ids' & Hb' & Ht' & N1 & N2 & N3 & N4 & N5 & N6 & _ & N7 & N8).
  destruct T as [T1 T2 T3 T4 T5 T6 T7 T8]. unfold view_bind in Hb, Hb'. rewrite L1, T3, T4, T5, T6, Hb in Hb'. injection Hb' as <- <-.
  assert (E : alike_r bare_st (update_trees (x_read_inline_css X) (v_tree v, v_ids v) rs) (update_trees (x_read_inline_css X) (v_tree v', v_ids v') rs)).
  { apply resp_update_trees. unfold bare_st. cbn [fst snd]. congruence. }
  rewrite L3 in Ht'. rewrite Ht, Ht' in E. unfold alike_r, rmap, bare_st in E. cbn [bindR fst snd] in E.
  assert (Ei : ids' = ids) by congruence. assert (Et : bare t' = bare t) by congruence. apply bare_content in M3, N3.
  constructor; congruence.
Qed.
Lemma updates_twin X X' fuel fuel' : same_language X X' -> forall hist hist' v v' w w' os os', twin v v' -> map snd hist' = map snd hist -> updates X fuel v hist = Ok (w, os) -> updates X' fuel' v' hist' = Ok (w', os') -> twin w w'.
Proof.
  intros L. induction hist as [|[i x] hist IH]; intros [|[i' x'] hist'] v v' w w' os os' T E H H'; try discriminate E; cbn [updates] in *.
  - injection H as <- <-. injection H' as <- <-. exact T.
  - cbn [map] in E. assert (x' = x) as -> by (cbn in E; congruence). assert (Eh : map snd hist' = map snd hist) by congruence.
    apply bindR_Ok in H as ([v1 o] & Hu & H). apply bindR_Ok in H' as ([v1' o'] & Hu' & H').
    apply bindR_Ok in H as ([v2 os2] & H2 & [= <- <-]). apply bindR_Ok in H' as ([v2' os2'] & H2' & [= <- <-]).
    exact (IH hist' v1 v1' _ _ _ _ (update_twin _ _ _ _ _ _ _ _ _ _ _ _ _ L T Hu Hu') Eh H2 H2').
Qed.
Lemma bare_contents t t' : bare t' = bare t -> same_contents t t'.
Proof.
  intros E n. assert (H : bare_n <$> t_nodes t' !! n = bare_n <$> t_nodes t !! n) by (by rewrite <- !bare_lookup, E).
  destruct (t_nodes t' !! n) as [x|], (t_nodes t !! n) as [y|]; try discriminate H; [|reflexivity]. cbn [fmap option_fmap option_map] in *. apply (inj Some) in H. f_equal.
  pose proof (f_equal n_parent H) as H1. pose proof (f_equal n_children H) as H2. pose proof (f_equal n_ctx H) as H3. cbn [bare_n n_parent n_children n_ctx] in *. rewrite H1, H2. f_equal.
  destruct (n_ctx x) as [e|], (n_ctx y) as [e'|]; try discriminate H3; [|reflexivity]. cbn [fmap option_fmap option_map] in *. apply (inj Some) in H3. f_equal.
  unfold says. pose proof (f_equal e_tag H3) as A1. pose proof (f_equal e_text H3) as A2. pose proof (f_equal e_attrs H3) as A3. pose proof (f_equal e_listeners H3) as A4. pose proof (f_equal e_style H3) as A5. cbn in *. congruence.
Qed.
