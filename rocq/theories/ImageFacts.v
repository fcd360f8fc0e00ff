(** * Images show their source (C71). *)
From Coq Require Import ZArith Lia.
From stdpp Require Import gmap.
From RecordUpdate Require Import RecordUpdate.
From Verif Require Import Str F32 Res Json PropKey Html Css Element Tree ViewModel Render Update Matching
  Cascade Initial Animation Apply Styling Events View SpecBind SpecReact SpecRender SpecTree SpecView SpecLive SpecLog SpecSelect SpecImage ResFacts FrameFacts
  RenderFacts RenderTree RenderProps RenderAny LiveFacts LiveUpdate LiveView LiveHistory LiveData LiveOrder SelectLive EventFrame StyleView StylePage.

(** ** Which backgrounds change *)
Definition backs (t : Tree) (n : NodeId) : option (list Background) := e_backgrounds <$> get_ctx t n.
Definition same_backs (t t' : Tree) : Prop := forall n, backs t' n = backs t n.
Lemma backs_refl t : same_backs t t. Proof. done. Qed.
Lemma backs_trans a b c : same_backs a b -> same_backs b c -> same_backs a c.
Proof. intros H1 H2 n. by rewrite H2. Qed.
Lemma backs_put_node t n x y : t_nodes t !! n = Some x -> n_ctx y = n_ctx x -> same_backs t (put_node t n y).
Proof.
  intros Hx Hy m. unfold backs, get_ctx, put_node, set. cbn [t_nodes]. destruct (decide (n = m)) as [<-|Hne].
  - rewrite Hx. cbn. rewrite <- Hy. change (e_backgrounds <$> (x0 ← <[n:=y]> (t_nodes t) !! n; n_ctx x0) = e_backgrounds <$> n_ctx y).
    by rewrite lookup_insert.
  - change (e_backgrounds <$> (x0 ← <[n:=y]> (t_nodes t) !! m; n_ctx x0) = e_backgrounds <$> (x0 ← t_nodes t !! m; n_ctx x0)). by rewrite lookup_insert_ne.
Qed.
Lemma backs_put_eq t n e0 e m : get_ctx t n = Some e0 -> backs (put_element n e t) m = if decide (n = m) then Some (e_backgrounds e) else backs t m.
Proof.
  intros H. unfold backs. destruct (decide (n = m)) as [<-|Hne]; [by rewrite (get_put_same _ _ _ _ H)|by rewrite get_put_ne].
Qed.
Lemma backs_put t n e0 e : get_ctx t n = Some e0 -> e_backgrounds e = e_backgrounds e0 -> same_backs t (put_element n e t).
Proof. intros H He m. rewrite (backs_put_eq _ _ _ _ _ H). destruct (decide (n = m)) as [<-|]; [|done]. unfold backs. rewrite H. cbn. by rewrite He. Qed.
Lemma foldR_backs {A} (f : Tree -> A -> res Tree) l : (forall t a t', f t a = Ok t' -> same_backs t t') -> forall t t', foldR f t l = Ok t' -> same_backs t t'.
Proof.
  intros Hf. induction l as [|a l IH]; intros t t' H; cbn [foldR] in H; [injection H as <-; apply backs_refl|].
  apply bindR_Ok in H as (t1 & H1 & H). eapply backs_trans; [by eapply Hf|by apply IH].
Qed.
Lemma set_parent_backs n p t t' : set_parent n p t = Ok t' -> same_backs t t'.
Proof. unfold set_parent, get_node. intros H. apply bindR_Ok in H as (x & Hx & H). apply unwrap_Ok in Hx. injection H as <-. by eapply backs_put_node. Qed.
Lemma put_children_backs n p t t' : put_children n p t = Ok t' -> same_backs t t'.
Proof. unfold put_children, get_node. intros H. apply bindR_Ok in H as (x & Hx & H). apply unwrap_Ok in Hx. injection H as <-. by eapply backs_put_node. Qed.
Lemma set_style_backs n s t t' : set_style n s t = Ok t' -> same_backs t t'.
Proof. unfold set_style, get_node. intros H. apply bindR_Ok in H as (x & Hx & H). apply unwrap_Ok in Hx. injection H as <-. by eapply backs_put_node. Qed.
Lemma add_child_backs p c t t' : add_child p c t = Ok t' -> same_backs t t'.
Proof. unfold add_child. intros H. inv_ok. eapply backs_trans; [by eapply set_parent_backs|by eapply put_children_backs]. Qed.
Lemma insert_child_backs p i c t t' : insert_child_at_index p i c t = Ok t' -> same_backs t t'.
Proof.
  unfold insert_child_at_index. intros H. apply bindR_Ok in H as (cs & _ & H). destruct (Nat.ltb _ _); [done|].
  apply bindR_Ok in H as (t1 & H1 & H). eapply backs_trans; [by eapply set_parent_backs|by eapply put_children_backs].
Qed.
Lemma remove_at_backs p i t t' : remove_child_at_index p i t = Ok t' -> same_backs t t'.
Proof.
  unfold remove_child_at_index. intros H. apply bindR_Ok in H as (cs & _ & H). destruct (cs !! i); [|done].
  apply bindR_Ok in H as (t1 & H1 & H). eapply backs_trans; [by eapply put_children_backs|by eapply set_parent_backs].
Qed.

(** a reaction changes no background but that of the picture of an image whose source is written *)
Lemma step_backs ric t ids r t' ids' : live t 0 -> reaction_ok t r -> update_tree ric (t, ids) r = Ok (t', ids') ->
  (forall m, (forall n i x, r = RBind n "src" i x -> is_image t n -> m ∉ attached t n) -> backs t' m = backs t m) /\
  (forall n i x c, r = RBind n "src" i x -> is_image t n -> attached t n = [c] ->
     exists src, attr t' n "src" = Some src /\ exists bs, backs t c = Some bs /\
        backs t' c = Some (update_at 0 background_default (fun b => b <| bg_image := Some src |> <| bg_is_src := true |>) bs)).
Proof.
  intros Hl Hr H. 
  destruct r as [n j x|p c vis|p s c z|n k b|n k j x]; cbn [update_tree] in H.
  - split; [|done]. intros m _. revert m. destruct (get_ctx t n) as [e|] eqn:He; [|done]. destruct (e_text e); [|done].
    apply bindR_Ok in H as (t1 & H1 & H). injection H as <- <-. apply mark_dirty_id in H1 as ->. by eapply backs_put.
  - split; [|done]. intros m _. revert m. apply bindR_Ok in H as (t1 & H1 & H). injection H as <- <-. unfold reattach in H1.
    apply bindR_Ok in H1 as (pe & _ & H1). apply bindR_Ok in H1 as (di & _ & H1). apply bindR_Ok in H1 as (cur & _ & H1).
    destruct vis, (position _ _); inv_ok; try apply backs_refl; [by eapply insert_child_backs|by eapply remove_at_backs].
  - split; [|done]. intros m _. revert m. apply bindR_Ok in H as (t1 & H1 & H). injection H as <- <-. unfold repeat_children in H1.
    apply bindR_Ok in H1 as (pe & _ & H1). apply bindR_Ok in H1 as (vs & _ & H1). apply bindR_Ok in H1 as (sh & _ & H1). apply bindR_Ok in H1 as (hi & _ & H1).
    apply bindR_Ok in H1 as (t2 & H2 & H1). eapply backs_trans.
    + eapply foldR_backs; [|exact H2]. intros t3 a t4 H3. cbv beta in H3. destruct (memb _ _); [injection H3 as <-; apply backs_refl|by eapply add_child_backs].
    + eapply foldR_backs; [|exact H1]. intros t3 a t4 H3. cbv beta in H3. destruct (memb _ _); [|injection H3 as <-; apply backs_refl].
      unfold remove_child in H3. apply bindR_Ok in H3 as (cs' & _ & H3). apply bindR_Ok in H3 as (i & _ & H3). by eapply remove_at_backs.
  - split; [|done]. intros m _. revert m. apply bindR_Ok in H as (e & He & H). apply get_element_ctx in He. injection H as <- <-. eapply backs_put; [done|]. by destruct b.
  - apply bindR_Ok in H as (e & He & H). apply get_element_ctx in He. apply bindR_Ok in H as (sp & Hsp & H).
    set (value := text_to_string (text_set j x sp)) in H.
    set (e1 := e <| e_attrs_bindings ::= _ |> <| e_attrs ::= _ |>) in H.
    set (e2 := if String.eqb k "style" then _ else e1) in H.
    assert (He2 : e_backgrounds e2 = e_backgrounds e /\ e_tag e2 = e_tag e /\ e_attrs e2 = <[k := value]> (e_attrs e)).
    { unfold e2. destruct (String.eqb k "style"); [|done]. by destruct (ric _). }
    destruct He2 as (He2 & Htag & Hattr).
    assert (H1 : same_backs t (put_element n e2 t)) by by eapply backs_put.
    destruct (String.eqb_spec (e_tag e2) "img") as [Himg|Himg].
    2:{ injection H as <- <-. split; [intros; apply H1|]. intros n' i' x' c [= <- _ _] (e' & He' & Hi') _. rewrite He in He'. injection He' as <-. congruence. }
    destruct (String.eqb_spec k "src") as [->|Hk].
    2:{ injection H as <- <-. split; [intros; apply H1|]. intros n' i' x' c [= _ ? _]. done. }
    cbn [andb] in H. apply bindR_Ok in H as (t2 & H2 & H). injection H as <- <-.
    rewrite Htag in Himg. pose proof (live_lt _ _ _ _ Hl He) as Hlt. destruct (live_node _ _ Hl _ Hlt) as (e' & He' & _ & Hi).
    rewrite He in He'. injection He' as <-. destruct (Hi Himg) as [Ha Hlen].
    destruct (defined t n) as [|c [|? ?]] eqn:Ed; try done.
    unfold update_img_src, child_at_index, children, get_node in H2. apply bindR_Ok in H2 as (c' & Hc' & H2). apply bindR_Ok in H2 as (ce & Hce & H2).
    assert (c' = c) as ->.
    { apply bindR_Ok in Hc' as (cs & Hcs & Hc'). apply bindR_Ok in Hcs as (xn & Hxn & [= <-]). apply unwrap_Ok in Hxn.
      assert (Hat : attached (put_element n e2 t) n = n_children xn) by (unfold attached; by rewrite Hxn).
      rewrite attached_put, Ha in Hat. rewrite <- Hat in Hc'. cbn in Hc'. by injection Hc'. }
    apply get_element_ctx in Hce. apply mark_dirty_id in H2 as ->.
    assert (Hncc : n <> c). { assert (n < c < t_next t); [|lia]. apply (live_newer _ _ Hl). left. rewrite Ha. by left. }
    split.
    + intros m Hm. rewrite (backs_put_eq _ _ _ _ _ Hce). destruct (decide (c = m)) as [<-|Hne]; [|apply H1].
      exfalso. apply (Hm n j x eq_refl); [by exists e|]. rewrite Ha. by left.
    + intros n' i' x' c0 [= <- _ _] _ Hc0. rewrite Ha in Hc0. injection Hc0 as <-. exists value. split.
      { unfold attr. rewrite get_put_ne by done. rewrite (get_put_same _ _ _ _ He). change (e_attrs e2 !! "src" = Some value). rewrite Hattr. by rewrite lookup_insert. }
      exists (e_backgrounds ce). rewrite (backs_put_eq _ _ _ _ _ Hce), decide_True by done. split; [|done].
      specialize (H1 c). unfold backs in H1 at 1. rewrite Hce in H1. by rewrite <- H1.
Qed.

(** ** Every image shows its source *)
Definition drawn_source (n : NodeId) (t : Tree) : Prop := is_image t n -> draws t n (default "" (attr t n "src")).

Lemma image_def t t' n : same_definitions t t' -> is_image t' n -> is_image t n.
Proof.
  intros [_ Hd] (e & He & Ht). specialize (Hd n). rewrite He in Hd. destruct (get_ctx t n) as [e0|] eqn:E; [|done]. exists e0. split; [done|].
  injection Hd as Hd. unfold definition_of in *. congruence.
Qed.
Lemma image_child t n : live t 0 -> is_image t n -> exists c, attached t n = [c] /\ defined t n = [c].
Proof.
  intros Hl (e & He & Ht). pose proof (live_lt _ _ _ _ Hl He) as Hlt. destruct (live_node _ _ Hl _ Hlt) as (e' & He' & _ & Hi).
  rewrite He in He'. injection He' as <-. destruct (Hi Ht) as [Ha Hlen]. destruct (defined t n) as [|c [|? ?]]; try done. by exists c.
Qed.
Lemma draws_backs t t' n src : attached t' n = attached t n -> (forall c, attached t n = [c] -> backs t' c = backs t c) -> draws t n src -> draws t' n src.
Proof.
  intros Ha Hb (c & e & b & H1 & H2 & H3 & H4 & H5). specialize (Hb c H1). unfold backs in Hb. rewrite H2 in Hb.
  destruct (get_ctx t' c) as [e'|] eqn:He'; [|done]. exists c, e', b. rewrite Ha. injection Hb as Hb. rewrite Hb. done.
Qed.

Lemma keeps_source ric n r : (forall b, r <> RTag n "src" b) -> keeps ric (drawn_source n) r.
Proof.
  intros Hnt t ids t' ids' Hl Hr H Hd Hi.
  destruct (update_tree_ok ric t ids 0 r Hl Hr) as (t2 & H2 & Hl1 & Hs1 & Heff). rewrite H in H2. injection H2 as <- ->.
  pose proof (image_def _ _ _ Hs1 Hi) as Hi0. specialize (Hd Hi0).
  destruct (image_child _ _ Hl Hi0) as (c & Ha & Hdef). destruct (image_child _ _ Hl1 Hi) as (c' & Ha' & Hdef').
  assert (c' = c) as ->.
  { destruct Hs1 as [_ Hs1]. specialize (Hs1 n). unfold defined in *. destruct Hi as (e & He & _), Hi0 as (e0 & He0 & _). rewrite He, He0 in *. cbn in Hs1.
    injection Hs1 as Hs1. unfold definition_of in Hs1. congruence. }
  pose proof (eff_attr _ _ _ Heff n "src") as Hattr.
  destruct (step_backs _ _ _ _ _ _ Hl Hr H) as [Hsame Hwrite].
  assert (Hquiet : (forall i x, r <> RBind n "src" i x) -> draws t' n (default "" (attr t' n "src"))).
  { intros Hnb. assert (Hat : attr t' n "src" = attr t n "src").
    { rewrite Hattr. destruct r as [m j x|p q vis|p s q z|m k b|m k j x]; cbn [attr_after]; try done;
        destruct (decide (n = m /\ "src" = k)) as [[<- <-]|Hne]; try done; exfalso; [by eapply Hnt|by eapply Hnb]. }
    rewrite Hat. eapply draws_backs; [by rewrite Ha, Ha'| |exact Hd]. intros c0 Hc0. rewrite Ha in Hc0. injection Hc0 as <-.
    apply Hsame. intros n' i x -> (e & He & Ht) Hin.
    assert (n' = n) as ->; [|by eapply Hnb].
    assert (Hin' : c ∈ attached t n) by (rewrite Ha; by left).
    apply (live_parent _ _ Hl) in Hin, Hin'. congruence. }
  destruct r as [m j x|p q vis|p s q z|m k b|m k j x]; try (apply Hquiet; done).
  destruct (decide (m = n)) as [->|Hm]; [|apply Hquiet; congruence]. destruct (decide (k = "src")) as [->|Hk]; [|apply Hquiet; congruence].
  destruct (Hwrite n j x c eq_refl Hi0 Ha) as (src & Hsrc & bs & Hbs & Hbs'). rewrite Hsrc. cbn [default].
  destruct Hd as (c0 & e & b & D1 & D2 & D3 & D4 & D5). rewrite Ha in D1. injection D1 as <-. unfold backs in Hbs, Hbs'. rewrite D2 in Hbs. cbn in Hbs.
  apply (inj Some) in Hbs as <-. rewrite D3 in Hbs'. destruct (get_ctx t' c) as [e'|] eqn:He'; [|done]. apply (inj Some) in Hbs'.
  exists c, e', (b <| bg_image := Some src |> <| bg_is_src := true |>). split; [done|]. split; [done|]. split; [exact Hbs'|]. done.
Qed.

(** ** Styling does not reach the picture *)
Definition pictures_kept (t t' : Tree) : Prop := forall n c, is_image t n -> c ∈ attached t n -> backs t' c = backs t c.
Lemma same_image t t' n : same_content t t' -> is_image t n <-> is_image t' n.
Proof.
  intros Hs. assert (G : forall a b, same_content a b -> is_image a n -> is_image b n); [|split; apply G; [done|by apply same_sym]].
  intros a b Hab (e & He & Ht). destruct (same_ctx _ _ _ _ Hab He) as (e' & He' & Hc). exists e'. split; [done|]. unfold content in Hc. congruence.
Qed.
Lemma same_attached t t' n : same_content t t' -> attached t' n = attached t n.
Proof. intros [_ H]. specialize (H n). unfold attached. destruct (t_nodes t !! n), (t_nodes t' !! n); try done. cbn in H. unfold node_content in H. congruence. Qed.
Lemma pictures_trans a b c : same_content a b -> pictures_kept a b -> pictures_kept b c -> pictures_kept a c.
Proof.
  intros Hs H1 H2 n m Hn Hm. rewrite (H2 n m), (H1 n m); try done; [by apply (same_image _ _ _ Hs)|by rewrite (same_attached _ _ _ Hs)].
Qed.
Lemma foldR_pictures {A} (f : Tree -> A -> res Tree) (P : Tree -> A -> Prop) l : 
  (forall t a t', a ∈ l -> P t a -> f t a = Ok t' -> same_content t t' /\ pictures_kept t t') ->
  (forall t t' a, a ∈ l -> same_content t t' -> P t a -> P t' a) ->
  forall t t', (forall a, a ∈ l -> P t a) -> foldR f t l = Ok t' -> pictures_kept t t'.
Proof.
  intros Hf HP. assert (G : forall k, (forall a, a ∈ k -> a ∈ l) -> forall t t', (forall a, a ∈ k -> P t a) -> foldR f t k = Ok t' -> pictures_kept t t').
  { induction k as [|a k IH]; intros Hk t t' Hp H; cbn [foldR] in H; [injection H as <-; by intros ? ? _ _|].
    apply bindR_Ok in H as (t1 & H1 & H). destruct (Hf t a t1 (Hk a ltac:(left)) (Hp a ltac:(left)) H1) as [Hs Hpk].
    eapply pictures_trans; [exact Hs|exact Hpk|]. eapply IH; [intros b Hb; apply Hk; by right| |exact H].
    intros b Hb. eapply HP; [apply Hk; by right|exact Hs|apply Hp; by right]. }
  intros t t'. by apply G.
Qed.
Lemma same_live t t' : same_content t t' -> live t 0 -> live t' 0.
Proof. intros H. apply shown_live. by apply content_shown. Qed.

Lemma apply_styles_pictures fuel debug css order time depth : forall node sizes vars t t', live t 0 ->
  (forall n, is_image t n -> node ∉ attached t n) ->
  apply_styles fuel debug css order time depth node sizes vars t = Ok t' -> pictures_kept t t'.
Proof.
  induction depth as [|depth IH]; intros node sizes vars t t' Hl Hnp H; cbn [apply_styles] in H; [done|].
  apply bindR_Ok in H as (p & Hp & H). apply bindR_Ok in H as (pe & Hpe & H).
  apply bindR_Ok in H as (layout & Hlay & H). apply bindR_Ok in H as (e & He & H).
  apply get_element_ctx in He.
  assert (Hput : forall e', pictures_kept t (put_element node e' t)).
  { intros e' n c Hn Hc. rewrite (backs_put_eq _ _ _ _ _ He), decide_False; [done|]. intros <-. by eapply Hnp. }
  destruct (e_text e); [injection H as <-; apply Hput|].
  apply bindR_Ok in H as ([[layout' e'] vars'] & Hc & H). apply bindR_Ok in H as (t1 & Ht1 & H).
  apply cascade_apply_content in Hc. cbn [fst snd] in Hc.
  assert (H0 : same_content t (put_element node e' t)) by by eapply put_element_same.
  assert (H1 : same_content t t1) by (eapply same_trans; [exact H0|by eapply set_style_same]).
  assert (Hk1 : pictures_kept t t1).
  { eapply pictures_trans; [exact H0|apply Hput|]. intros n c _ _. by apply (set_style_backs _ _ _ _ Ht1). }
  destruct (String.eqb_spec (e_tag e') "img") as [|Hni]; [cbn [orb] in H; by injection H as <-|]. cbn [orb] in H. destruct (is_void _); [by injection H as <-|].
  apply bindR_Ok in H as (cs & Hcs & H). eapply pictures_trans; [exact H1|exact Hk1|].
  set (s2 := sizes <| parent_font_size := _ |> <| parent_color := _ |>) in H. clearbody s2.
  pose proof (same_live _ _ H1 Hl) as Hl1.
  eapply (foldR_pictures _ (fun t c => live t 0 /\ forall n, is_image t n -> c ∉ attached t n)); [| | |exact H].
  - intros t2 c t3 _ [Hl2 Hn2] H3. split; [by eapply apply_styles_same|by eapply IH].
  - intros t2 t3 c _ Hs [Hl2 Hn2]. split; [by eapply same_live|]. intros n Hn. rewrite (same_attached _ _ _ Hs). apply Hn2. by apply (same_image _ _ _ Hs).
  - intros c Hin. split; [done|]. intros n Hn Hin'.
    assert (Hc' : c ∈ attached t1 node). { unfold children, get_node in Hcs. apply bindR_Ok in Hcs as (x & Hx & [= <-]). apply unwrap_Ok in Hx. unfold attached. by rewrite Hx. }
    apply (live_parent _ _ Hl1) in Hin', Hc'. assert (n = node) as -> by congruence.
    apply (same_image _ _ _ H1) in Hn as (e0 & He0 & Ht0). rewrite He in He0. injection He0 as <-. unfold content in Hc. congruence.
Qed.

Lemma positions_backs depth : forall n loc op clip t t', compute_final_positions depth n loc op clip t = Ok t' -> same_backs t t'.
Proof.
  induction depth as [|depth IH]; intros node loc op cl t t' H; cbn [compute_final_positions] in H; [done|].
  apply bindR_Ok in H as (layout & Hl & H). apply bindR_Ok in H as (e & He & H). apply get_element_ctx in He.
  match type of H with (let '(_, _) := ?p in _) = _ => destruct p as [cl' loc'] end.
  apply bindR_Ok in H as (cs & Hcs & H).
  apply (foldR_backs _ _ (fun t2 c t3 H3 => IH _ _ _ _ t2 t3 H3)) in H.
  eapply backs_trans; [|exact H]. by eapply backs_put.
Qed.
Lemma viewport_backs root vp t t' : set_viewport root vp t = Ok t' -> same_backs t t'.
Proof. unfold set_viewport. intros H. inv_ok. destruct (_ && _); inv_ok; [by eapply set_style_backs|apply backs_refl]. Qed.
Lemma layout_backs X t : same_backs t (run_layout X t).
Proof. intros n. unfold backs, get_ctx, run_layout. cbn. rewrite map_lookup_imap. by destruct (t_nodes t !! n). Qed.
Lemma state_backs t t' : same_but_state t t' -> same_backs t t'.
Proof.
  intros [_ H] n. specialize (H n). unfold backs, get_ctx. destruct (t_nodes t !! n) as [x|], (t_nodes t' !! n) as [y|]; cbn in *; try done.
  apply (inj Some) in H. apply (f_equal n_ctx) in H. unfold node_no_state, set in H. cbn in H. destruct (n_ctx x), (n_ctx y); cbn in *; try done.
  apply (inj Some) in H. apply (f_equal e_backgrounds) in H. cbn in H. by rewrite H.
Qed.

Lemma same_attr t t' n k : same_content t t' -> attr t' n k = attr t n k.
Proof. intros H. unfold attr. destruct (get_ctx t n) as [e|] eqn:E.
  - destruct (same_ctx _ _ _ _ H E) as (e' & -> & Hc). cbn. unfold content in Hc. congruence.
  - destruct (get_ctx t' n) as [e'|] eqn:E'; [|done]. destruct (same_ctx _ _ _ _ (same_sym _ _ H) E') as (e0 & He0 & _). congruence.
Qed.
Lemma not_the_body t n : live t 0 -> is_image t n -> 1 ∉ attached t n.
Proof.
  intros Hl Hi Hin. destruct (image_child _ _ Hl Hi) as (c & Ha & Hd). pose proof (live_newer _ _ Hl n 1 (or_introl Hin)) as Hlt.
  assert (n = 0) as -> by lia. destruct (live_root _ _ Hl) as [Hr _]. congruence.
Qed.
Lemma source_kept t t' n : same_content t t' -> pictures_kept t t' -> drawn_source n t -> drawn_source n t'.
Proof.
  intros Hs Hp Hd Hi. apply (same_image _ _ _ Hs) in Hi. rewrite (same_attr _ _ _ _ Hs).
  eapply draws_backs; [by apply same_attached| |by apply Hd]. intros c Hc. apply (Hp n); [done|]. rewrite Hc. by left.
Qed.

Lemma no_src_reaction bs n : (forall p b, In (p, b) (flat bs) -> bd_params b <> BTag n "src") -> forall r, from_bindings bs [r] -> forall b, r <> RTag n "src" b.
Proof.
intros Hno r Hfb b ->. destruct (Hfb _ (or_introl eq_refl)) as (p & bd & Hin & Hw). apply (Hno _ _ Hin). destruct (bd_params bd); try done. cbn in Hw. congruence.
Qed.
Lemma update_source X fuel v i x v' o n : sound v -> v_body v = 1 -> update X fuel v i x = Ok (v', o) ->
  (forall p b, In (p, b) (flat (v_bindings v)) -> bd_params b <> BTag n "src") -> drawn_source n (v_tree v) -> drawn_source n (v_tree v').
Proof.
  intros Hs Hb1 Hu Hnt Hd. pose proof (so_live _ Hs) as Hl. rewrite (so_root _ Hs) in Hl.
  unfold update, prepare in Hu. apply bindR_Ok in Hu as ([[m0 t0] ids0] & Hp & H).
  apply bindR_Ok in H as ([[s t4] o'] & H4 & H). injection H as <- <-. rename Hp into H. cbn [v_tree set].
  apply bindR_Ok in H as ([m rs] & Hb & H). apply bindR_Ok in H as ([t ids] & Ht & H).
  apply bindR_Ok in H as (t1 & H1 & H). apply bindR_Ok in H as (t2 & H2 & H).
  apply bindR_Ok in H as (t3 & H3 & H). injection H as <- <- <-.
  pose proof (view_bind_reactions_ok _ _ _ _ _ Hs Hb) as Hok.
  assert (Hd1 : drawn_source n t).
  { eapply trees_keep; [|exact Hl|exact Hok|exact Ht|exact Hd]. intros r Hr. apply keeps_source. intros b ->.
    assert (Hfr : from_bindings (v_bindings v) [RTag n "src" b]) by (intros r' [<-|[]]; by apply (view_bind_from _ _ _ _ _ Hb)).
    by apply (no_src_reaction _ _ Hnt _ Hfr b). }
  assert (Hl1 : live t 0).
  { destruct (update_trees_ok (x_read_inline_css X) rs (v_tree v) (v_ids v) 0 Hl Hok) as (t' & ids' & H' & Hl2 & _). rewrite Ht in H'. injection H' as -> ->. exact Hl2. }
  pose proof (set_viewport_same _ _ _ _ H1) as S1. pose proof (apply_styles_same _ _ _ _ _ _ _ _ _ _ _ H2) as S2.
  pose proof (run_layout_same X t2) as S3. pose proof (final_positions_same _ _ _ _ _ _ _ H3) as S4.
  apply handle_output_sbs in H4. cbn [fst snd] in H4. pose proof (sbs_same _ _ H4) as S5.
  assert (Hq : forall a b, same_backs a b -> pictures_kept a b) by (intros a b Hab n' c _ _; apply Hab).
  eapply source_kept; [exact S5|apply Hq; by apply state_backs|].
  eapply source_kept; [exact S4|apply Hq; by eapply positions_backs|].
  eapply source_kept; [exact S3|apply Hq; apply layout_backs|].
  eapply source_kept; [exact S2| |].
  { rewrite Hb1 in H2. eapply apply_styles_pictures; [by eapply same_live| |exact H2]. intros n' Hi. eapply not_the_body; [by eapply same_live|done]. }
  eapply source_kept; [exact S1|apply Hq; by eapply viewport_backs|exact Hd1].
Qed.

Lemma loaded_source X fuel doc css v n : from_document X fuel doc css = Ok v -> drawn_source n (v_tree v).
Proof.
  intros H0. unfold from_document in H0. destruct (scan_document _ _) as [templates body]. 
  apply bindR_Ok in H0 as ([[r root] b] & Hr & H). apply bindR_Ok in H as (d & Hd & H). apply bindR_Ok in H as (t & Ht & H).
  apply bindR_Ok in H as ([t' ids] & Ha & H). injection H as <-. cbn [v_tree].
  destruct (render_any _ _ _ _ _ _ _ _ Hr) as (rn & ps & Hm & -> & -> & Hre & Hsid & Hso & Hfl & Hsch).
  pose proof (stylesheet_shown _ _ _ _ _ _ Ht) as Hsh.
  destruct (rendered_live _ _ _ Hm Hre) as (Hl & Hat & H1). pose proof (shown_live _ _ _ Hsh Hl) as Hl'.
  assert (Hbd : forall p b, In (p, b) (flat (r_bindings r)) -> binding_ok t b).
  { intros p b Hb. eapply binding_ok_def; [by apply shown_def|]. eapply stands_bindings_ok; [apply (re_stands _ _ _ Hre)|done|].
    apply elem_of_list_In. rewrite <- Hfl. by apply elem_of_list_In. }
  eapply (trees_keep (x_read_inline_css X) (drawn_source n)); [|exact Hl'|by apply default_reactions_ok|exact Ha|].
  { intros q Hq. apply default_reactions_in in Hq as (p & b & q' & c & v & Hin' & Hb' & ->). by apply keeps_source. }
  (* the tree as rendered *)
  intros Hi. assert (Hlt1 : 1 < t_next (r_tree r)) by (rewrite (re_next _ _ _ Hre); pose proof (rsize_pos rn); lia).
  destruct (calculate_spec _ _ _ _ _ Hl _ _ _ Hlt1 Ht (shown_refl _)) as (C1 & C2 & _).
  destruct (image_child _ _ Hl' Hi) as (c & Hc & Hcd). pose proof (live_newer _ _ Hl' n c ltac:(left; rewrite Hc; by left)) as Hnc.
  assert (Hn0 : n <> 0). { intros ->. destruct (live_root _ _ Hl') as [Hr0 _]. congruence. }
  assert (Hnx : t_next t = t_next (r_tree r)) by (by destruct Hsh). rewrite Hnx in Hnc.
  destruct Hi as (e & He & Htag).
  destruct (stands_sub _ (r_tree r) rn (Some 0) 1 n (re_stands _ _ _ Hre)) as (par' & rk & Hk & Hmk & _); [rewrite (re_next _ _ _ Hre) in Hnc; lia|].
  pose proof (stands_root _ _ _ _ _ Hk) as Hkr. 
  rewrite (C1 n) in He by (eapply rendered_under; [exact Hm|exact Hre|done|lia]).
  assert (Hctx : get_ctx (r_tree r) n = Some (elem_of (x_read_inline_css X) n rk)) by (unfold get_ctx; by rewrite Hkr).
  rewrite Hctx in He. cbn [fmap option_fmap option_map] in He. apply (inj Some) in He. subst e.
  destruct rk as [spans|src|tag binds kids marks]; cbn [elem_of] in Htag; try done.
  assert (Htag' : tag = "img").
  { unfold add_rules, set in Htag. cbn in Htag. destruct (apply_rbinds_keep (x_read_inline_css X) binds (create_element n <| e_tag := tag |>)) as (_ & Ht' & _).
    unfold set in Ht'. cbn in Ht'. congruence. }
  destruct (proj1 (proj1 (marks_ok_iff _ _ _ _) (Hmk Hm))) as (_ & _ & Hki). destruct (Hki Htag') as [-> ->]. clear Hki.
  cbn [stands] in Hk. destruct Hk as (_ & [[Hk _] _]). cbn [kids_of place] in Hkr.
  assert (c = S n) as ->.
  { rewrite (shown_attached _ _ _ Hsh) in Hc. unfold attached in Hc. rewrite Hkr in Hc. cbn [n_children] in Hc. by injection Hc. }
  assert (Hsrc : attr t n "src" = static_attr "src" binds).
  { rewrite (shown_attr _ _ _ _ Hsh). unfold attr. rewrite Hctx. cbn [option_bind mbind elem_of]. unfold static_attr.
    exact (static_attr_spec (x_read_inline_css X) "src" binds (create_element n <| e_tag := tag |>) None eq_refl). }
  rewrite Hsrc.
  assert (Hcc : get_ctx (r_tree r) (S n) = Some (elem_of (x_read_inline_css X) (S n) (RImage (default "" (static_attr "src" binds))))) by (unfold get_ctx; change (@lookup nat) with (@lookup NodeId); rewrite Hk; done).
  assert (Hct : get_ctx t (S n) = add_rules (x_debug X) (r_tree r) (css_styles css) (S n) <$> get_ctx (r_tree r) (S n)).
  { apply C1. eapply rendered_under; [exact Hm|exact Hre|done|lia]. }
  rewrite Hcc in Hct. exists (S n). eexists. eexists. split; [exact Hc|]. split; [exact Hct|]. split; [reflexivity|]. done.
Qed.

Theorem image_draws X fuel doc css v0 hist v os n : from_document X fuel doc css = Ok v0 -> updates X fuel v0 hist = Ok (v, os) ->
  (forall p b, In (p, b) (flat (v_bindings v0)) -> bd_params b <> BTag n "src") ->
  is_image (v_tree v) n -> draws (v_tree v) n (default "" (attr (v_tree v) n "src")).
Proof.
  intros H0 Hu Hnt. pose proof (loaded_source _ _ _ _ _ n H0) as Hd. pose proof (from_document_sound _ _ _ _ _ H0) as Hs.
  assert (Hb : v_body v0 = 1). { apply from_document_stages in H0 as (? & ? & ? & ? & ? & ? & ? & ? & H). tauto. }
  clear H0. revert v0 os Hu Hnt Hd Hs Hb. induction hist as [|[i x] hist IH]; intros v0 os H Hnt Hd Hs Hb; cbn [updates] in H.
  - injection H as <- <-. exact Hd.
  - apply bindR_Ok in H as ([v1 o] & Hu & H). apply bindR_Ok in H as ([v2 os'] & H' & [= <- <-]).
    destruct (update_keeps _ _ _ _ _ _ _ Hs Hu) as (K1 & _).
    pose proof Hu as Hc. apply update_content in Hc as (? & ? & ? & ? & _ & _ & _ & _ & _ & _ & _ & _ & _ & _ & Hbd).
    eapply IH; [exact H'|by rewrite K1|by eapply update_source|by eapply update_sound|congruence].
Qed.

(** an image whose source is one bound value *)
Theorem image_follows X fuel doc css v0 : from_document X fuel doc css = Ok v0 -> forall sh, v_model v0 = initial_model sh -> wf_shape sh = true ->
  forall hist i x v os, Forall (fun e => fits sh (snd e) = true) (hist ++ [(i, x)]) -> json_wf x = true ->
  updates X fuel v0 (hist ++ [(i, x)]) = Ok (v, os) ->
  forall pos b, In (pointer_string pos, b) (flat (v_bindings v0)) ->
  forall n w s0, bd_params b = BAttribute n "src" 0 ->
  (forall p' b', In (p', b') (flat (v_bindings v0)) -> bd_params b' = BAttribute n "src" 0 -> p' = pointer_string pos /\ b' = b) ->
  (forall p' b', In (p', b') (flat (v_bindings v0)) -> bd_params b' <> BTag n "src") ->
  is_image (v_tree v0) n -> attr_spans (v_tree v0) n "src" = Some [s0] -> attr (v_tree v0) n "src" = Some s0 ->
  shape_at sh pos = Some SLeaf -> value_at (project sh x) pos = Some w -> w <> JNull ->
  exists w0 w', json_eq w0 w = true /\ piped (v_transformers v0) (bd_pipe b) w0 w' /\ draws (v_tree v) n (eval_string (x_fmt_f64 X) w').
Proof.
  intros H0 sh Hm Hw hist i x v os Hf Hx Hu pos b Hin n w s0 Hb H1 Hnt Hi Hsp Hat Hs Hv Hn.
  destruct (attr_current _ _ _ _ _ H0 _ Hm Hw _ _ _ _ _ Hf Hx Hu _ _ Hin _ _ _ _ Hb H1 Hs Hv Hn) as (w0 & w' & spans & He & Hp & Hsp' & Hk).
  exists w0, w'. split; [done|]. split; [done|].
  destruct (updates_reacted _ _ _ _ _ _ Hu) as (log & Hr). pose proof (from_document_sound _ _ _ _ _ H0) as Hso.
  destruct (reacted_keeps _ _ _ _ _ _ Hr Hso) as (_ & _ & Hd & _).
  assert (Hj : joined (v_tree v0) n "src"). { intros sp Hsp0. rewrite Hsp in Hsp0. injection Hsp0 as <-. by rewrite Hat. }
  pose proof (joined_history _ _ _ _ _ _ _ _ n "src" H0 Hr Hnt Hj _ Hsp') as Ha.
  assert (Hi' : is_image (v_tree v) n). { eapply image_def; [|exact Hi]. destruct Hd as [Hd1 Hd2]. split; [done|]. intros m. by rewrite Hd2. }
  pose proof (image_draws _ _ _ _ _ _ _ _ n H0 Hu Hnt Hi') as Hdr. rewrite Ha in Hdr. cbn [default] in Hdr.
  assert (Hlen : List.length spans = 1).
  { destruct Hd as [_ Hd]. specialize (Hd n). unfold attr_spans in Hsp, Hsp'. destruct (get_ctx (v_tree v0) n) as [e0|]; [|done]. destruct (get_ctx (v_tree v) n) as [e|]; [|done].
    cbn in Hd, Hsp, Hsp'. apply (inj Some) in Hd. unfold definition_of in Hd. injection Hd as _ _ _ _ Hd _ _.
    apply (f_equal (fun m => m !! "src")) in Hd. rewrite !lookup_fmap in Hd. rewrite Hsp, Hsp' in Hd. cbn in Hd. by injection Hd as ->. }
  destruct spans as [|s [|? ?]]; try done. specialize (Hk ltac:(cbn; lia)). cbn in Hk. injection Hk as ->. exact Hdr.
Qed.
