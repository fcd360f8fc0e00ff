(** * Loading succeeds (C75). *)
From Coq Require Import ZArith Lia.
From stdpp Require Import gmap.
From RecordUpdate Require Import RecordUpdate.
From Verif Require Import Str StrFacts F32 Res ResFacts Json JsonFacts PropKey Html Css Element Tree ViewModel Render
  SpecRender SpecTree RenderFacts RenderTree RenderNode RenderProps RenderAny RenderMore SpecTotal
  Update Matching Cascade Initial Animation Apply Styling Events View SpecDocument SpecLive SpecSelect LiveFacts LiveUpdate LiveView SelectFacts SelectLive DocumentFacts SchemaFacts.

Lemma foldR_total {A St} (f : St -> A -> res St) (Inv : St -> Prop) (l : list A) : forall s,
  Inv s -> (forall s a, a ∈ l -> Inv s -> exists s', f s a = Ok s' /\ Inv s') -> exists s', foldR f s l = Ok s' /\ Inv s'.
Proof.
  induction l as [|a l IH]; intros s Hi Hs; cbn [foldR]; [by exists s|].
  destruct (Hs s a ltac:(apply elem_of_list_here) Hi) as (s1 & -> & H1). cbn [bindR].
  apply IH; [done|]. intros s2 b Hb. apply Hs. by apply elem_of_list_further.
Qed.
Lemma bound_list {A} (P : A -> nat -> Prop) (l : list A) : (forall a n m, P a n -> n <= m -> P a m) -> (forall a, a ∈ l -> exists n, P a n) ->
  exists n, forall a, a ∈ l -> P a n.
Proof.
  intros Hm. induction l as [|a l IH]; intros H; [exists 0; intros a Ha; by apply elem_of_nil in Ha|].
  destruct (H a ltac:(apply elem_of_list_here)) as [n Hn]. destruct IH as [m Hl]; [intros b Hb; apply H; by apply elem_of_list_further|].
  exists (n + m). intros b [->|Hb]%elem_of_cons; [eapply Hm; [exact Hn|lia]|eapply Hm; [by apply Hl|lia]].
Qed.

(** ** Names *)
Lemma resolve_named E b : b_path b <> [] -> is_Some (resolve E b).
Proof. unfold resolve. destruct (b_path b); [done|]. eauto. Qed.
Lemma r_field_total b r : b_path b <> [] -> exists r' p, r_field b r = Ok (r', p).
Proof.
  intros H. pose proof (r_field_agree b r) as Ha. destruct (resolve_named (r_locals r) b H) as [p Hp]. rewrite Hp in Ha.
  destruct (r_field b r) as [[r' q]| | |]; try done. eauto.
Qed.
Lemma r_index_total b i r : b_path b <> [] -> exists r' p, r_index b i r = Ok (r', p).
Proof.
  intros H. unfold r_index, schema_index. rewrite to_json_pointer_resolve. destruct (resolve_named (r_locals r) b H) as [p ->]. cbn. eauto.
Qed.
Lemma mapM_total {A B} (f : A -> option B) l : (forall a, a ∈ l -> is_Some (f a)) -> is_Some (mapM f l).
Proof. intros H. apply mapM_is_Some, list.Forall_forall. exact H. Qed.
Lemma binding_resolves E b : (forall x, asks b x -> b_path x <> []) -> is_Some (resolve_binding E b).
Proof.
  intros H. destruct b as [k v|name b|k b|k text|name n b|ev args|v b]; cbn [resolve_binding]; eauto.
  - destruct (resolve_named E b) as [p ->]; [by apply H|]. cbn. eauto.
  - destruct (as_simple_text text); [eauto|]. destruct (mapM_total (resolve_span (fun s => s) E) text) as [l ->]; [|cbn; eauto].
    intros [s|b] Hb; cbn; [eauto|]. destruct (resolve_named E b) as [p ->]; [by apply H|]. cbn. eauto.
  - destruct (mapM_total (resolve_arg E) args) as [l ->]; [|cbn; eauto].
    intros [k| |b] Hb; cbn; eauto. destruct (resolve_named E b) as [p ->]; [by apply H|]. cbn. eauto.
Qed.
Lemma bindings_resolve E h : named h -> is_Some (resolve_bindings E (h_bindings h)).
Proof.
  intros [H _]. unfold resolve_bindings. destruct (mapM_total (resolve_binding E) (h_bindings h)) as [l ->]; [|cbn; eauto].
  intros b Hb. apply binding_resolves. intros x. by apply H.
Qed.

Lemma first_visibility_in bs v b : first_visibility bs = Some (v, b) -> EBVisibility v b ∈ bs.
Proof.
  induction bs as [|x bs IH]; [done|]. destruct x; cbn; intros H; try (apply elem_of_list_further; by apply IH).
  injection H as -> ->. apply elem_of_list_here.
Qed.
Lemma first_repeat_in bs name n b : first_repeat bs = Some (name, n, b) -> EBRepeat name n b ∈ bs.
Proof.
  induction bs as [|x bs IH]; [done|]. destruct x; cbn; intros H; try (apply elem_of_list_further; by apply IH).
  injection H as -> -> ->. apply elem_of_list_here.
Qed.
Lemma alias_in bs name b : (name, b) ∈ aliases bs -> EBAlias name b ∈ bs.
Proof. unfold aliases. intros (x & Hx & H)%elem_of_list_omap. destruct x; try done. by injection H as -> ->. Qed.

(** ** Rendering *)
Section total.
  Context (read : string -> option (list Declaration)) (translate : string -> string) (templates : gmap string Html).

  (** the template unfolds to a finite tree *)
  Inductive expands : Html -> Prop :=
  | expands_intro h : named h -> (forall c, c ∈ h_children h -> is_ok (expand_child templates c) = true) ->
      (forall c c', c ∈ h_children h -> expand_child templates c = Ok c' -> expands c') -> expands h.

  Definition nice (lo : nat) (st : Renderer * list NodeId) : Prop :=
    beyond (r_tree (fst st)) /\ lo < t_next (r_tree (fst st)) /\
    (exists x, t_nodes (r_tree (fst st)) !! lo = Some x /\ n_children x = []) /\ NoDup (snd st) /\
    forall c, c ∈ snd st -> lo < c < t_next (r_tree (fst st)) /\ exists y, t_nodes (r_tree (fst st)) !! c = Some y /\ n_parent y = None.

  Lemma nice_same lo r r' cs : nice lo (r, cs) -> r_tree r' = r_tree r -> nice lo (r', cs).
  Proof. unfold nice. cbn [fst snd]. intros H ->. exact H. Qed.
  Lemma nice_kid lo r cs r' c rn qs : nice lo (r, cs) -> postq read r r' c rn qs -> nice lo (r', cs ++ [c]).
  Proof.
    intros (H1 & H2 & (x & H3 & H3') & H4 & H5) (Hc & P2 & P3 & P4 & P5 & _). cbn [fst snd] in *.
    pose proof (rsize_pos rn). split; [exact P3|]. split; [cbn [fst]; rewrite P2, Hc; lia|]. split; [|split].
    - exists x. cbn [fst]. rewrite P4 by lia. done.
    - cbn [snd]. apply NoDup_app. split; [done|]. split; [|by apply NoDup_singleton].
      intros d Hd ->%elem_of_list_singleton. destruct (H5 _ Hd) as [? _]. lia.
    - cbn [fst snd]. intros d [Hd| ->%elem_of_list_singleton]%elem_of_app.
      + destruct (H5 _ Hd) as [[? ?] (y & Hy & Hp)]. split; [rewrite P2, Hc; lia|]. exists y. rewrite P4 by lia. done.
      + split; [rewrite P2, Hc; lia|]. apply stands_root in P5. eauto.
  Qed.
  Lemma nice_any lo r cs r' c : nice lo (r, cs) -> any_post read r r' c -> nice lo (r', cs ++ [c]).
  Proof. intros H (rn & qs & _ & Hp). by eapply nice_kid. Qed.

  Lemma alias_total cs lo l : (forall name b, (name, b) ∈ l -> b_path b <> []) -> forall r over, nice lo (r, cs) ->
    exists r' over', foldR bind_alias (r, over) l = Ok (r', over') /\ nice lo (r', cs).
  Proof.
    induction l as [|[name b] l IH]; intros Hl r over Hn; cbn [foldR]; [eauto|]. cbn [bind_alias].
    destruct (r_field_total b r) as (r1 & p & Hf); [by apply (Hl name), elem_of_list_here|]. rewrite Hf. cbn [bindR].
    destruct (r_field_any _ _ _ _ Hf) as (Ht & _).
    apply IH; [intros n' b' H'; apply (Hl n'); by apply elem_of_list_further|]. by eapply nice_same.
  Qed.

  Lemma render_node_total h : expands h -> exists N, forall fuel r, N <= fuel -> beyond (r_tree r) ->
    exists r' n, render_node translate read templates fuel h r = Ok (r', n).
  Proof.
    induction 1 as [h Hn Hok Hex IH].
    assert (Hkids : exists N, forall c, c ∈ h_children h -> forall c', expand_child templates c = Ok c' -> forall fuel r, N <= fuel -> beyond (r_tree r) ->
       exists r' n, render_node translate read templates fuel c' r = Ok (r', n)).
    { apply bound_list.
      - intros c n m H Hle c' Hc' fuel r Hf. eapply H; [done|lia].
      - intros c Hc. specialize (Hok c Hc). destruct (expand_child templates c) as [c'| | |] eqn:E; try done.
        destruct (IH c c' Hc E) as [N HN]. exists N. intros c2 [= <-]. exact HN. }
    assert (Hnamed : forall c c', c ∈ h_children h -> expand_child templates c = Ok c' -> named c'). 
    { intros c c' Hc E. by destruct (Hex c c' Hc E). }
    destruct Hkids as [N HN]. exists (S N). intros fuel r Hf Hb. destruct fuel as [|fuel]; [lia|]. apply le_S_n in Hf.
    cbn [render_node]. destruct (h_text h) as [text|] eqn:Et.
    { pose proof (render_text_agree read translate text r Hb) as Ha.
      destruct (mapM_total (resolve_span translate (r_locals r)) text) as [l Hl].
      { intros [s|b] Hs; cbn; [eauto|]. destruct (resolve_named (r_locals r) b) as [p ->]; [by apply (proj2 Hn text)|]. cbn. eauto. }
      rewrite Hl in Ha. cbn [mbind option_bind] in Ha. destruct (render_text translate text r) as [[r' n]| | |]; try done. eauto. }
    cbn [new_leaf]. set (lo := t_next (r_tree r)) in *.
    set (t1 := mkTree (<[lo := _]> _) _). set (r1 := r <| r_tree := t1 |>).
    pose proof (render_bindings_agree read lo r1 (create_element lo <| e_tag := h_tag h |>) (h_bindings h)) as Ha.
    destruct (bindings_resolve (r_locals r1) h Hn) as [binds Hbi]. rewrite Hbi in Ha.
    destruct (foldR (render_binding read lo) _ (h_bindings h)) as [[r2 e2]| | |]; try done. cbn [bindR]. destruct Ha as (HT & HL & HS & He & HA).
    assert (Hinv0 : nice lo (r2, [])).
    { split; [|split; [|split; [|split]]]; cbn [fst snd].
      - rewrite HT. intros m Hm. cbn in *. rewrite lookup_insert_ne by lia. apply Hb. lia.
      - rewrite HT. cbn. lia.
      - rewrite HT. cbn. rewrite lookup_insert. eauto.
      - constructor.
      - intros c Hc. by apply elem_of_nil in Hc. }
    match goal with |- context [bindR ?m _] => assert (Hch : exists r3 cs, m = Ok (r3, cs) /\ nice lo (r3, cs)) end.
    { destruct (String.eqb (e_tag e2) "img").
      { unfold render_img. match goal with |- context [render_bg_image ?s r2] => destruct (render_bg_image_post read s r2 (proj1 Hinv0)) as (r3 & c & -> & Hp & _) end.
        cbn [bindR]. exists r3, [c]. split; [done|]. exact (nice_kid _ _ _ _ _ _ _ Hinv0 Hp). }
      destruct (is_void (e_tag e2)); [eauto|].
      match goal with |- context [foldR ?f ?s ?l] => destruct (foldR_total f (nice lo) l s) as ([r3 cs] & H3 & H3') end; [exact Hinv0| |eauto].
      intros [r3 cs] child Hin Hi. specialize (Hok child Hin). destruct (expand_child templates child) as [c| | |] eqn:Ec; try done. cbn [bindR].
      pose proof (Hnamed _ _ Hin Ec) as Hnc. specialize (HN _ Hin _ Ec fuel). 
      destruct (alias_total cs lo (aliases (h_bindings c))) with (r := r3) (over := ∅ : gmap string (option string)) as (r4 & over & -> & Hi4); [|done|].
      { intros name b Hal. apply alias_in in Hal. by apply (proj1 Hnc _ b Hal). }
      cbn [bindR].
      match goal with |- context [bindR ?m _] => assert (Hm : exists r5 cs5, m = Ok (r5, cs5) /\ nice lo (r5, cs5)) end;
        [|destruct Hm as (r5 & cs5 & -> & H5); cbn [bindR]; exists (restore over r5, cs5); split; [done|]; by eapply nice_same].
      destruct (as_visibility c) as [[visible b]|] eqn:Ev; [|destruct (as_repeat c) as [[[name count] b]|] eqn:Er].
      - apply first_visibility_in in Ev. destruct (r_field_total b r4) as (r5 & p & Hp); [by apply (proj1 Hnc _ b Ev)|]. rewrite Hp. cbn [bindR].
        destruct (r_field_any _ _ _ _ Hp) as (Ht5 & _). assert (Hi5 : nice lo (r5, cs)) by (by eapply nice_same).
        destruct (HN r5) as (r6 & k & Hk); [done|apply Hi5|]. rewrite Hk. cbn [bindR]. eexists _, _. split; [done|].
        eapply (nice_same _ r6); [|done]. eapply nice_any; [exact Hi5|]. eapply render_node_any; [apply Hi5|exact Hk].
      - apply first_repeat_in in Er. destruct (r_field_total b r4) as (r5 & p & Hp); [by apply (proj1 Hnc _ b Er)|]. rewrite Hp. cbn [bindR].
        destruct (r_field_any _ _ _ _ Hp) as (Ht5 & _). assert (Hi5 : nice lo (r5, cs)) by (by eapply nice_same).
        match goal with |- context [foldR ?f ?s ?l] => destruct (foldR_total f (nice lo) l s) as ([r7 cs7] & H7 & H7') end.
        + by eapply (nice_same _ r5).
        + intros [r6 cs6] i _ Hi6. destruct (r_index_total b i r6) as (r7 & q & Hq); [by apply (proj1 Hnc _ b Er)|]. rewrite Hq. cbn [bindR].
          destruct (r_index_any _ _ _ _ _ Hq) as (Ht7 & _). set (r7' := r7 <| r_locals ::= _ |>).
          assert (Hi7 : nice lo (r7', cs6)) by (by eapply (nice_same _ r6)).
          destruct (HN r7') as (r8 & k & Hk); [done|apply Hi7|]. rewrite Hk. cbn [bindR]. eexists. split; [done|].
          eapply nice_any; [exact Hi7|]. eapply render_node_any; [apply Hi7|exact Hk].
        + rewrite H7. cbn [bindR]. eexists _, _. split; [done|]. by eapply (nice_same _ r7).
      - destruct (HN r4) as (r6 & k & Hk); [done|apply Hi4|]. rewrite Hk. cbn [bindR]. eexists _, _. split; [done|].
        eapply nice_any; [exact Hi4|]. eapply render_node_any; [apply Hi4|exact Hk]. }
    destruct Hch as (r3 & cs & -> & Hi3). cbn [bindR]. destruct Hi3 as (_ & Hlo & (x & Hx & Hx') & Hnd & Hcs). cbn [fst snd] in *.
    unfold set_ctx, get_node. rewrite Hx. cbn [unwrap bindR].
    match goal with |- context [set_children lo cs ?t] => destruct (set_children_fresh lo cs t (x <| n_ctx := Some (e2 <| e_children := cs |>) |>)) as (t4 & H4 & _) end.
    - unfold put_node. cbn. by rewrite lookup_insert.
    - done.
    - done.
    - intros Hin. apply elem_of_list_In in Hin. destruct (Hcs _ Hin) as [? _]. lia.
    - intros c Hc. apply elem_of_list_In in Hc. destruct (Hcs _ Hc) as [? (y & Hy & Hyp)]. exists y. split; [|done].
      unfold put_node. cbn. rewrite lookup_insert_ne by lia. done.
    - rewrite H4. cbn [bindR]. eauto.
  Qed.
End total.

(** ** Finite documents *)
Section finite.
  Context (templates : gmap string Html).
  Notation expands := (expands templates).

  Lemma html_ind_kids (P : Html -> Prop) : (forall h, (forall c, c ∈ h_children h -> P c) -> P h) -> forall h, P h.
  Proof.
    intros H. fix IH 1. intros [tag bs text kids]. apply H. cbn [h_children]. apply list.Forall_forall.
    exact ((fix go (l : list Html) : Forall P l := match l with [] => Forall_nil_2 _ | k :: l => Forall_cons_2 _ _ _ (IH k) (go l) end) kids).
  Qed.

  Lemma scan_link bs : forall id acc id' acc', link_scan bs id acc = (id', acc') ->
    (forall b, b ∈ acc' -> b ∈ acc \/ b ∈ bs) /\
    ((id' = id /\ forall v, EBNone "href" v ∉ bs) \/ exists a v b, id' = Some v /\ bs = a ++ EBNone "href" v :: b /\ forall w, EBNone "href" w ∉ b).
  Proof.
    induction bs as [|x bs IH]; intros id acc id' acc' H; cbn [link_scan] in H.
    { injection H as <- <-. split; [by left|]. left. split; [done|]. intros v Hv. by apply elem_of_nil in Hv. }
    assert (Hgen : forall acc1, link_scan bs id acc1 = (id', acc') -> (acc1 = acc ++ [x]) -> (forall v, x <> EBNone "href" v) ->
      (forall b, b ∈ acc' -> b ∈ acc \/ b ∈ x :: bs) /\
      ((id' = id /\ forall v, EBNone "href" v ∉ x :: bs) \/ exists a v b, id' = Some v /\ x :: bs = a ++ EBNone "href" v :: b /\ forall w, EBNone "href" w ∉ b)).
    { intros acc1 H1 -> Hx. apply IH in H1 as [H1 H2]. split.
      - intros b Hb. destruct (H1 b Hb) as [[Hb'| ->%elem_of_list_singleton]%elem_of_app|Hb']; [by left|right; apply elem_of_list_here|right; by apply elem_of_list_further].
      - destruct H2 as [[-> H2]|(a & v & b & -> & -> & H2)].
        + left. split; [done|]. intros v [Hv|Hv]%elem_of_cons; [by apply (Hx v)|by apply (H2 v)].
        + right. exists (x :: a), v, b. done. }
    destruct x as [k v|name b|k b|k text|name n b|ev args|v b]; try (eapply Hgen; [exact H|done|done]).
    destruct (String.eqb_spec k "href") as [->|Hk].
    - apply IH in H as [H1 H2]. split.
      + intros b Hb. destruct (H1 b Hb); [by left|right; by apply elem_of_list_further].
      + right. destruct H2 as [[-> H2]|(a & w & b & -> & -> & H2)].
        * exists [], v, bs. done.
        * exists (EBNone "href" v :: a), w, b. done.
    - eapply Hgen; [exact H|done|]. intros w [= -> _]. done.
  Qed.
  Lemma template_link h id bs : as_template_link h = Some (id, bs) -> links_to h id /\ forall b, b ∈ bs -> b ∈ h_bindings h.
  Proof.
    unfold as_template_link, links_to. destruct (String.eqb_spec (h_tag h) "link") as [Ht|]; [|done].
    destruct (link_scan (h_bindings h) None []) as [[i|] acc] eqn:E; [|done]. intros [= -> ->].
    apply scan_link in E as [H1 H2]. split.
    - split; [done|]. destruct H2 as [[? _]|(a & v & b & [= ->] & H2)]; [done|]. exists a, b. done.
    - intros b Hb. destruct (H1 b Hb) as [Hn|]; [by apply elem_of_nil in Hn|done].
  Qed.

  Lemma expands_more t bs : expands t -> (forall b x, b ∈ bs -> asks b x -> b_path x <> []) ->
    expands (mkHtml (h_tag t) (bs ++ h_bindings t) (h_text t) (h_children t)).
  Proof.
    intros H Hbs. destruct H as [h [H1 H1'] H2 H3]. constructor; [|exact H2|exact H3].
    split; [|exact H1']. cbn [h_bindings]. intros b x [Hb|Hb]%elem_of_app; [by apply Hbs|by apply H1].
  Qed.
  Lemma expands_part h : all_named h -> (forall id, mentions h id -> exists t, templates !! id = Some t /\ expands t) -> expands h.
  Proof.
    induction h as [h IH] using html_ind_kids. intros [Hn Hb] Hm.
    assert (Hl : forall c id bs, c ∈ h_children h -> as_template_link c = Some (id, bs) -> exists t, templates !! id = Some t /\ expands t).
    { intros c id bs Hc Hl. apply template_link in Hl as [Hl _]. apply Hm. exists c. split; [by apply below_child|done]. }
    constructor; [done|..].
    - intros c Hc. unfold expand_child. destruct (as_template_link c) as [[id bs]|] eqn:E; [|done].
      destruct (Hl _ _ _ Hc E) as (t & -> & _). done.
    - intros c c' Hc Hx. unfold expand_child in Hx. destruct (as_template_link c) as [[id bs]|] eqn:E.
      + destruct (Hl _ _ _ Hc E) as (t & Ht & He). rewrite Ht in Hx. injection Hx as <-. apply expands_more; [done|].
        intros b x Hbx. apply template_link in E as [_ E]. apply (proj1 (Hb c (below_child _ _ Hc))). by apply E.
      + injection Hx as <-. apply IH; [done|split|].
        * apply Hb. by apply below_child.
        * intros d Hd. apply Hb. by eapply below_deep.
        * intros id (d & Hd & Hdl). apply Hm. exists d. split; [by eapply below_deep|done].
  Qed.

  Lemma body_expands body : all_named body -> (forall name t, templates !! name = Some t -> all_named t) -> finite_document templates body -> expands body.
  Proof.
    intros H1 H2 [H3 H4].
    assert (Hstep : forall a b, needed templates body a -> uses templates a b -> needed templates body b).
    { intros a b (f & Hf & Hr) Hu. exists f. split; [done|]. by eapply rtc_r. }
    pose (R := fun a b => needed templates body a /\ uses templates a b).
    assert (Htc : forall a b, tc R a b -> tc (uses templates) a b /\ needed templates body a /\ needed templates body b).
    { induction 1 as [a b [Ha Hab]|a b c [Ha Hab] _ (IH1 & IH2 & IH3)].
      - split; [by apply tc_once|]. split; [done|by eapply Hstep].
      - split; [by eapply tc_l|done]. }
    assert (Hgood : forall id, needed templates body id -> exists t, templates !! id = Some t /\ expands t).
    { intros id Hid. assert (Hsn : sn R id).
      { apply tc_finite_sn.
        - intros a Ha. destruct (Htc _ _ Ha) as (Hc & Hna & _). by apply (H4 a).
        - exists (elements (dom templates)). intros b Hb. destruct (Htc _ _ Hb) as (_ & _ & Hnb).
          apply elem_of_elements, elem_of_dom. by apply H3. }
      revert Hid. induction Hsn as [id _ IH]. intros Hid. destruct (H3 id Hid) as [t Ht]. exists t. split; [done|].
      apply expands_part; [by eapply H2|]. intros id' Hm. assert (Hu : uses templates id id') by (exists t; done).
      apply IH; [split; done|by eapply Hstep]. }
    apply expands_part; [done|]. intros id Hm. apply Hgood. exists id. split; [done|apply rtc_refl].
  Qed.
End finite.

(** ** The default data: its lists are not empty *)
Fixpoint full (v : json) : bool :=
  match v with
  | JArr l => match l with [] => false | _ => forallb full l end
  | JObj m => forallb (fun e => full (snd e)) m
  | _ => true
  end.
Lemma forallb_alter {A} (f : A -> bool) (g : A -> A) (l : list A) i : (forall a, f a = true -> f (g a) = true) -> forallb f l = true -> forallb f (alter g i l) = true.
Proof.
  intros Hg. revert i. induction l as [|a l IH]; intros [|i] H; cbn in *; try done.
  - apply andb_true_iff in H as [H1 H2]. by rewrite Hg, H2.
  - apply andb_true_iff in H as [H1 H2]. rewrite H1. by apply IH.
Qed.
Lemma define_full q : forall v, full v = true -> full (define_tokens q v) = true.
Proof.
  induction q as [|a q IH]; intros v Hv; cbn [define_tokens]; [done|]. destruct (parse_usize a) as [i|].
  - set (l := match v with JArr l => l | _ => [] end). assert (Hl : forallb full l = true).
    { destruct v as [| | | |[|x l']|]; done. }
    set (l' := if (List.length l <=? i)%nat then resize (S i) JNull l else l).
    assert (Hl' : forallb full l' = true /\ l' <> []).
    { unfold l', resize. destruct (Nat.leb_spec (List.length l) i) as [Hi|Hi].
      - split.
        + rewrite forallb_app. apply andb_true_iff. split.
          * rewrite forallb_forall in *. intros x Hx. apply Hl. apply elem_of_list_In. apply elem_of_list_In in Hx. eapply elem_of_submseteq; [exact Hx|]. apply sublist_submseteq, sublist_take.
          * apply forallb_forall. intros x Hx. apply repeat_spec in Hx as ->. done.
        + intros E. apply (f_equal (@List.length json)) in E. rewrite app_length, repeat_length, take_length in E. cbn [List.length] in E. lia.
      - split; [done|]. intros ->. cbn in Hi. lia. }
    destruct Hl' as [H1 H2]. pose proof (forallb_alter full (define_tokens q) l' i IH H1) as H3.
    cbn [full]. destruct (alter (define_tokens q) i l') eqn:E; [|done].
    apply (f_equal (@List.length json)) in E. rewrite alter_length in E. destruct l'; done.
  - set (m := match v with JObj m => m | _ => [] end). assert (Hm : forallb (fun e => full (snd e)) m = true) by (destruct v; done).
    cbn [full]. assert (Hg : full match obj_get a m with Some w => w | None => JNull end = true).
    { destruct (obj_get a m) as [w|] eqn:E; [|done]. clear - Hm E. induction m as [|[k x] m IH]; cbn in *; [done|].
      apply andb_true_iff in Hm as [H1 H2]. destruct (String.eqb a k); [by injection E as <-|by apply IH]. }
    specialize (IH _ Hg). clear Hg. revert IH. generalize (define_tokens q (match obj_get a m with Some w => w | None => JNull end)). intros w Hw.
    clear - Hm Hw. induction m as [|[k x] m IH]; cbn in *; [by rewrite Hw|]. apply andb_true_iff in Hm as [H1 H2].
    destruct (str_compare a k); cbn; rewrite ?Hw, ?H1, ?H2; cbn; try done. by apply IH.
Qed.
Lemma schema_full ps : forall v, full v = true -> full (foldl define_value v ps) = true.
Proof.
  induction ps as [|p ps IH]; intros v Hv; cbn [foldl]; [done|]. apply IH. unfold define_value. destruct (String.eqb _ _); [done|]. by apply define_full.
Qed.
Lemma memorize_total v : full v = true -> forall p d, exists d', memorize_array_default p v d = Ok d'.
Proof.
  induction v as [| b | n | s | l IH | m IH] using json_ind'; intros Hf p d; cbn [memorize_array_default]; eauto.
  - destruct l as [|v l]; [done|]. cbn [full forallb] in Hf. apply andb_true_iff in Hf as [Hf _]. inversion IH; subst. auto.
  - cbn [full] in Hf. revert d. induction m as [|[k v] m IHm]; intros d; [eauto|]. cbn [forallb snd] in Hf. apply andb_true_iff in Hf as [H1 H2].
    inversion IH as [|? ? Hv Hm]; subst. cbn [snd] in Hv. destruct (Hv H1 (p +:+ "/" +:+ k) d) as [d' ->]. cbn [bindR]. by apply IHm.
Qed.

(** ** Rules *)
Lemma next_total debug c t root n : live t root -> n < t_next t -> debug = false \/ c <> "+"%char ->
  exists o, find_next_target debug c n t = Ok o /\ forall m, o = Some m -> m < t_next t.
Proof.
  intros Hl Hn Hd. destruct (live_node _ _ Hl n Hn) as (e & He & _). destruct (ctx_is _ _ _ He) as [x Hx].
  assert (Hp : forall p, parent_of t n = Some p -> p < t_next t).
  { intros p Hp. apply (live_parent _ _ Hl) in Hp. destruct (live_newer _ _ Hl p n ltac:(by left)). lia. }
  unfold find_next_target. rewrite (parent_ok _ _ _ Hx). destruct (Ascii.eqb c ">"); [eauto|].
  destruct (Ascii.eqb_spec c "+") as [->|_]; [|by exists None]. destruct Hd as [->|]; [|done]. cbn [bindR].
  destruct (parent_of t n) as [p|] eqn:Ep; [|by exists None]. specialize (Hp p eq_refl).
  destruct (live_node _ _ Hl p Hp) as (e' & He' & _). destruct (ctx_is _ _ _ He') as [y Hy].
  unfold children, get_node. rewrite Hy. cbn [unwrap bindR]. destruct (position n (tail (n_children y))) as [[|k]|]; [by exists None| |by exists None].
  eexists. split; [done|]. intros m Hm. assert (Hin : m ∈ attached t p).
  { unfold attached. rewrite Hy. by eapply elem_of_list_lookup_2. }
  destruct (live_newer _ _ Hl p m ltac:(by left)). lia.
Qed.
Lemma components_ok debug mt t root l : live t root -> debug = false \/ (forall c, SCombinator c ∈ l -> c <> "+"%char) ->
  forall n e, n < t_next t -> exists b, match_components debug mt l n e t = Ok b.
Proof.
  intros Hl. induction l as [|s l IH]; intros Hc n e Hn; cbn [match_components]; [by exists true|].
  assert (Hc' : debug = false \/ forall c, SCombinator c ∈ l -> c <> "+"%char).
  { destruct Hc as [Hc|Hc]; [by left|]. right. intros c Hin. apply Hc. by apply elem_of_list_further. }
  destruct (as_combinator s) as [c|] eqn:E.
  - destruct s; try done. injection E as ->. destruct (next_total debug c t root n Hl Hn) as (o & -> & Ho).
    { destruct Hc as [Hc|Hc]; [by left|]. right. apply Hc, elem_of_list_here. }
    cbn [bindR]. destruct o as [m|]; [|by exists false]. destruct (live_node _ _ Hl m (Ho m eq_refl)) as (e' & He' & _). rewrite He'. cbn [unwrap bindR]. by apply IH; [|apply Ho].
  - destruct (match_simple_selector mt s e); [by apply IH|by exists false].
Qed.
Definition plus_free (s : Style) : Prop := forall sel, sel ∈ s_selectors s -> SCombinator "+" ∉ sel.
Lemma style_ok debug mt t root s n : live t root -> debug = false \/ plus_free s -> n < t_next t -> exists b, match_style debug mt s n t = Ok b.
Proof.
  intros Hl Hd Hn. unfold match_style, plus_free in *. revert Hd. generalize (s_selectors s) as sels.
  destruct (live_node _ _ Hl n Hn) as (e & He & _).
  induction sels as [|sel sels IH]; intros Hd; cbn [match_any]; [by exists false|].
  unfold match_complex_selector at 1. rewrite He. cbn [unwrap bindR].
  destruct (components_ok debug mt t root (rev sel) Hl) with (n := n) (e := e) as [b ->]; [|done|].
  { destruct Hd as [->|Hd]; [by left|]. right. intros c Hc ->. apply (Hd sel ltac:(apply elem_of_list_here)).
    by rewrite elem_of_list_In, <- in_rev, <- elem_of_list_In in Hc. }
  cbn [bindR]. destruct b; [by exists true|]. apply IH. destruct Hd as [->|Hd]; [by left|]. right. intros sel' Hin. apply Hd. by apply elem_of_list_further.
Qed.
Lemma push_total debug sheet n root : debug = false \/ Forall plus_free sheet -> forall t, live t root -> n < t_next t ->
  exists t', push_styles debug sheet n t = Ok t' /\ same_shown t t'.
Proof.
  intros Hd. induction sheet as [|s sheet IH]; intros t Hl Hn; unfold push_styles; cbn [foldR]; [exists t; split; [done|apply shown_refl]|].
  destruct (style_ok debug any_pseudo t root s n Hl) as [b ->]; [|done|].
  { destruct Hd as [->|Hd]; [by left|]. right. by inversion Hd. }
  destruct (live_node _ _ Hl n Hn) as (e & He & _). cbn [bindR]. unfold get_element at 1. rewrite He. cbn [ok_or bindR].
  assert (Hd' : debug = false \/ Forall plus_free sheet) by (destruct Hd as [->|Hd]; [by left|right; by inversion Hd]). specialize (IH Hd').
  unfold push_styles in IH. destruct (classify (e_hints e) b s) as [es|].
  - cbn [bindR]. match goal with |- context [foldR _ (put_element n ?e1 t) _] => assert (Hs : same_shown t (put_element n e1 t)) by (by eapply put_shown) end.
    destruct (IH (put_element n (set e_styles (fun l => l ++ [es]) e) t)) as (t' & H1 & H2); [by eapply shown_live|done|].
    exists t'. split; [exact H1|]. by eapply shown_trans.
  - cbn [bindR]. by apply IH.
Qed.
Lemma calculate_total debug sheet root : debug = false \/ Forall plus_free sheet -> forall depth n t, live t root -> n < t_next t -> t_next t <= n + depth ->
  exists t', calculate_elements_stylesheet depth debug sheet n t = Ok t' /\ same_shown t t'.
Proof.
  intros Hd. induction depth as [|depth IH]; intros n t Hl Hn Hdep; [lia|]. cbn [calculate_elements_stylesheet].
  destruct (push_total debug sheet n root Hd t Hl Hn) as (t1 & -> & H1). cbn [bindR]. rewrite (children_shown t t1 n H1).
  destruct (live_node _ _ Hl n Hn) as (e & He & _). destruct (ctx_is _ _ _ He) as [x Hx]. unfold children, get_node. rewrite Hx. cbn [unwrap bindR].
  assert (Hcs : n_children x = attached t n) by (unfold attached; by rewrite Hx). rewrite Hcs.
  match goal with |- context [foldR ?f ?s ?l] => destruct (foldR_total f (same_shown t) l s) as (t' & H2 & H3) end; [done| |eauto].
  intros t2 c Hc H2. destruct (live_newer _ _ Hl n c ltac:(by left)) as [Hnew Hold]. assert (Hnx : t_next t2 = t_next t) by (symmetry; apply H2).
  destruct (IH c t2) as (t3 & -> & H3); [by eapply shown_live|lia|lia|]. exists t3. split; [done|]. by eapply shown_trans.
Qed.

(** ** The whole *)
Lemma render_total read translate templates body : expands templates body ->
  exists N r, forall fuel, N <= fuel -> render translate read templates fuel body renderer_new = Ok (r, 0, 1).
Proof.
  intros H. destruct (render_node_total read translate templates body H) as [N HN].
  assert (HR : exists x, render translate read templates N body renderer_new = Ok x).
  { unfold render. cbn [new_leaf renderer_new r_tree tree_new t_next t_nodes].
    unfold set_ctx, get_node. cbn [t_nodes]. rewrite lookup_insert. cbn [unwrap bindR].
    match goal with |- context [render_node _ _ _ _ _ ?r] => set (r0 := r) end.
    assert (Hb : beyond (r_tree r0)).
    { intros m Hm. cbn in *. rewrite !lookup_insert_ne by lia. apply lookup_empty. }
    destruct (HN N r0 ltac:(lia) Hb) as (r1 & b1 & H1). rewrite H1. cbn [bindR].
    pose proof (render_node_any _ _ _ _ _ _ _ _ Hb H1) as (rn & qs & Hm & -> & P2 & P3 & P4 & P5 & _).
    change (t_next (r_tree r0)) with 1 in *. pose proof (stands_root _ _ _ _ _ P5) as Hroot.
    unfold add_child, set_parent, get_node. rewrite Hroot. cbn [unwrap bindR].
    unfold children, get_node. unfold put_node at 1. cbn [t_nodes set]. rewrite lookup_insert_ne by done. rewrite P4 by lia.
    change (t_nodes (r_tree r0) !! 0) with (Some (mkNode None [] default_layout (Some (create_element 0)) layout_zero)).
    cbn [unwrap bindR]. unfold put_children, get_node. unfold put_node at 1. cbn [t_nodes set]. rewrite lookup_insert_ne by done. rewrite P4 by lia.
    change (t_nodes (r_tree r0) !! 0) with (Some (mkNode None [] default_layout (Some (create_element 0)) layout_zero)).
    cbn [unwrap bindR]. eauto. }
  destruct HR as [[[r root] b] HR]. pose proof (render_any _ _ _ _ _ _ _ _ HR) as (rn & ps & _ & -> & -> & _).
  exists N, r. intros fuel Hf. rewrite (render_fuel translate read templates N fuel body renderer_new Hf); [done|]. by rewrite HR.
Qed.

Lemma all_named_below h d : all_named h -> below h d -> all_named d.
Proof.
  intros [_ Hb] Hd. split; [by apply Hb|]. intros x Hx. apply Hb. revert x Hx.
  induction Hd as [h c Hc|h c d Hc Hd IH]; intros x Hx; [by eapply below_deep|]. eapply below_deep; [exact Hc|].
  apply IH; [|done]. intros y Hy. apply Hb. by eapply below_deep.
Qed.
Lemma document_named doc templates body : document_templates doc templates body -> all_named doc ->
  all_named body /\ forall name t, templates !! name = Some t -> all_named t.
Proof.
  intros (before & [_ Hs] & Ht) Hn.
  assert (Hk : forall c, c ∈ h_children doc -> all_named c) by (intros c Hc; eapply all_named_below; [exact Hn|by apply below_child]). split.
  - destruct Hs as [(after & Hs & _)|[_ ->]].
    + apply Hk. rewrite Hs. apply elem_of_app. right. apply elem_of_list_here.
    + split; [split; [intros b x Hb; by apply elem_of_nil in Hb|done]|].
      intros d Hd. remember (mkHtml "" [] None []) as h0. exfalso. destruct Hd as [h c Hin|h c d Hin _]; subst h; by apply elem_of_nil in Hin.
  - intros name t Hx. apply Ht in Hx as (id & -> & a & c & b & E & (_ & _ & Hc) & _).
    eapply (all_named_below c); [apply Hk|apply below_child; rewrite Hc; apply elem_of_list_here].
    assert (Hcb : c ∈ before) by (rewrite E; apply elem_of_app; right; apply elem_of_list_here).
    destruct Hs as [(after & Hs & _)|[Hs _]]; rewrite Hs; [apply elem_of_app; by left|done].
Qed.
Theorem load_total X css doc templates body : document_templates doc templates body -> all_named doc -> finite_document templates body ->
  x_debug X = false \/ no_plus_sheet css ->
  exists N v, forall fuel, N <= fuel -> from_document X fuel doc css = Ok v.
Proof.
  intros Hdoc Han Hfd Hd. destruct (document_named _ _ _ Hdoc Han) as [Hn1 Hn2]. destruct (scan_document (h_children doc) ∅) as [templates' body'] eqn:Es.
  pose proof (document_scanned _ _ _ Es) as Hdoc'. destruct (document_fun _ _ _ _ _ Hdoc Hdoc') as [-> ->].
  destruct (render_total (x_read_inline_css X) (x_translate X) templates body (body_expands _ _ Hn1 Hn2 Hfd)) as (N & r & HN).
  pose proof (render_any _ _ _ _ _ _ _ _ (HN N ltac:(lia))) as (rn & ps & Hm & _ & _ & Hre & _ & _ & Hfl & Hsch).
  destruct (memorize_total (r_schema r)) with (p := "") (d := ∅ : gmap string json) as [d Hdf].
  { rewrite Hsch. by apply schema_full. }
  destruct (rendered_live _ _ _ Hm Hre) as (Hl & _ & Hat).
  assert (H1 : 1 < t_next (r_tree r)) by (destruct (live_newer _ _ Hl 0 1); [left; rewrite Hat; apply elem_of_list_here|lia]).
  destruct (calculate_total (x_debug X) (css_styles css) 0) with (depth := tree_depth (r_tree r)) (n := 1) (t := r_tree r) as (t & Ht & Hsh); [|done|done|unfold tree_depth; lia|].
  { destruct Hd as [->|Hd]; [by left|]. right. apply list.Forall_forall. intros s Hs sel. by apply Hd. }
  assert (Hb : forall p b, In (p, b) (flat (r_bindings r)) -> binding_ok t b).
  { intros p b Hb. eapply binding_ok_def; [by apply shown_def|]. eapply stands_bindings_ok; [apply (re_stands _ _ _ Hre)|done|].
    apply elem_of_list_In. rewrite <- Hfl. by apply elem_of_list_In. }
  pose proof (shown_live _ _ _ Hsh Hl) as Hl'.
  destruct (update_trees_ok (x_read_inline_css X) _ t (r_static_id r) 0 Hl' (default_reactions_ok _ _ Hb)) as (t' & ids' & H' & _).
  exists N. eexists. intros fuel Hf. unfold from_document. rewrite Es, HN by done. cbn [bindR]. rewrite Hdf. cbn [bindR]. rewrite Ht. cbn [bindR].
  unfold apply_default_bindings_state. rewrite H'. cbn [bindR]. reflexivity.
Qed.

(** ** Deciding [finite_document], for the examples *)
Fixpoint links_in (h : Html) : list string :=
  flat_map (fun c => (match as_template_link c with Some (id, _) => [id] | None => [] end) ++ links_in c) (h_children h).
Lemma last_href (a : list ElementBinding) : forall b a' b' v w, a ++ EBNone "href" v :: b = a' ++ EBNone "href" w :: b' ->
  (forall x, EBNone "href" x ∉ b) -> (forall x, EBNone "href" x ∉ b') -> v = w.
Proof.
  induction a as [|y a IH]; intros b [|y' a'] b' v w E Hb Hb'.
  - by injection E as -> _.
  - injection E as _ ->. exfalso. apply (Hb w). apply elem_of_app. right. apply elem_of_list_here.
  - injection E as _ <-. exfalso. apply (Hb' v). apply elem_of_app. right. apply elem_of_list_here.
  - injection E as _ E. by eapply IH.
Qed.
Lemma links_to_link h name : links_to h name -> exists bs, as_template_link h = Some (name, bs).
Proof.
  intros (Ht & a & b & Hb & Hl). unfold as_template_link. rewrite Ht. cbn [String.eqb Ascii.eqb Bool.eqb].
  destruct (link_scan (h_bindings h) None []) as [id acc] eqn:E. apply scan_link in E as [_ [[_ H]|(a' & v & b' & -> & H & Hl')]].
  - exfalso. apply (H name). rewrite Hb. apply elem_of_app. right. apply elem_of_list_here.
  - exists acc. rewrite H in Hb. by rewrite (last_href _ _ _ _ _ _ Hb Hl' Hl).
Qed.
Lemma mentions_in h name : mentions h name -> name ∈ links_in h.
Proof.
  intros (d & Hd & Hl). apply links_to_link in Hl as [bs Hl]. induction Hd as [h c Hc|h c d Hc _ IH]; destruct h as [tag bs0 text kids]; cbn [links_in h_children] in *;
    apply elem_of_list_In, in_flat_map; exists c; (split; [by apply elem_of_list_In|]); apply elem_of_list_In, elem_of_app.
  - left. rewrite Hl. apply elem_of_list_here.
  - right. by apply IH.
Qed.
Definition finite_check (rank : string -> nat) (templates : gmap string Html) (body : Html) : bool :=
  forallb (fun name => bool_decide (is_Some (templates !! name))) (links_in body) &&
  forallb (fun e => forallb (fun name => bool_decide (is_Some (templates !! name)) && Nat.ltb (rank name) (rank (fst e))) (links_in (snd e))) (map_to_list templates).
Lemma finite_checked rank templates body : finite_check rank templates body = true -> finite_document templates body.
Proof.
  intros H. apply andb_true_iff in H as [H1 H2]. rewrite forallb_forall in H1, H2.
  assert (Hu : forall a b, uses templates a b -> is_Some (templates !! b) /\ rank b < rank a).
  { intros a b (t & Ht & Hm). apply mentions_in in Hm. apply elem_of_map_to_list, elem_of_list_In in Ht. specialize (H2 _ Ht). cbn [fst snd] in H2.
    rewrite forallb_forall in H2. apply elem_of_list_In in Hm. specialize (H2 _ Hm). apply andb_true_iff in H2 as [Ha Hb].
    apply bool_decide_eq_true in Ha. apply Nat.ltb_lt in Hb. done. }
  split.
  - intros name (f & Hf & Hr). apply rtc_inv_r in Hr as [<-|(y & _ & Hy)]; [|by apply (Hu y)].
    apply mentions_in, elem_of_list_In in Hf. specialize (H1 _ Hf). by apply bool_decide_eq_true in H1.
  - intros name _ Ht. assert (Hlt : forall a b, tc (uses templates) a b -> rank b < rank a).
    { induction 1 as [a b Hab|a b c Hab _ IH]; [by apply Hu|]. apply Hu in Hab as [_ Hab]. lia. }
    apply Hlt in Ht. lia.
Qed.
