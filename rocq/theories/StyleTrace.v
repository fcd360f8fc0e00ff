(** * Styling the tree, element by element. *)
From Coq Require Import ZArith Lia.
From stdpp Require Import gmap.
From RecordUpdate Require Import RecordUpdate.
From Verif Require Import Str StrFacts F32 Res ResFacts Json PropKey Html Css Element Tree ViewModel Render Update Matching
  Cascade Initial Animation Apply Styling Events View
  SpecLive SpecLog SpecView SpecRender SpecTree SpecEvents FrameFacts EventFacts EventFrame
  RenderTree RenderNode RenderProps RenderAny RenderMore LiveFacts LiveUpdate LiveView LiveHistory LiveOrder
  SpecSelect SelectFacts SelectLive SelectFresh SpecStyle ApplyFacts CascadeFacts.

(** ** Matching looks at content and states *)
Definition alike (t t' : Tree) : Prop := same_content t t' /\ same_states t t'.
Lemma alike_refl t : alike t t. Proof. split; [apply same_refl|apply ss_refl]. Qed.
Lemma alike_trans a b c : alike a b -> alike b c -> alike a c.
Proof. intros [H1 H2] [H3 H4]. split; [by eapply same_trans|by eapply ss_trans]. Qed.
Lemma alike_sym a b : alike a b -> alike b a.
Proof. intros [H1 H2]. split; [by apply same_sym|]. intros n. by rewrite H2. Qed.
Lemma alike_ctx t t' n : alike t t' ->
  match get_ctx t n, get_ctx t' n with Some e, Some e' => content e = content e' /\ e_state e = e_state e' | None, None => True | _, _ => False end.
Proof.
  intros [H1 H2]. specialize (H2 n). unfold st_of in H2. destruct (get_ctx t n) as [e|] eqn:E.
  - destruct (same_ctx _ _ _ _ H1 E) as (e' & He' & Hc). rewrite He' in *. cbn in H2. split; [done|]. congruence.
  - destruct (get_ctx t' n) as [e'|] eqn:E'; [|done]. cbn in H2. done.
Qed.
Lemma simple_alike s e e' : content e = content e' -> e_state e = e_state e' -> match_simple_selector view_pseudo s e' = match_simple_selector view_pseudo s e.
Proof.
  intros H Hs. unfold content in H. injection H as H1 H2 H3 H4 H5 H6 H7 H8 H9 H10.
  destruct s; cbn [match_simple_selector]; rewrite ?H3, ?H5; try done. unfold view_pseudo. by rewrite Hs.
Qed.
Lemma components_alike debug t t' l : alike t t' -> forall n e e', content e = content e' -> e_state e = e_state e' ->
  match_components debug view_pseudo l n e' t' = match_components debug view_pseudo l n e t.
Proof.
  intros H. induction l as [|s l IH]; intros n e e' He Hs; cbn [match_components]; [done|]. destruct (as_combinator s) as [c|].
  - rewrite (next_shown _ _ _ _ _ (content_shown _ _ (proj1 H))). destruct (find_next_target debug c n t) as [[m|]| | |]; cbn [bindR]; try done.
    pose proof (alike_ctx _ _ m H) as Hm. destruct (get_ctx t m) as [x|], (get_ctx t' m) as [x'|]; try done. destruct Hm as [? ?]. cbn [unwrap bindR]. apply IH; assumption.
  - rewrite (simple_alike s e e') by done. destruct (match_simple_selector view_pseudo s e); [by apply IH|done].
Qed.
Lemma match_alike debug t t' s n : alike t t' -> match_style debug view_pseudo s n t' = match_style debug view_pseudo s n t.
Proof.
  intros H. unfold match_style. induction (s_selectors s) as [|sel sels IH]; cbn [match_any]; [done|].
  assert (He : match_complex_selector debug view_pseudo sel n t' = match_complex_selector debug view_pseudo sel n t).
  { unfold match_complex_selector. pose proof (alike_ctx _ _ n H) as Hm. destruct (get_ctx t n) as [x|], (get_ctx t' n) as [x'|]; try done.
    destruct Hm as [? ?]. cbn [unwrap bindR]. apply components_alike; assumption. }
  rewrite He. destruct (match_complex_selector debug view_pseudo sel n t) as [[|]| | |]; cbn [bindR]; done.
Qed.
Lemma rules_alike fuel debug t t' n l : alike t t' -> forall st, cascade_rules fuel debug n t' l st = cascade_rules fuel debug n t l st.
Proof.
  intros H. unfold cascade_rules. induction l as [|[s|s] l IH]; intros st; cbn [foldR]; [done|..].
  - destruct (compute_declaration_block fuel (s_declaration s) st); cbn [bindR]; [apply IH|done..].
  - rewrite (match_alike _ _ _ _ _ H). destruct (match_style debug view_pseudo s n t) as [b| | |]; cbn [bindR]; [|done..]. destruct b; [|apply IH].
    destruct (compute_declaration_block fuel (s_declaration s) st); cbn [bindR]; [apply IH|done..].
Qed.
Lemma cascade_alike fuel debug css order time sizes vars n t t' pe layout e : alike t t' ->
  cascade_apply_styles fuel debug css order time sizes vars n t' pe layout e = cascade_apply_styles fuel debug css order time sizes vars n t pe layout e.
Proof. intros H. unfold cascade_apply_styles. cbv zeta. by rewrite (rules_alike _ _ _ _ _ _ H). Qed.
Lemma cascade_state fuel debug css order time sizes vars node t p layout e l' e' v' :
  cascade_apply_styles fuel debug css order time sizes vars node t p layout e = Ok (l', e', v') -> e_state e' = e_state e.
Proof. exact (cascade_apply_state fuel debug css order time sizes vars node t p layout e (l', e', v')). Qed.

(** ** Styling leaves a trace *)
Section trace.
  Context (fuel : nat) (debug : bool) (css : Css) (order : ComputedStyle -> list (Descriptor * ComputedValue)) (time : f32).
  Notation cascade := (cascade_apply_styles fuel debug css order time).
  Notation styles := (apply_styles fuel debug css order time).

  Inductive styled (t t' : Tree) : NodeId -> Sizes -> Variables -> Prop :=
  | styled_text n p pe e spans sizes vars :
      parent_of t n = Some p -> get_ctx t' p = Some pe -> get_ctx t n = Some e -> e_text e = Some spans ->
      get_ctx t' n = Some (inherit pe e) -> styled t t' n sizes vars
  | styled_elem n p pe x e layout' e' vars' x' sizes vars :
      parent_of t n = Some p -> get_ctx t' p = Some pe -> t_nodes t !! n = Some x -> n_ctx x = Some e -> e_text e = None ->
      cascade sizes vars n t pe (n_style x) e = Ok (layout', e', vars') ->
      t_nodes t' !! n = Some x' -> n_ctx x' = Some e' -> n_style x' = layout' ->
      (String.eqb (e_tag e) "img" || is_void (e_tag e) = false -> forall c, c ∈ attached t n ->
         styled t t' c (sizes <| parent_font_size := f_size (e_font e') |> <| parent_color := e_color e' |>) vars') ->
      styled t t' n sizes vars.

  Lemma styled_move t t' s s' n sizes vars : live t 0 -> alike t s ->
    (forall m, at_or_above t n m -> t_nodes s !! m = t_nodes t !! m) ->
    (forall m, at_or_above t n m -> t_nodes s' !! m = t_nodes t' !! m) ->
    (forall p, parent_of t n = Some p -> get_ctx s' p = get_ctx t' p) ->
    styled t t' n sizes vars -> styled s s' n sizes vars.
  Proof.
    intros Hl Ha H1 H2 H3 H. induction H as [n p pe e spans sizes vars Hp Hpe He Ht He'|n p pe x e layout' e' vars' x' sizes vars Hp Hpe Hx He Ht Hc Hx' He' Hlay _ IH].
    - apply (styled_text _ _ n p pe e spans).
      + unfold parent_of. rewrite H1 by reflexivity. exact Hp.
      + rewrite H3 by done. exact Hpe.
      + unfold get_ctx. rewrite H1 by reflexivity. exact He.
      + done.
      + unfold get_ctx. rewrite H2 by reflexivity. exact He'.
    - apply (styled_elem _ _ n p pe x e layout' e' vars' x').
      + unfold parent_of. rewrite H1 by reflexivity. exact Hp.
      + rewrite H3 by exact Hp. exact Hpe.
      + rewrite H1 by reflexivity. exact Hx.
      + exact He.
      + exact Ht.
      + rewrite (cascade_alike _ _ _ _ _ _ _ _ _ _ _ _ _ Ha). exact Hc.
      + rewrite H2 by reflexivity. exact Hx'.
      + exact He'.
      + exact Hlay.
      + intros Hn c Hin. assert (Hin' : c ∈ attached t n). { unfold attached in *. rewrite H1 in Hin by reflexivity. exact Hin. }
        assert (Hpc : parent_of t c = Some n) by by apply (live_parent _ _ Hl).
        apply (IH Hn c Hin').
        * intros m Hm. apply H1. eapply rtc_l; [exact Hpc|exact Hm].
        * intros m Hm. apply H2. eapply rtc_l; [exact Hpc|exact Hm].
        * intros q Hq. assert (q = n) as -> by congruence. unfold get_ctx. by rewrite H2 by reflexivity.
  Qed.
  Lemma put_nodes_ne t n e m : n <> m -> t_nodes (put_element n e t) !! m = t_nodes t !! m.
  Proof. intros H. unfold put_element, set. cbn [t_nodes]. by rewrite lookup_alter_ne. Qed.
  Lemma put_nodes_eq t n e x : t_nodes t !! n = Some x -> t_nodes (put_element n e t) !! n = Some (x <| n_ctx := Some e |>).
  Proof. intros H. unfold put_element, set at 1. cbn [t_nodes]. by rewrite lookup_alter, H. Qed.
  Lemma set_style_nodes n l t t1 x : set_style n l t = Ok t1 -> t_nodes t !! n = Some x ->
    t_nodes t1 !! n = Some (x <| n_style := l |>) /\ forall m, n <> m -> t_nodes t1 !! m = t_nodes t !! m.
  Proof.
    unfold set_style, get_node. intros H Hx. rewrite Hx in H. cbn [unwrap bindR] in H. injection H as <-.
    split; [exact (lookup_insert (t_nodes t) n _)|]. intros m Hm. exact (lookup_insert_ne (t_nodes t) n m _ Hm).
  Qed.

  Lemma styles_trace depth : forall n sizes vars t t', live t 0 -> styles depth n sizes vars t = Ok t' ->
    styled t t' n sizes vars /\ (forall m, ~ at_or_above t n m -> t_nodes t' !! m = t_nodes t !! m) /\ alike t t'.
  Proof.
    induction depth as [|depth IH]; intros n sizes vars t t' Hl H; [done|].
    assert (Hal : alike t t'). { split; [by eapply apply_styles_same|by eapply apply_styles_ss]. }
    cbn [apply_styles] in H.
    apply bindR_Ok in H as (p & Hp & H). apply parent_spec in Hp. subst p.
    apply bindR_Ok in H as (pe & Hpe & H). apply ok_or_Ok in Hpe. destruct (parent_of t n) as [p|] eqn:Hp; [|done]. cbn in Hpe.
    apply bindR_Ok in H as (layout & Hlay & H). unfold style, get_node in Hlay. apply bindR_Ok in Hlay as (x & Hx & Hlay). apply unwrap_Ok in Hx. injection Hlay as <-.
    apply bindR_Ok in H as (e & He & H). apply get_element_ctx in He. assert (Hxe : n_ctx x = Some e). { unfold get_ctx in He. by rewrite Hx in He. }
    assert (Hpn : p < n). { apply (live_parent _ _ Hl) in Hp. by destruct (live_newer _ _ Hl p n ltac:(by left)). }
    destruct (e_text e) as [spans|] eqn:Et.
    { injection H as <-. split; [|split; [|done]].
      - eapply styled_text; [exact Hp| |exact He|exact Et|].
        + rewrite get_put_ne by lia. exact Hpe.
        + by apply get_put_same with e.
      - intros m Hm. apply put_nodes_ne. intros <-. apply Hm. reflexivity. }
    apply bindR_Ok in H as ([[layout' e'] vars'] & Hc & H). apply bindR_Ok in H as (t1 & Hs & H).
    destruct (set_style_nodes _ _ _ _ _ Hs (put_nodes_eq _ _ _ _ Hx)) as [Hn1 Ho1].
    assert (Ho : forall m, n <> m -> t_nodes t1 !! m = t_nodes t !! m). { intros m Hm. by rewrite Ho1, put_nodes_ne. } clear Ho1.
    assert (Htag : e_tag e' = e_tag e). { pose proof (cascade_apply_content _ _ _ _ _ _ _ _ _ _ _ _ _ Hc) as Hcc. cbn [fst snd] in Hcc. unfold content in Hcc. by injection Hcc. }
    rewrite Htag in H.
    assert (Hal1 : alike t t1).
    { split.
      - eapply same_trans; [eapply put_element_same; [exact He|exact (cascade_apply_content _ _ _ _ _ _ _ _ _ _ _ _ _ Hc)]|by eapply set_style_same].
      - eapply ss_trans; [eapply ss_put; [exact He|by eapply cascade_state]|by eapply set_style_ss]. }
    destruct (_ || _) eqn:Ev.
    { injection H as <-. split; [|split; [|done]].
      - eapply styled_elem; [exact Hp| |exact Hx|exact Hxe|exact Et|exact Hc|exact Hn1|done|done|].
        + unfold get_ctx. rewrite Ho by lia. exact Hpe.
        + congruence.
      - intros m Hm. apply Ho. intros <-. apply Hm. reflexivity. }
    apply bindR_Ok in H as (cs & Hcs & H). apply children_spec in Hcs. rewrite (shown_attached _ _ _ (content_shown _ _ (proj1 Hal1))) in Hcs. subst cs.
    set (sizes' := sizes <| parent_font_size := f_size (e_font e') |> <| parent_color := e_color e' |>) in *.
    pose proof (shown_live _ _ _ (content_shown _ _ (proj1 Hal1)) Hl) as Hl1.
    assert (Hab : forall u, alike t u -> forall a b, at_or_above u a b <-> at_or_above t a b).
    { intros u [Hu _] a b. split; [by apply above_content|]. apply above_content. by apply same_sym. }
    (* the fold *)
    assert (Hfold : forall cs a, cs ⊆ attached t n -> NoDup cs -> alike t a -> foldR (fun t c => styles depth c sizes' vars' t) a cs = Ok t' ->
      (forall c m, c ∈ cs -> at_or_above t c m -> t_nodes a !! m = t_nodes t !! m) -> 
      (forall c, c ∈ cs -> styled a t' c sizes' vars') /\
      (forall m, (forall c, c ∈ cs -> ~ at_or_above t c m) -> t_nodes t' !! m = t_nodes a !! m)).
    { clear H Hn1 Ho Hal1 Hl1 Hs t1. induction cs as [|c cs IHc]; intros a Hin Hnd Ha H Hb; cbn [foldR] in H.
      - injection H as <-. split; [intros c Hc'; by apply elem_of_nil in Hc'|done].
      - apply bindR_Ok in H as (b & Hb1 & H). apply list.NoDup_cons in Hnd as [Hnc Hnd].
        pose proof (shown_live _ _ _ (content_shown _ _ (proj1 Ha)) Hl) as Hla.
        destruct (IH _ _ _ _ _ Hla Hb1) as (IH1 & IH2 & IH3). assert (Hab' : alike t b) by (eapply alike_trans; eassumption).
        assert (Hdis : forall d m, d ∈ cs -> at_or_above t c m -> at_or_above t d m -> False).
        { intros d m Hd Hcm Hdm. apply Hnc. replace c with d; [done|]. eapply (above_disjoint _ _ n); [exact Hl|apply Hin; by apply elem_of_list_further|apply Hin; apply elem_of_list_here|exact Hdm|exact Hcm]. }
        assert (Hcp : forall d, d ∈ c :: cs -> parent_of t d = Some n). { intros d Hd. apply (live_parent _ _ Hl). by apply Hin. }
        assert (Hnn : forall d, d ∈ c :: cs -> ~ at_or_above t d n).
        { intros d Hd Hx'. apply (above_le _ _ _ _ Hl) in Hx'. apply Hcp in Hd. apply (live_parent _ _ Hl) in Hd. destruct (live_newer _ _ Hl n d ltac:(by left)). lia. }
        destruct (IHc b) as [C1 C2]; [by intros d Hd; apply Hin, elem_of_list_further|done|done|exact H| |].
        { intros d m Hd Hm. rewrite IH2; [apply (Hb d m); [by apply elem_of_list_further|done]|]. rewrite (Hab _ Ha). intros Hcm. by apply (Hdis d m). }
        split.
        + intros d Hd. apply elem_of_cons in Hd as [->|Hd].
          * eapply styled_move; [exact Hla|apply alike_refl|done| | |exact IH1].
            -- intros m Hm. rewrite (Hab _ Ha) in Hm. apply C2. intros d Hd Hdm. by apply (Hdis d m).
            -- intros q Hq. rewrite (shown_parent _ _ _ (content_shown _ _ (proj1 Ha))) in Hq. rewrite Hcp in Hq by apply elem_of_list_here. injection Hq as <-.
               unfold get_ctx. rewrite C2; [done|]. intros d Hd. apply Hnn. by apply elem_of_list_further.
          * eapply styled_move; [exact (shown_live _ _ _ (content_shown _ _ (proj1 Hab')) Hl)|apply alike_sym; exact IH3| |done|done|exact (C1 d Hd)].
            intros m Hm. rewrite (Hab _ Hab') in Hm. symmetry. apply IH2. rewrite (Hab _ Ha). intros Hcm. by apply (Hdis d m).
        + intros m Hm. rewrite C2 by (intros d Hd; apply Hm; by apply elem_of_list_further). apply IH2. rewrite (Hab _ Ha). apply Hm, elem_of_list_here. }
    destruct (Hfold (attached t n) t1) as [F1 F2]; [done|exact (proj1 (live_once _ _ Hl n))|exact Hal1|exact H| |].
    { intros c m Hc' Hm. apply Ho. intros <-. apply (above_le _ _ _ _ Hl) in Hm. destruct (live_newer _ _ Hl n c ltac:(by left)). lia. }
    assert (Hself : forall c m, m <= n -> c ∈ attached t n -> ~ at_or_above t c m).
    { intros c m Hmn Hc' Hm. apply (above_le _ _ _ _ Hl) in Hm. destruct (live_newer _ _ Hl n c ltac:(by left)). lia. }
    assert (Hnt : t_nodes t' !! n = t_nodes t1 !! n). { apply F2. intros c Hc'. by apply Hself. }
    split; [|split; [|done]].
    - eapply styled_elem; [exact Hp| |exact Hx|exact Hxe|exact Et|exact Hc|rewrite Hnt; exact Hn1|done|done|].
      + unfold get_ctx. rewrite F2 by (intros c Hc'; apply Hself; [lia|done]). rewrite Ho by lia. exact Hpe.
      + intros _ c Hc'. eapply styled_move; [exact Hl1|apply alike_sym; exact Hal1| |done|done|exact (F1 c Hc')].
        intros m Hm. rewrite (Hab _ Hal1) in Hm. symmetry. apply Ho. intros <-. exact (Hself c n ltac:(done) Hc' Hm).
    - intros m Hm. rewrite F2.
      + apply Ho. intros <-. apply Hm. reflexivity.
      + intros c Hc' Hcm. apply Hm. eapply rtc_l; [|exact Hcm]. by apply (live_parent _ _ Hl).
  Qed.
End trace.
