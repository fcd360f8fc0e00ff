(** * The size of the root. *)
From Coq Require Import ZArith Lia.
From stdpp Require Import gmap.
From RecordUpdate Require Import RecordUpdate.
From Verif Require Import Str StrFacts F32 Res ResFacts Json PropKey Html Css Element Tree ViewModel Render Update Matching
  Cascade Initial Animation Apply Styling Events View
  SpecLive SpecLog SpecView SpecRender SpecTree SpecEvents FrameFacts EventFacts EventFrame
  RenderTree RenderNode RenderProps RenderAny RenderMore LiveFacts LiveUpdate LiveView LiveHistory LiveOrder
  SpecSelect SelectFacts SelectLive SelectFresh SpecStyle SpecShow SpecPage ApplyFacts ShowFacts CascadeFacts AnimationFacts StyleTrace StyleView StylePage StyleRest StyleMore SpecViewport.

Definition root_style (t : Tree) : option TStyle := n_style <$> t_nodes t !! 0.

Lemma drawn_root t t' : drawn <$> t_nodes t' !! 0 = drawn <$> t_nodes t !! 0 -> root_style t' = root_style t.
Proof.
  unfold root_style. destruct (t_nodes t' !! 0), (t_nodes t !! 0); cbn; try done. unfold drawn. intros H. apply (inj Some) in H. by injection H as ->.
Qed.
Lemma put_element_root n e t : root_style (put_element n e t) = root_style t.
Proof.
  unfold root_style. destruct (decide (n = 0)) as [->|Hne]; [|by rewrite put_nodes_ne].
  destruct (t_nodes t !! 0) as [x|] eqn:Hx; [by rewrite (put_nodes_eq _ _ _ _ Hx)|].
  unfold put_element, set. cbn [t_nodes]. change (n_style <$> (alter (fun x => mkNode (n_parent x) (n_children x) (n_style x) (Some e) (n_layout x)) 0 (t_nodes t) : gmap nat Node) !! 0 = n_style <$> (None : option Node)).
  rewrite lookup_alter. by rewrite (Hx : (t_nodes t : gmap nat Node) !! 0 = None).
Qed.
Lemma positions_root depth : forall node loc op cl t t', compute_final_positions depth node loc op cl t = Ok t' -> root_style t' = root_style t.
Proof.
  induction depth as [|depth IH]; intros node loc op cl t t' H; cbn [compute_final_positions] in H; [done|].
  apply bindR_Ok in H as (layout & Hl & H). apply bindR_Ok in H as (e & He & H).
  match type of H with (let '(_, _) := ?p in _) = _ => destruct p as [cl' loc'] end.
  apply bindR_Ok in H as (cs & Hcs & H). clear Hcs.
  match type of H with foldR _ (put_element ?a ?b ?c) _ = _ => rewrite <- (put_element_root a b c); revert H; generalize (put_element a b c) end.
  clear Hl He. induction cs as [|c cs IHc]; intros u H; cbn [foldR] in H; [by injection H as <-|].
  apply bindR_Ok in H as (u1 & H1 & H). rewrite (IHc u1 H). by eapply IH.
Qed.
Lemma sbs_root t t' : same_but_state t t' -> root_style t' = root_style t.
Proof.
  intros H. unfold root_style. destruct (t_nodes t !! 0) as [x|] eqn:Hx.
  - destruct (sbs_node _ _ _ _ H Hx) as (x' & -> & _ & _ & E & _). cbn. by rewrite E.
  - destruct (t_nodes t' !! 0) as [x'|] eqn:Hx'; [|done]. apply sbs_sym in H. destruct (sbs_node _ _ _ _ H Hx') as (y & Hy & _). congruence.
Qed.
(** one update *)
Lemma update_root X fuel v i x v' o : sound v -> v_root v = 0 -> v_body v = 1 -> update X fuel v i x = Ok (v', o) ->
  exists l, root_style (v_tree v) = Some l /\ root_style (v_tree v') = Some
    (if negb (dim_eqb (sz_width (ts_size l)) (fst (in_viewport i))) && negb (dim_eqb (sz_height (ts_size l)) (snd (in_viewport i)))
     then l <| ts_size := mkSize (DimLength (fst (in_viewport i))) (DimLength (snd (in_viewport i))) |> else l).
Proof.
  intros Hs Hr Hb Hu. unfold update in Hu. apply bindR_Ok in Hu as ([[m t] ids] & Hpr & Hu). apply bindR_Ok in Hu as ([[s t'] o'] & Ho' & Hu). injection Hu as <- <-.
  apply handle_output_sbs in Ho'. cbn [fst snd] in Ho'. unfold set. cbn [v_tree]. rewrite (sbs_root _ _ Ho'). clear Ho'.
  unfold prepare in Hpr. apply bindR_Ok in Hpr as ([m0 rs] & Hvb & Hpr). apply bindR_Ok in Hpr as ([ta ids0] & Hup & Hpr).
  apply bindR_Ok in Hpr as (t1 & H1 & Hpr). apply bindR_Ok in Hpr as (t2 & H2 & Hpr). apply bindR_Ok in Hpr as (t3 & H3 & Hpr). injection Hpr as <- <- <-.
  pose proof (so_live _ Hs) as Hl. rewrite Hr in *. rewrite Hb in *.
  pose proof (view_bind_reactions_ok _ _ _ _ _ Hs Hvb) as Hok. destruct (update_trees_ok (x_read_inline_css X) rs (v_tree v) (v_ids v) 0 Hl Hok) as (ta' & ids' & Hup' & Hla & _). rewrite Hup in Hup'. injection Hup' as <- <-.
  assert (Hl1 : live t1 0) by exact (shown_live _ _ _ (content_shown _ _ (set_viewport_same _ _ _ _ H1)) Hla).
  destruct (styles_trace _ _ _ _ _ _ _ _ _ _ _ Hl1 H2) as (_ & Ho & _).
  rewrite (positions_root _ _ _ _ _ _ _ H3). assert (E : root_style (run_layout X t2) = root_style t1).
  { unfold root_style, run_layout, set. cbn [t_nodes]. rewrite map_lookup_imap. rewrite (Ho 0); [by destruct (t_nodes t1 !! 0)|].
    intros Hx. apply (above_le _ _ _ _ Hl1) in Hx. lia. }
  rewrite E. rewrite <- (drawn_root (v_tree v) ta (update_trees_drawn _ _ _ _ _ _ Hup 0)).
  unfold set_viewport in H1. apply bindR_Ok in H1 as (l & Hlay & H1). unfold style, get_node in Hlay. apply bindR_Ok in Hlay as (y & Hy & Hlay). apply unwrap_Ok in Hy. injection Hlay as <-.
  exists (n_style y). split; [unfold root_style; by rewrite Hy|]. destruct (_ && _).
  - destruct (set_style_nodes _ _ _ _ _ H1 Hy) as [Hi _]. unfold root_style. by rewrite Hi.
  - injection H1 as <-. unfold root_style. by rewrite Hy.
Qed.
Lemma loaded_root X fuel doc css v0 : from_document X fuel doc css = Ok v0 -> root_style (v_tree v0) = Some default_layout /\ v_root v0 = 0.
Proof.
  intros H0. split; [|exact (so_root _ (from_document_sound _ _ _ _ _ H0))].
  pose proof H0 as H'. apply from_document_stages in H' as (templates & body & r & root & b & t & rn & ps & Hsc & Hr & _ & Hre & _).
  unfold from_document in H0. rewrite Hsc, Hr in H0. cbn [bindR] in H0.
  apply bindR_Ok in H0 as (d & _ & H). apply bindR_Ok in H as (t1 & H1 & H). apply bindR_Ok in H as ([t2 ids] & H2 & H). injection H as <-. cbn [v_tree].
  apply stylesheet_drawn in H1. unfold apply_default_bindings_state in H2. apply update_trees_drawn in H2.
  rewrite (drawn_root _ _ (H2 0)), (drawn_root _ _ (H1 0)). unfold root_style. rewrite (re_root _ _ _ Hre). reflexivity.
Qed.

Definition sized_style (b : page_box) (l : TStyle) : Prop :=
  ts_size l = match b with Unsized => mkSize DimAuto DimAuto | Sized s => mkSize (DimLength (fst s)) (DimLength (snd s)) end.
Lemma differ_dec b vp l : sized_style b l ->
  (negb (dim_eqb (sz_width (ts_size l)) (fst vp)) && negb (dim_eqb (sz_height (ts_size l)) (snd vp)) = true <-> both_differ b vp).
Proof.
  intros H. rewrite H. destruct b as [|s]; cbn; [done|]. rewrite andb_true_iff, !negb_true_iff. done.
Qed.
Lemma root_history X fuel doc css v0 hist v os : from_document X fuel doc css = Ok v0 -> updates X fuel v0 hist = Ok (v, os) ->
  exists b, box_after (map (fun e => in_viewport (fst e)) hist) b /\ root_has v b.
Proof.
  intros H0 H. destruct (kept_loaded _ _ _ _ _ H0) as (_ & _ & _ & _ & _ & _ & _ & Hb). pose proof (from_document_sound _ _ _ _ _ H0) as Hs.
  destruct (loaded_root _ _ _ _ _ H0) as [Hl Hr].
  assert (Hall : exists b l, box_after (map (fun e => in_viewport (fst e)) hist) b /\ root_style (v_tree v) = Some l /\ sized_style b l /\ v_root v = 0).
  { assert (Hgen : forall hist pre b0 l0 v0 os, box_after pre b0 -> root_style (v_tree v0) = Some l0 -> sized_style b0 l0 -> v_root v0 = 0 -> v_body v0 = 1 -> sound v0 ->
      updates X fuel v0 hist = Ok (v, os) -> exists b l, box_after (pre ++ map (fun e => in_viewport (fst e)) hist) b /\ root_style (v_tree v) = Some l /\ sized_style b l /\ v_root v = 0).
    { clear. induction hist as [|[i x] hist IH]; intros pre b0 l0 v0 os Hb0 Hl0 Hsz Hr Hb Hs H; cbn [updates] in H.
      { injection H as <- <-. exists b0, l0. cbn [map]. by rewrite app_nil_r. }
      apply bindR_Ok in H as ([v1 o] & Hu & H). apply bindR_Ok in H as ([v2 os'] & H' & [= <- <-]).
      destruct (update_root _ _ _ _ _ _ _ Hs Hr Hb Hu) as (l & E & E1). rewrite Hl0 in E. injection E as <-.
      pose proof (differ_dec b0 (in_viewport i) l0 Hsz) as Hd. cbn [map fst]. rewrite (app_assoc pre [in_viewport i] _ : pre ++ (in_viewport i :: map (fun e : Input * json => in_viewport (fst e)) hist) = _).
      destruct (update_keeps _ _ _ _ _ _ _ Hs Hu) as (_ & _ & _ & K4 & K5).
      assert (Hs1 : sound v1) by (by eapply update_sound).
      destruct (negb _ && negb _).
      - eapply IH; [eapply box_new; [exact Hb0|by apply Hd]|exact E1|done|exact (so_root _ Hs1)|congruence|exact Hs1|exact H'].
      - eapply IH; [eapply box_kept; [exact Hb0|]|exact E1|exact Hsz|exact (so_root _ Hs1)|congruence|exact Hs1|exact H']. intros Hx. apply Hd in Hx. discriminate Hx. }
    apply (Hgen hist [] Unsized default_layout v0 os); [constructor|done|done|done|done|done|done]. }
  destruct Hall as (b & l & Hb' & Hl' & Hsz & Hr'). exists b. split; [done|]. unfold root_style in Hl'. unfold root_has. rewrite Hr'.
  destruct (t_nodes (v_tree v) !! 0) as [x|]; [|done]. exists x. split; [done|]. apply (inj Some) in Hl'. cbn in Hl'. by rewrite Hl'.
Qed.
Lemma box_unique l : forall b b', box_after l b -> box_after l b' -> b = b'.
Proof.
  induction l as [|vp l IH] using rev_ind; intros b b' H H'.
  - assert (Hn : forall b, box_after [] b -> b = Unsized).
    { intros c Hc. remember [] as z eqn:E. destruct Hc; [done| |]; by destruct l. }
    by rewrite (Hn b H), (Hn b' H').
  - assert (Hs : forall b, box_after (l ++ [vp]) b -> exists b0, box_after l b0 /\ (both_differ b0 vp /\ b = Sized vp \/ ~ both_differ b0 vp /\ b = b0)).
    { intros c Hc. remember (l ++ [vp]) as z eqn:E. destruct Hc as [|l1 b1 vp1 Hc Hd|l1 b1 vp1 Hc Hd]; [by destruct l| |];
        apply app_inj_tail in E as [-> ->]; exists b1; tauto. }
    destruct (Hs b H) as (b0 & H0 & A), (Hs b' H') as (b1 & H1 & B). rewrite (IH b1 b0 H1 H0) in B. destruct A as [[A1 ->]|[A1 ->]], B as [[B1 ->]|[B1 ->]]; tauto.
Qed.
Lemma root_step X fuel doc css v0 hist v os i x v' o : from_document X fuel doc css = Ok v0 -> updates X fuel v0 hist = Ok (v, os) -> update X fuel v i x = Ok (v', o) ->
  forall b, root_has v b -> (both_differ b (in_viewport i) -> root_has v' (Sized (in_viewport i))) /\ (~ both_differ b (in_viewport i) -> root_has v' b).
Proof.
  intros H0 H Hu b (y & Hy & Hb). pose proof (reached_sound _ _ _ _ _ _ _ _ H0 H) as Hs. destruct (kept_history _ _ _ _ _ _ _ _ H0 H) as (_ & _ & _ & _ & _ & _ & _ & Hbody & _).
  pose proof (so_root _ Hs) as Hr. destruct (update_root _ _ _ _ _ _ _ Hs Hr Hbody Hu) as (l & E & E1).
  assert (Hl : l = n_style y). { unfold root_style in E. rewrite <- Hr, Hy in E. cbn in E. congruence. } subst l.
  pose proof (differ_dec b (in_viewport i) (n_style y) Hb) as Hd.
  assert (Hr' : v_root v' = 0). { apply so_root. by eapply update_sound. }
  unfold root_has. rewrite Hr'. unfold root_style in E1. destruct (t_nodes (v_tree v') !! 0) as [z|]; [|done]. apply (inj Some) in E1. destruct (negb _ && negb _).
  - split; [|intros Hn; exfalso; apply Hn, Hd; done]. intros _. exists z. split; [done|]. by rewrite E1.
  - split; [intros Hx; apply Hd in Hx; discriminate Hx|]. intros _. exists z. split; [done|]. by rewrite E1.
Qed.
