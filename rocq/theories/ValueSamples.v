(** * Sample pages for C56-C59: <div><p></p></div> with one rule for each. *)
From Coq Require Import ZArith Reals Lia Lra.
From Flocq Require Import Core.Core IEEE754.BinarySingleNaN.
From stdpp Require Import gmap.
From RecordUpdate Require Import RecordUpdate.
From Verif Require Import Str F32 Res Json PropKey Html Css Element Tree ViewModel Render Update Matching
  Cascade Initial Animation Apply Styling Events View SpecLive SpecView SpecTree SpecSelect SpecStyle SpecShow SpecPage SpecValues
  ResFacts EventFrame LiveView SelectFacts SelectLive StyleView StyleRest Samples PropSelect StyleSamples FloatFacts.
Close Scope R_scope.

Definition two_page : Html := document [elem "div" [] [elem "p" [] []]].
Definition two_css (D P : list Declaration) : Css := mkCss [rule [[SType "div"]] D; rule [[SType "p"]] P] ∅.
Definition two_tree (t : Tree) : Prop :=
  parent_of t 3 = Some 2 /\ parent_of t 2 = Some 1 /\ parent_of t 1 = Some 0 /\ parent_of t 0 = None /\
  e_tag <$> get_ctx t 3 = Some "p" /\ e_tag <$> get_ctx t 2 = Some "div" /\ e_tag <$> get_ctx t 1 = Some "body" /\
  e_text <$> get_ctx t 3 = Some None /\ e_text <$> get_ctx t 2 = Some None /\ e_text <$> get_ctx t 1 = Some None /\
  e_style <$> get_ctx t 3 = Some [] /\ e_style <$> get_ctx t 2 = Some [] /\ e_style <$> get_ctx t 1 = Some [].
Lemma two_types D P s : s ∈ css_styles (two_css D P) -> exists name, s_selectors s = [[SType name]].
Proof. unfold two_css. cbn [css_styles]. intros H. rewrite !elem_of_cons in H. destruct H as [->|[->|H]]; [by eexists..|by apply elem_of_nil in H]. Qed.
Lemma two_styled t : live t 0 -> two_tree t -> styled_element t 1 3.
Proof.
  intros Hl (P3 & P2 & P1 & P0 & T3 & T2 & T1 & X3 & X2 & X1 & _). split; [|split].
  - eapply rtc_l; [exact P2|]. eapply rtc_l; [exact P3|]. reflexivity.
  - apply fmap_at in X3 as (e & He & Ex). by exists e.
  - intros m Hm Ha. apply (above_lt t m 3 Hl) in Ha. apply (above_le t 0 1 m Hl) in Hm. destruct (decide (m = 2)) as [->|].
    + eapply not_contentless; [exact T2|exact X2|reflexivity].
    + assert (m = 1) as -> by lia. eapply not_contentless; [exact T1|exact X1|reflexivity].
Qed.
Lemma two_declared D P t : two_tree t ->
  declarations (two_css D P) t 0 3 (P ++ []) /\ declarations (two_css D P) t 0 2 (D ++ []) /\ declarations (two_css D P) t 0 1 [].
Proof.
  intros (P3 & P2 & P1 & P0 & T3 & T2 & T1 & X3 & X2 & X1 & S3 & S2 & S1). split; [|split].
  - apply fmap_at in S3 as (e & He & Es). exists (P ++ []), e. split.
    { apply declared_no; [by rewrite (type_applies _ _ _ _ _ _ T3)|]. apply (declared_yes t 0 3 (rule [[SType "p"]] P)); [by rewrite (type_applies _ _ _ _ _ _ T3)|constructor]. }
    split; [exact He|by rewrite Es, !app_nil_r].
  - apply fmap_at in S2 as (e & He & Es). exists (D ++ []), e. split.
    { apply (declared_yes t 0 2 (rule [[SType "div"]] D)); [by rewrite (type_applies _ _ _ _ _ _ T2)|]. apply declared_no; [by rewrite (type_applies _ _ _ _ _ _ T2)|constructor]. }
    split; [exact He|by rewrite Es, !app_nil_r].
  - apply fmap_at in S1 as (e & He & Es). exists [], e. split.
    { apply declared_no; [by rewrite (type_applies _ _ _ _ _ _ T1)|]. apply declared_no; [by rewrite (type_applies _ _ _ _ _ _ T1)|constructor]. }
    split; [exact He|by rewrite Es].
Qed.
Definition calm (ds : list Declaration) : Prop := Forall tidy_declaration ds /\ Forall quiet_declaration ds.
Lemma two_meets D P Q : calm D -> calm P ->
  succeeds (begin world two_page (two_css D P) (frame []) (JObj [])) (fun r => two_tree (snd (fst (snd r))) /\ Q (snd (fst (snd r)))) ->
  exists v t, page world two_page (two_css D P) (frame []) v t /\ plain_element (two_css D P) v t 3 /\ in_effect (two_css D P) v t 3 (variables_after ∅ D) P /\
    v_body v = 1 /\ v_root v = 0 /\ two_tree t /\ Q t.
Proof.
  intros [D1 D2] [P1 P2] ([v [[m t] ids]] & H & Ht & HQ). cbn [fst snd] in Ht, HQ. unfold begin in H. apply bindR_Ok in H as (v' & H0 & H). apply bindR_Ok in H as (r & Hp & H). injection H as -> ->.
  assert (Htc : tidy_css (two_css D P)).
  { split.
    + intros s Hs. unfold two_css in Hs. cbn [css_styles] in Hs. rewrite !elem_of_cons in Hs. destruct Hs as [->|[->|Hs]]; [exact D1|exact P1|by apply elem_of_nil in Hs].
    + intros name an kf Hx. exfalso. assert (E : Some an = None) by (etransitivity; [symmetry; exact Hx|exact (lookup_empty name)]). discriminate E. }
  assert (Hqc : quiet_css (two_css D P)).
  { intros s Hs. unfold two_css in Hs. cbn [css_styles] in Hs. rewrite !elem_of_cons in Hs. destruct Hs as [->|[->|Hs]]; [exact D2|exact P2|by apply elem_of_nil in Hs]. }
  assert (Hr0 : forall P s ds, x_read_inline_css world s = Some ds -> Forall P ds) by (intros Pr s ds Hx; cbn in Hx; first [discriminate Hx|injection Hx as <-; constructor]).
  assert (Hr1 : tidy_inline t) by exact (prepared_inline _ _ _ _ _ _ _ _ _ Hp (along_read world 20 _ _ v [] v [] _ _ H0 eq_refl (Hr0 _))).
  assert (Hr2 : inline_along quiet_declaration world v []) by exact (along_read world 20 _ _ v [] v [] _ _ H0 eq_refl (Hr0 _)).
  pose proof (from_document_sound _ _ _ _ _ H0) as Hs. destruct (kept_loaded _ _ _ _ _ H0) as (rn & t0 & _ & _ & _ & _ & _ & Hb).
  pose proof (proj1 (prepare_live _ _ _ _ _ _ _ _ Hs Hp)) as Hl. pose proof (so_root _ Hs) as Hr.
  assert (Hu : updates world 20 v [] = Ok (v, [])) by reflexivity.
  exists v, t. split; [|split; [|split; [|split; [exact Hb|split; [exact Hr|split; [exact Ht|exact HQ]]]]]].
  - exists 20, v, [], [], (JObj []), m, ids. split; [exact H0|]. split; [exact Hu|]. split; [exact Hp|]. split; [exact Htc|]. split; [exact Hr1|]. intros s. exact (Permutation_refl _).
  - unfold plain_element. rewrite Hb. split; [exact (two_styled t Hl Ht)|].
    split; [exact (quiet_rest _ _ _ _ _ [] v [] Hqc Hr2 (fun s => Permutation_refl _) H0 Hu 3)|]. split; [exact (type_plain _ _ _ (two_types D P))|].
    intros a s _ _ Hss. destruct (two_types _ _ s Hss) as [name Hn]. exact (type_settled _ _ _ _ _ Hn).
  - unfold in_effect. rewrite Hb, Hr. destruct (two_declared D P t Ht) as (E3 & E2 & E1). rewrite app_nil_r in E3, E2. split; [exact E3|].
    destruct Ht as (Q3 & Q2 & _). eapply (scope_child _ _ _ _ 3 2 ∅); [discriminate|exact Q3| |exact E2].
    apply (scope_child _ _ _ _ 2 1 ∅ []); [discriminate|exact Q2|constructor|exact E1].
Qed.
Lemma modest_int z : (Z.abs z <= 2 ^ 24)%Z -> modest (f32_of_Z z).
Proof.
  intros H. destruct (f32_int z H) as [H1 H2]. split; [exact H1|]. rewrite H2, <- abs_IZR. apply IZR_le. lia.
Qed.
