(** * Properties C87 and C88: contents and styling.

    Vocabulary: SpecApart.v ([same_language], [says], [same_contents], [like_ruled],
    [side_by_side], [stateless], [with_further_rules]). *)
From Coq Require Import ZArith Lia.
From stdpp Require Import gmap.
From Verif Require Import Str F32 Res ResFacts Json PropKey Html Css Element Tree ViewModel Render Update Matching Cascade Initial Animation Apply Styling Events View Samples
  SpecLive SpecView SpecTree SpecSelect SpecStyle SpecShow SpecPage SpecMove SpecSame SpecCss SpecValues SpecApart StyleView StyleRest SelectLive EventFrame LiveView LiveHistory MoveFacts MoveSamples StyleSamples ValueSamples
  PropSelect PropMove PropStyle PropSame SameFacts SpecIdle ApartFacts ApartPage.
Close Scope R_scope.

(** C87.  What a page contains does not depend on its style sheet: two views of one
    document with different style sheets, given the same data update for update
    (whatever the events, times and viewports are, and whatever the layout is),
    have the same elements in the same places, with the same tags, texts,
    attributes, listeners, inline styles and ids. *)
Theorem C87_contents_apart X X' fuel fuel' doc css css' v0 v0' hist hist' v v' os os' : same_language X X' ->
  from_document X fuel doc css = Ok v0 -> from_document X' fuel' doc css' = Ok v0' ->
  updates X fuel v0 hist = Ok (v, os) -> updates X' fuel' v0' hist' = Ok (v', os') -> map snd hist' = map snd hist ->
  same_contents (v_tree v) (v_tree v') /\ v_root v' = v_root v /\ v_body v' = v_body v /\
  forall id, says <$> get_element_by_id v' id = says <$> get_element_by_id v id.
Proof.
  intros HX H0 H0' H H' Hd. pose proof (updates_twin _ _ _ _ HX _ _ _ _ _ _ _ _ (load_twin _ _ _ _ _ _ _ _ _ HX H0 H0') Hd H H') as T.
  pose proof (bare_contents _ _ (tw_tree _ _ T)) as C. split; [exact C|]. split; [exact (tw_root _ _ T)|]. split; [exact (tw_body _ _ T)|].
  intros id. unfold get_element_by_id. rewrite (tw_ids _ _ T). destruct (v_ids v !! id) as [n|]; [|reflexivity].
  specialize (C n). unfold get_ctx. cbn [mbind option_bind].
  destruct (t_nodes (v_tree v') !! n) as [x|] eqn:Ex, (t_nodes (v_tree v) !! n) as [y|] eqn:Ey; try discriminate C; cbn [fmap option_fmap option_map mbind option_bind] in *.
  - apply (inj Some) in C. exact (f_equal snd C).
  - reflexivity.
Qed.
Print Assumptions C87_contents_apart.

(** C88.  Rules change only what they select: let two views of one document with
    different style sheets be updated side by side with the same data and viewports,
    and let the rules of both sheets that apply to some elements and to those above
    them say the same in each update in which they are on the page (where no animation or
    transition runs on them). Then these elements look the same: each property and
    each entry of a list, however different the rules for the rest of the page are. *)
Theorem C88_rules_are_local X X' fuel fuel' doc css css' (P : NodeId -> Prop) v v' i i' x w w' o o' m m' t t' ids ids' : same_language X X' -> tidy_css css -> tidy_css css' ->
  (forall s, x_order X s ≡ₚ map_to_list s) -> (forall s, x_order X' s ≡ₚ map_to_list s) ->
  side_by_side X X' fuel fuel' doc css css' P v v' -> in_viewport i' = in_viewport i ->
  prepare X fuel v i x = Ok (m, t, ids) -> update X fuel v i x = Ok (w, o) -> prepare X' fuel' v' i' x = Ok (m', t', ids') -> update X' fuel' v' i' x = Ok (w', o') ->
  (forall a, P a -> a <> v_root v /\ (a <> v_body v -> forall p, parent_of t a = Some p -> P p) /\
     (at_or_above t (v_body v) a -> fair css v t a /\ fair css' v' t' a /\ at_rest (v_tree v) a /\ at_rest (v_tree v') a /\ like_ruled css css' t t' (v_root v) a)) ->
  forall a, P a -> at_or_above t (v_body v) a -> forall k j, listed k = true \/ j = 0 -> shows_at (v_tree w') a k j = shows_at (v_tree w) a k j.
Proof.
  intros HX Hc Hc' Ho Ho' Hsd Hvp Hp Hu Hp' Hu' Hstep a Pa Ha k j Hkj.
  exact (sides_local X X' fuel fuel' doc css css' P HX Hc Hc' Ho Ho' v v' i i' x w w' o o' m m' t t' ids ids' Hsd Hvp Hp Hu Hp' Hu' Hstep a Pa k j Hkj (or_intror Ha)).
Qed.
Print Assumptions C88_rules_are_local.

(** In particular rules may be added, anywhere in the sheet, that apply to none of
    the elements and to nothing above them. (If the old rules do not ask for states:
    what is under the mouse can differ, as the new rules can move what they select.) *)
Theorem C88_further_rules X X' fuel fuel' doc css css' (P : NodeId -> Prop) v v' i i' x w w' o o' m m' t t' ids ids' : same_language X X' -> tidy_css css -> tidy_css css' ->
  (forall s, x_order X s ≡ₚ map_to_list s) -> (forall s, x_order X' s ≡ₚ map_to_list s) -> Forall stateless (css_styles css) ->
  with_further_rules X X' fuel fuel' doc css css' P v v' -> in_viewport i' = in_viewport i ->
  prepare X fuel v i x = Ok (m, t, ids) -> update X fuel v i x = Ok (w, o) -> prepare X' fuel' v' i' x = Ok (m', t', ids') -> update X' fuel' v' i' x = Ok (w', o') ->
  (forall a, P a -> a <> v_root v /\ (a <> v_body v -> forall p, parent_of t a = Some p -> P p) /\
     (at_or_above t (v_body v) a -> fair css v t a /\ fair css' v' t' a /\ at_rest (v_tree v) a /\ at_rest (v_tree v') a /\
        extended (fun r => ~ css_applies t' (v_root v) r a) (css_styles css) (css_styles css'))) ->
  forall a, P a -> at_or_above t (v_body v) a -> forall k j, listed k = true \/ j = 0 -> shows_at (v_tree w') a k j = shows_at (v_tree w) a k j.
Proof.
  intros HX Hc Hc' Ho Ho' Hst Hsd Hvp Hp Hu Hp' Hu' Hstep. pose proof (further_sides X X' fuel fuel' doc css css' P HX Hc Hc' Ho Ho' Hst v v' Hsd) as Hs.
  exact (C88_rules_are_local X X' fuel fuel' doc css css' P v v' i i' x w w' o o' m m' t t' ids ids' HX Hc Hc' Ho Ho' Hs Hvp Hp Hu Hp' Hu'
    (further_ruled X X' fuel fuel' doc css css' P HX Hc Hc' Ho Ho' Hst v v' i i' x m m' t t' ids ids' w w' o o' Hs Hp Hu Hp' Hu' Hstep)).
Qed.
Print Assumptions C88_further_rules.

(** The texts in these elements look the same, too. *)
Theorem C88_texts X X' fuel fuel' doc css css' (P : NodeId -> Prop) v v' i i' x w w' o o' m m' t t' ids ids' n e spans p k : same_language X X' -> tidy_css css -> tidy_css css' ->
  (forall s, x_order X s ≡ₚ map_to_list s) -> (forall s, x_order X' s ≡ₚ map_to_list s) ->
  side_by_side X X' fuel fuel' doc css css' P v v' -> in_viewport i' = in_viewport i ->
  prepare X fuel v i x = Ok (m, t, ids) -> update X fuel v i x = Ok (w, o) -> prepare X' fuel' v' i' x = Ok (m', t', ids') -> update X' fuel' v' i' x = Ok (w', o') ->
  (forall a, P a -> a <> v_root v /\ (a <> v_body v -> forall p, parent_of t a = Some p -> P p) /\
     (at_or_above t (v_body v) a -> fair css v t a /\ fair css' v' t' a /\ at_rest (v_tree v) a /\ at_rest (v_tree v') a /\ like_ruled css css' t t' (v_root v) a)) ->
  at_or_above t (v_body v) n -> get_ctx t n = Some e -> e_text e = Some spans -> parent_of t n = Some p -> P p -> at_or_above t (v_body v) p ->
  (forall a, at_or_above t (v_body v) a -> above t a n -> ~ contentless t a) -> inherits k = true ->
  shows_at (v_tree w') n k 0 = shows_at (v_tree w) n k 0.
Proof.
  intros HX Hc Hc' Ho Ho' Hsd Hvp Hp Hu Hp' Hu' Hstep.
  exact (sides_texts X X' fuel fuel' doc css css' P HX Hc Hc' Ho Ho' v v' i i' x w w' o o' m m' t t' ids ids' Hsd Hvp Hp Hu Hp' Hu' Hstep n e spans p k).
Qed.
Print Assumptions C88_texts.

(** The hypotheses are met: <p></p><ul></ul> with p {width: 10px}, and with a further
    rule ul {width: 30px} before it: the paragraph is 10 pixels wide in both, the list
    only in the second 30. *)
Definition two_page : Html := document [elem "p" [] []; elem "ul" [] []].
Definition ten : Style := rule [[SType "p"]] [give KWidth (px 10)].
Definition one_css : Css := mkCss [ten] ∅.
Definition two_css : Css := mkCss [rule [[SType "ul"]] [give KWidth (px 30)]; ten] ∅.
Definition sided (css : Css) : res (View * (View * Output) * (json * Tree * gmap string NodeId)) :=
  do! v0 <- from_document world 20 two_page css; do! r <- update world 20 v0 (frame []) none; do! p <- prepare world 20 v0 (frame []) none; Ok (v0, r, p).
Definition not_wide (z : Z) (x : option SpecShow.shown_value) : Prop := match x with Some (VDimension (DimLength f)) => feq f (f32_of_Z z) = false | _ => True end.
Lemma two_types css s : css = one_css \/ css = two_css -> s ∈ css_styles css -> exists name, s_selectors s = [[SType name]].
Proof.
  intros [->| ->] H; cbn [css_styles one_css two_css] in H.
  - apply elem_of_list_singleton in H as ->. by eexists.
  - apply elem_of_cons in H as [->|H]; [by eexists|]. apply elem_of_list_singleton in H as ->. by eexists.
Qed.
Lemma p_styled_body ds t : live t 0 -> p_tree ds t -> styled_element t 1 1.
Proof.
  intros Hl (P2 & P1 & P0 & T2 & T1 & X2 & X1 & _). split; [reflexivity|]. split.
  - apply fmap_at in X1 as (e & He & Ex). by exists e.
  - intros m Hm Ha. apply (above_lt t m 1 Hl) in Ha. apply (above_le t 0 1 m Hl) in Hm. lia.
Qed.
Lemma two_fair css v0 m t ids a : css = one_css \/ css = two_css -> from_document world 20 two_page css = Ok v0 -> prepare world 20 v0 (frame []) none = Ok (m, t, ids) -> p_tree [] t -> a = 1 \/ a = 2 -> fair css v0 t a /\ v_root v0 = 0 /\ v_body v0 = 1.
Proof.
  intros Hcss H0 Hp Ht Ha. assert (H : updates world 20 v0 [] = Ok (v0, [])) by reflexivity.
  destruct (kept_history _ _ _ _ _ _ _ _ H0 H) as (rn & t0 & _ & _ & _ & _ & _ & Hb & _ & Hs). split; [|split; [exact (so_root _ Hs)|exact Hb]].
  pose proof (proj1 (prepare_live _ _ _ _ _ _ _ _ Hs Hp)) as Hl.
  assert (Hr : forall (P : Declaration -> Prop) s ds, x_read_inline_css world s = Some ds -> Forall P ds) by (intros P s ds Hx; discriminate Hx).
  split; [|split; [|split]].
  - exact (prepared_inline _ _ _ _ _ _ _ _ _ Hp (along_read world 20 _ _ v0 [] v0 [] _ _ H0 H (Hr _))).
  - rewrite Hb. destruct Ha as [->| ->]; [exact (p_styled_body _ t Hl Ht)|exact (p_styled _ t Hl Ht)].
  - apply type_plain. intros s Hss. exact (two_types css s Hcss Hss).
  - intros b s _ _ Hss. destruct (two_types _ s Hcss Hss) as [name Hn]. exact (type_settled _ _ _ _ _ Hn).
Qed.
Lemma two_rules t t' a : p_tree [] t -> p_tree [] t' -> a = 1 \/ a = 2 -> like_ruled one_css two_css t t' 0 a.
Proof.
  intros (_ & _ & _ & T2 & T1 & _) (_ & _ & _ & T2' & T1' & _) [->| ->].
  - exists []. split.
    + apply declared_no; [unfold ten; rewrite (type_applies _ _ _ _ _ _ T1); discriminate|constructor].
    + apply declared_no; [rewrite (type_applies _ _ _ _ _ _ T1'); discriminate|]. apply declared_no; [unfold ten; rewrite (type_applies _ _ _ _ _ _ T1'); discriminate|constructor].
  - exists ([give KWidth (px 10)] ++ []). split.
    + apply (declared_yes t 0 2 ten); [unfold ten; rewrite (type_applies _ _ _ _ _ _ T2); reflexivity|constructor].
    + apply declared_no; [rewrite (type_applies _ _ _ _ _ _ T2'); discriminate|]. apply (declared_yes t' 0 2 ten); [unfold ten; rewrite (type_applies _ _ _ _ _ _ T2'); reflexivity|constructor].
Qed.
Lemma two_tidy css : css = one_css \/ css = two_css -> tidy_css css.
Proof.
  intros Hcss. split.
  - intros s Hs. assert (H : s = ten \/ s = rule [[SType "ul"]] [give KWidth (px 30)]).
    { destruct Hcss as [->| ->]; cbn [css_styles one_css two_css] in Hs; [left; by apply elem_of_list_singleton in Hs|]. apply elem_of_cons in Hs as [->|Hs]; [by right|left; by apply elem_of_list_singleton in Hs]. }
    destruct H as [->| ->]; tidy.
  - intros name an kf Hx. destruct Hcss as [->| ->]; cbn [css_animations one_css two_css] in Hx; rewrite lookup_empty in Hx; discriminate Hx.
Qed.
Lemma two_rest css v0 a : css = one_css \/ css = two_css -> from_document world 20 two_page css = Ok v0 -> at_rest (v_tree v0) a.
Proof.
  intros Hcss H0. assert (H : updates world 20 v0 [] = Ok (v0, [])) by reflexivity.
  assert (Hr : forall (P : Declaration -> Prop) s ds, x_read_inline_css world s = Some ds -> Forall P ds) by (intros P s ds Hx; discriminate Hx).
  refine (quiet_rest world 20 two_page css v0 [] v0 [] _ _ _ H0 H a).
  - intros s Hs. assert (K : s = ten \/ s = rule [[SType "ul"]] [give KWidth (px 30)]).
    { destruct Hcss as [->| ->]; cbn [css_styles one_css two_css] in Hs; [left; by apply elem_of_list_singleton in Hs|]. apply elem_of_cons in Hs as [->|Hs]; [by right|left; by apply elem_of_list_singleton in Hs]. }
    destruct K as [->| ->]; (apply List.Forall_cons; [reflexivity|apply List.Forall_nil]).
  - exact (along_read world 20 _ _ v0 [] v0 [] _ _ H0 H (Hr quiet_declaration)).
  - intros s. exact (Permutation_refl _).
Qed.
Example C88_meets : exists v v' w w' o o' m m' t t' ids ids', same_language world world /\ tidy_css one_css /\ tidy_css two_css /\ (forall s, x_order world s ≡ₚ map_to_list s) /\
  side_by_side world world 20 20 two_page one_css two_css (fun a => a = 1 \/ a = 2) v v' /\
  prepare world 20 v (frame []) none = Ok (m, t, ids) /\ update world 20 v (frame []) none = Ok (w, o) /\ prepare world 20 v' (frame []) none = Ok (m', t', ids') /\ update world 20 v' (frame []) none = Ok (w', o') /\
  (forall a, a = 1 \/ a = 2 -> a <> v_root v /\ (a <> v_body v -> forall p, parent_of t a = Some p -> p = 1 \/ p = 2) /\
     (at_or_above t (v_body v) a -> fair one_css v t a /\ fair two_css v' t' a /\ at_rest (v_tree v) a /\ at_rest (v_tree v') a /\ like_ruled one_css two_css t t' (v_root v) a)) /\
  at_or_above t (v_body v) 2 /\
  wide 10 (shows_at (v_tree w) 2 KWidth 0) /\ wide 10 (shows_at (v_tree w') 2 KWidth 0) /\ not_wide 30 (shows_at (v_tree w) 3 KWidth 0) /\ wide 30 (shows_at (v_tree w') 3 KWidth 0).
Proof.
  assert (R1 : succeeds (sided one_css) (fun '(v0, (w, _), (_, t, _)) => p_tree [] t /\ wide 10 (shows_at (v_tree w) 2 KWidth 0) /\ not_wide 30 (shows_at (v_tree w) 3 KWidth 0))) by witness.
  assert (R2 : succeeds (sided two_css) (fun '(v0, (w, _), (_, t, _)) => p_tree [] t /\ wide 10 (shows_at (v_tree w) 2 KWidth 0) /\ wide 30 (shows_at (v_tree w) 3 KWidth 0))) by witness.
  destruct R1 as ([[v [w o]] [[m t] ids]] & H & T & W1 & W2). destruct R2 as ([[v' [w' o']] [[m' t'] ids']] & H' & T' & W1' & W2').
  unfold sided in H, H'.
  apply bindR_Ok in H as (va & H0 & H). apply bindR_Ok in H as (ra & Hu & H). apply bindR_Ok in H as (pa & Hp & H).
  apply Ok_inj in H. apply pair_equal_spec in H as [H ->]. apply pair_equal_spec in H as [-> ->].
  apply bindR_Ok in H' as (vb & H0' & H'). apply bindR_Ok in H' as (rb & Hu' & H'). apply bindR_Ok in H' as (pb & Hp' & H').
  apply Ok_inj in H'. apply pair_equal_spec in H' as [H' ->]. apply pair_equal_spec in H' as [-> ->].
  pose proof (two_fair _ _ _ _ _ 1 (or_introl eq_refl) H0 Hp T (or_introl eq_refl)) as (_ & Hroot & Hb).
  exists v, v', w, w', o, o', m, m', t, t', ids, ids'.
  split; [split; [reflexivity|split; [reflexivity|split; reflexivity]]|].
  split; [exact (two_tidy _ (or_introl eq_refl))|]. split; [exact (two_tidy _ (or_intror eq_refl))|]. split; [intros s; exact (Permutation_refl _)|].
  split; [exact (side_loaded _ _ _ _ _ _ _ _ _ _ H0 H0')|]. split; [exact Hp|]. split; [exact Hu|]. split; [exact Hp'|]. split; [exact Hu'|].
  split; [|split; [|split; [exact W1|split; [exact W1'|split; [exact W2|exact W2']]]]].
  - intros a Ha. rewrite Hroot, Hb. split; [destruct Ha as [->| ->]; discriminate|]. split.
    + intros Hne p Hpar. destruct Ha as [->| ->]; [congruence|]. destruct T as (P2 & _). left. congruence.
    + intros _. split; [exact (proj1 (two_fair _ _ _ _ _ a (or_introl eq_refl) H0 Hp T Ha))|]. split; [exact (proj1 (two_fair _ _ _ _ _ a (or_intror eq_refl) H0' Hp' T' Ha))|].
      split; [exact (two_rest _ _ a (or_introl eq_refl) H0)|]. split; [exact (two_rest _ _ a (or_intror eq_refl) H0')|]. exact (two_rules t t' a T T' Ha).
  - rewrite Hb. destruct T as (P2 & _). unfold at_or_above. eapply rtc_l; [exact P2|reflexivity].
Qed.

Example C88_further_meets : Forall stateless (css_styles one_css) /\
  forall t' a, p_tree [] t' -> a = 1 \/ a = 2 -> extended (fun r => ~ css_applies t' 0 r a) (css_styles one_css) (css_styles two_css).
Proof.
  split.
  - apply List.Forall_cons; [|apply List.Forall_nil]. intros sel name Hs Hx. apply elem_of_list_singleton in Hs as ->. apply elem_of_list_singleton in Hx. discriminate Hx.
  - intros t' a (_ & _ & _ & T2 & T1 & _) Ha. apply extended_more; [|apply extended_keep; apply extended_nil].
    destruct Ha as [->| ->]; [rewrite (type_applies _ _ _ _ _ _ T1)|rewrite (type_applies _ _ _ _ _ _ T2)]; discriminate.
Qed.

(** C87 on the same page: one view has the second sheet, a smaller viewport and a
    click on the page. *)
Definition moved : Input := mkInput f1 (f16, f16) [IMouseMove (f1, f1); IMouseButtonDown MBLeft].
Definition apart_run : res ((View * list Output) * (View * list Output)) :=
  do! v0 <- from_document world 20 list_page css_empty; do! v1 <- from_document world 20 list_page two_css;
  do! r <- updates world 20 v0 [(frame [], list_data "a" ["x"; "y"])]; do! r' <- updates world 20 v1 [(moved, list_data "a" ["x"; "y"])]; Ok (r, r').
Example C87_meets : exists v0 v0' v v' os os', from_document world 20 list_page css_empty = Ok v0 /\ from_document world 20 list_page two_css = Ok v0' /\
  updates world 20 v0 [(frame [], list_data "a" ["x"; "y"])] = Ok (v, os) /\ updates world 20 v0' [(moved, list_data "a" ["x"; "y"])] = Ok (v', os') /\
  map snd [(moved, list_data "a" ["x"; "y"])] = map snd [(frame [], list_data "a" ["x"; "y"])] /\ same_language world world.
Proof.
  assert (R : succeeds apart_run (fun _ => True)) by witness. destruct R as ([[v os] [v' os']] & H & _). unfold apart_run in H.
  apply bindR_Ok in H as (v0 & H0 & H). apply bindR_Ok in H as (v1 & H1 & H). apply bindR_Ok in H as (r & Hr & H). apply bindR_Ok in H as (r' & Hr' & H).
  apply Ok_inj in H. apply pair_equal_spec in H as [-> ->].
  exists v0, v1, v, v', os, os'. split; [exact H0|]. split; [exact H1|]. split; [exact Hr|]. split; [exact Hr'|]. split; [reflexivity|]. split; [reflexivity|split; [reflexivity|split; reflexivity]].
Qed.
