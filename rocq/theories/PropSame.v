(** * C80: updates that change nothing show the same page. *)
From Coq Require Import ZArith Lia.
From stdpp Require Import gmap.
From Verif Require Import Str F32 Res ResFacts Json PropKey Html Css Element Tree ViewModel Render Update Matching Cascade Initial Animation Apply Styling Events View Samples
  SpecLive SpecView SpecTree SpecSelect SpecStyle SpecShow SpecPage SpecMove SpecSame StyleView StyleRest SelectLive MoveFacts MoveSamples StyleSamples ValueSamples PropSelect PropMove SameFacts.
Close Scope R_scope.

(** When the data of an update come again with the same viewport, and the states
    of the elements (under the mouse, pressed, focused) are the same, every element
    that has no running animation or transition, and neither have its ancestors,
    shows what it showed: every property, and every entry of a list. So the second
    application of the rules is not disturbed by what the first one has left in the
    element. *)
Theorem C80_same_again X fuel doc css v0 hist v os i1 x m1 t1 ids1 v1 o1 i2 v2 o2 n :
  from_document X fuel doc css = Ok v0 -> updates X fuel v0 hist = Ok (v, os) -> json_wf x = true ->
  prepare X fuel v i1 x = Ok (m1, t1, ids1) -> update X fuel v i1 x = Ok (v1, o1) -> update X fuel v1 i2 x = Ok (v2, o2) -> in_viewport i1 = in_viewport i2 ->
  tidy_css css -> (forall s, x_order X s ≡ₚ map_to_list s) -> fair css v t1 n -> same_flags (v_tree v) (v_tree v1) ->
  (forall a, at_or_above t1 a n -> at_rest (v_tree v) a /\ at_rest (v_tree v1) a) ->
  forall k i, listed k = true \/ i = 0 -> shows_at (v_tree v2) n k i = shows_at (v_tree v1) n k i.
Proof.
  intros H0 H Hw Hp Hu1 Hu2 Hvp Htc Ho Hf Hfl Hr k i Hki. destruct (same_again _ _ _ _ _ _ _ _ _ _ _ _ _ _ _ _ _ _ _ H0 H Hw Hp Hu1 Hu2 Hvp Htc Ho Hf Hfl Hr) as (_ & _ & _ & _ & _ & _ & K). exact (K k i Hki).
Qed.
Print Assumptions C80_same_again.

(** And so for any number of such updates: the page does not drift. *)
Theorem C80_stays X fuel doc css v0 hist v os i1 x m1 t1 ids1 v1 o1 w n :
  from_document X fuel doc css = Ok v0 -> updates X fuel v0 hist = Ok (v, os) -> json_wf x = true ->
  prepare X fuel v i1 x = Ok (m1, t1, ids1) -> update X fuel v i1 x = Ok (v1, o1) -> same_flags (v_tree v) (v_tree v1) -> again X fuel x (in_viewport i1) v1 w ->
  tidy_css css -> (forall s, x_order X s ≡ₚ map_to_list s) -> fair css v t1 n ->
  (forall u a, again X fuel x (in_viewport i1) v u -> at_or_above t1 a n -> at_rest (v_tree u) a) ->
  forall k i, listed k = true \/ i = 0 -> shows_at (v_tree w) n k i = shows_at (v_tree v1) n k i.
Proof. exact (same_stays X fuel doc css v0 hist v os i1 x m1 t1 ids1 v1 o1 w n). Qed.
Print Assumptions C80_stays.

(** In particular the layout style that taffy has of the element stays what it was,
    which is what keeps taffy's cache: [View::update] hands a style over only if it
    differs. *)
Theorem C80_layout_style_stays X fuel doc css v0 hist v os i1 x m1 t1 ids1 v1 o1 w n :
  from_document X fuel doc css = Ok v0 -> updates X fuel v0 hist = Ok (v, os) -> json_wf x = true ->
  prepare X fuel v i1 x = Ok (m1, t1, ids1) -> update X fuel v i1 x = Ok (v1, o1) -> same_flags (v_tree v) (v_tree v1) -> again X fuel x (in_viewport i1) v1 w ->
  tidy_css css -> (forall s, x_order X s ≡ₚ map_to_list s) -> fair css v t1 n ->
  (forall u a, again X fuel x (in_viewport i1) v u -> at_or_above t1 a n -> at_rest (v_tree u) a) ->
  exists st, n_style <$> t_nodes (v_tree v1) !! n = Some st /\ n_style <$> t_nodes (v_tree w) !! n = Some st.
Proof. exact (layout_stays X fuel doc css v0 hist v os i1 x m1 t1 ids1 v1 o1 w n). Qed.
Print Assumptions C80_layout_style_stays.

(** <p></p> with p {width: 10px; height: oops} before and after two updates: the
    second property is given a value without a meaning, and keeps what it had. *)
Definition still : list Declaration := [give KWidth (px 10); give KHeight (CKeyword "oops")].
Definition still_css : Css := p_css still ∅.
Definition none : json := JObj [].
Definition stilling : res (View * (View * Output) * (View * Output) * (json * Tree * gmap string NodeId)) :=
  do! v0 <- from_document world 20 (p_page []) still_css; do! r1 <- update world 20 v0 (frame []) none; do! r2 <- update world 20 (fst r1) (frame []) none;
  do! p <- prepare world 20 v0 (frame []) none; Ok (v0, r1, r2, p).
Definition flags_of (t : Tree) (n : NodeId) : option (list bool) := (fun e => let s := e_state e in [st_active s; st_hover s; st_focus s; st_checked s]) <$> get_ctx t n.
Definition same_flagsb (t t' : Tree) : bool := forallb (fun n => bool_decide (flags_of t' n = flags_of t n)) (map fst (map_to_list (t_nodes t)) ++ map fst (map_to_list (t_nodes t'))).
Lemma same_flagsb_ok t t' : same_flagsb t t' = true -> same_flags t t'.
Proof.
  intros H n. unfold same_flagsb in H. rewrite forallb_forall in H.
  assert (K : flags_of t' n = flags_of t n).
  { destruct (t_nodes t !! n) as [a|] eqn:Ea; [|destruct (t_nodes t' !! n) as [b|] eqn:Eb].
    - apply (bool_decide_unpack _). apply Is_true_true. apply H. apply in_app_iff. left. apply in_map_iff. exists (n, a). split; [done|]. apply elem_of_list_In. by apply elem_of_map_to_list.
    - apply (bool_decide_unpack _). apply Is_true_true. apply H. apply in_app_iff. right. apply in_map_iff. exists (n, b). split; [done|]. apply elem_of_list_In. by apply elem_of_map_to_list.
    - unfold flags_of, get_ctx. by rewrite Ea, Eb. }
  unfold flags_of in K. destruct (get_ctx t' n) as [e'|], (get_ctx t n) as [e|]; cbn in *; try discriminate K; [|done]. destruct (e_state e) as [a b c d], (e_state e') as [a' b' c' d']. cbn in K. by injection K as -> -> -> ->.
Qed.
Example C80_meets : exists v0 v1 o1 v2 o2 m t ids, from_document world 20 (p_page []) still_css = Ok v0 /\ updates world 20 v0 [] = Ok (v0, []) /\ json_wf none = true /\
  prepare world 20 v0 (frame []) none = Ok (m, t, ids) /\ update world 20 v0 (frame []) none = Ok (v1, o1) /\ update world 20 v1 (frame []) none = Ok (v2, o2) /\ same_flags (v_tree v0) (v_tree v1) /\
  same_flags (v_tree v1) (v_tree v2) /\ tidy_css still_css /\ (forall s, x_order world s ≡ₚ map_to_list s) /\ fair still_css v0 t 2 /\
  (forall u a, again world 20 none (f100, f100) v0 u -> at_rest (v_tree u) a) /\
  wide 10 (shows_at (v_tree v1) 2 KWidth 0).
Proof.
  assert (Hrun : succeeds stilling (fun '(v0, (v1, _), (v2, _), (_, t, _)) => p_tree [] t /\ same_flagsb (v_tree v0) (v_tree v1) = true /\ same_flagsb (v_tree v1) (v_tree v2) = true /\ wide 10 (shows_at (v_tree v1) 2 KWidth 0))) by witness.
  destruct Hrun as ([[[v0 [v1 o1]] [v2 o2]] [[m t] ids]] & H & T & S1 & S2 & W).
  unfold stilling in H. apply bindR_Ok in H as (v0' & H0 & H). apply bindR_Ok in H as (r1 & Hu1 & H). apply bindR_Ok in H as (r2 & Hu2 & H). apply bindR_Ok in H as (p & Hp & H).
  apply Ok_inj in H. apply pair_equal_spec in H as [H ->]. apply pair_equal_spec in H as [H ->]. apply pair_equal_spec in H as [-> ->]. cbn [fst] in Hu2.
  assert (K0 : updates world 20 v0 [] = Ok (v0, [])) by reflexivity.
  assert (Hr : forall (P : Declaration -> Prop) s ds, x_read_inline_css world s = Some ds -> Forall P ds) by (intros P s ds Hx; discriminate Hx).
  destruct (p_fair _ _ _ _ _ _ _ _ _ _ _ _ _ _ _ _ eq_refl H0 K0 Hp (Hr tidy_declaration) T) as (F & R & B).
  exists v0, v1, o1, v2, o2, m, t, ids. split; [exact H0|]. split; [exact K0|]. split; [reflexivity|]. split; [exact Hp|]. split; [exact Hu1|]. split; [exact Hu2|].
  split; [exact (same_flagsb_ok _ _ S1)|]. split; [exact (same_flagsb_ok _ _ S2)|].
  split. { apply p_tidy; [tidy|]. intros name an Hx. rewrite lookup_empty in Hx. discriminate Hx. }
  split; [intros s; exact (Permutation_refl _)|]. split; [exact F|]. split; [|exact W].
  intros u a Hu. destruct (again_updates _ _ _ _ _ _ Hu) as (hist & os & Hh).
  refine (quiet_rest world 20 (p_page []) still_css v0 hist u os _ _ _ H0 Hh a).
  - intros s Hs. unfold still_css, p_css in Hs. cbn [css_styles] in Hs. apply elem_of_list_singleton in Hs as ->. repeat (apply List.Forall_cons; [reflexivity|]). apply List.Forall_nil.
  - exact (along_read world 20 _ _ v0 [] v0 [] _ _ H0 K0 (Hr quiet_declaration)).
  - intros s. exact (Permutation_refl _).
Qed.
