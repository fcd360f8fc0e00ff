(** * From texts to the screen: C67.

    Vocabulary: SpecSheet.v, SpecTemplate.v (how texts are written), SpecDocument.v, SpecPage.v
    ([shows_at]), SpecShow.v ([meaning]), SpecValues.v ([plain_element]), SpecSeen.v ([style_settled]). *)
From Coq Require Import ZArith Lia.
From stdpp Require Import gmap.
From RecordUpdate Require Import RecordUpdate.
From Verif Require Import Str StrFacts F32 Res ResFacts Json PropKey Html Css Element Tree ViewModel Render Update Matching
  Cascade Initial Animation Apply Styling Events View SpecLive SpecLog SpecView SpecRender SpecTree SpecSelect SpecStyle SpecShow SpecPage SpecCss SpecValues SpecDocument
  SpecText SpecKeys SpecSheet SpecTemplate SpecRead SpecSeen ReadCss ReadHtml Load
  LiveFacts LiveView LiveHistory LiveData FrameFacts BindProps SelectLive CascadeFacts StyleView StylePage StyleRest DocumentFacts ValueFacts ReadSheet ReadTemplate ReadFacts KeyFacts PegFacts SeenFacts Samples StyleSamples PropRead PropLoad.
Close Scope R_scope.

(** ** C67 *)
(** What is written in the attribute [style] of an element is seen: whatever the texts of the page
    and their layout, after any history, the element shows the last value that its style gives to
    a property, whether the attribute is constant or bound to data.
    Missing: what C31, C55 and C61-C64 miss. *)
Theorem C67_written_is_seen_partial : forall h html rules sheet css X fuel v0 templates body hist v log input value m rs t ids n style pre k w post x,
  document_text h html -> sheet_text rules sheet -> sheet_of rules css -> from_html X fuel html sheet = Ok v0 ->
  document_templates h templates body -> clean templates body -> styles_bound templates body ->
  reacted (reading X) fuel v0 hist v log -> view_bind (reading X) v value = Ok (m, rs) -> prepare (reading X) fuel v input value = Ok (m, t, ids) ->
  style_settled v0 n (log ++ rs) -> tidy_css css -> tidy_inline t -> (forall s, x_order X s ≡ₚ map_to_list s) -> plain_element css v t n ->
  attr t n "style" = Some style -> declarations_text (pre ++ DeclProperty (mkProperty k [[DExplicit w]]) :: post) style ->
  (forall p vs, DeclProperty p ∈ post -> last_given (expand (p_key p) vs) k = None) ->
  SpecShow.meaning (sizes_at (in_viewport input) t (v_body v) n) k w = Some x -> shows_at t n k 0 = Some x.
Proof.
  intros h html rules sheet css X fuel v0 templates body hist v log input value m rs t ids n style pre k w post x Hh Hs Hc H0.
  destruct (C66_loading_partial h html rules sheet Hh Hs) as (c & Hc' & E). rewrite (sheet_unique _ _ _ Hc' Hc) in E. rewrite E in H0. by eapply written_seen.
Qed.
Print Assumptions C67_written_is_seen_partial.

(** A page with one element. *)
Definition small_text (style : string) : string := "<html><body><p style=" +:+ (quoting style +:+ "></p></body></html>").
Definition small (style : string) : Html := elem "html" [] [elem "body" [] [elem "p" [EBNone "style" style] []]].
Definition small_body (style : string) : Html := elem "body" [] [elem "p" [EBNone "style" style] []].
Lemma small_written style : all value_char style -> no_blank_first style -> document_text (small style) (small_text style).
Proof.
  intros Hv Hb.
  assert (Ha : attributes_text [EBNone "style" style] (String " " ("" +:+ (quoted "" "style" "" "" ("" +:+ style) +:+ "")))).
  { apply next_attribute; [reflexivity|blanks| |constructor; by left]. apply (plain_attribute "style" "" "" "" style); [named|by left|blanks|blanks|exact Hv|exact Hb]. }
  pose proof (element_written true "p" _ _ "" [] "" "" ltac:(tagged) Ha ltac:(blanks) no_children ltac:(blanks)) as Hp.
  pose proof (next_child _ _ "" [] "" Hp ltac:(blanks) ltac:(by intros []) no_children) as Hps.
  pose proof (element_written true "body" [] "" "" _ _ "" ltac:(tagged) (no_attributes "" (or_introl eq_refl)) ltac:(blanks) Hps ltac:(blanks)) as Hbody.
  pose proof (next_child _ _ "" [] "" Hbody ltac:(blanks) ltac:(by intros []) no_children) as Hbs.
  pose proof (element_written true "html" [] "" "" _ _ "" ltac:(tagged) (no_attributes "" (or_introl eq_refl)) ltac:(blanks) Hbs ltac:(blanks)) as Hhtml.
  pose proof (document_written "" _ _ "" ltac:(blanks) Hhtml ltac:(blanks) ltac:(by intros [])) as H.
  match type of H with document_text _ ?t => enough (small_text style = t) as -> by exact H end.
  unfold small_text, quoting, quoted. repeat rewrite ?sapp_assoc, ?sapp_cons, ?sapp_nil. reflexivity.
Qed.
Lemma read_nothing : read_css "" = Ok css_empty. Proof. vm_compute. reflexivity. Qed.
Lemma small_document style : document_templates (small style) ∅ (small_body style).
Proof. assert (E : scan_document (h_children (small style)) ∅ = (∅, small_body style)) by reflexivity. exact (document_scanned _ _ _ E). Qed.
Lemma small_inside style h : inside ∅ (small_body style) h -> h = elem "p" [EBNone "style" style] [].
Proof.
  intros H. inversion H as [h0 c c' H1 H2|h0 c c' d H1 H2 H3]; subst; destruct H1 as [<-|[]]; vm_compute in H2; injection H2 as <-; [done|].
  inversion H3 as [h0 c c' H1 H2|h0 c c' d' H1 H2 H4]; subst; destruct H1.
Qed.
Lemma small_clean style : clean ∅ (small_body style).
Proof. intros h ->%small_inside. split; [constructor|done]. Qed.
Lemma small_bound style : styles_bound ∅ (small_body style).
Proof.
  split; [intros text H; by apply elem_of_nil in H|]. intros h ->%small_inside text H. apply elem_of_list_singleton in H. discriminate H.
Qed.
Lemma small_meaning tr fuel style rn : SpecRender.meaning tr ∅ fuel ∅ (small_body style) = Some rn -> rn = RElem "body" [] [RElem "p" [RStatic "style" style] [] []] [].
Proof. intros H. destruct fuel as [|[|fuel]]; vm_compute in H; [discriminate H..|]. by injection H as <-. Qed.
(** the page, whatever has been done with it *)
Definition small_page (t : Tree) (style : string) (ds : list Declaration) : Prop :=
  parent_of t 2 = Some 1 /\ attr t 2 "style" = Some style /\
  (forall n e, get_ctx t n = Some e -> e_text e = None /\ n <= 2 /\ e_style e = (if decide (n = 2) then ds else [])) /\
  (exists e, get_ctx t 1 = Some e /\ e_tag e = "body") /\ exists e, get_ctx t 2 = Some e.
Lemma small_loaded X fuel style ds v0 : from_document X fuel (small style) css_empty = Ok v0 -> x_read_inline_css X style = Some ds ->
  small_page (v_tree v0) style ds /\ flat (v_bindings v0) = [] /\ v_root v0 = 0 /\ v_body v0 = 1.
Proof.
  intros H0 Hr. destruct (loaded_page _ _ _ _ _ _ _ H0 (small_document style) (small_clean style)) as (rn & Hm & Hfl & Hroot & Hb & Hat & Hca & Hatt).
  pose proof (loaded_nodes _ _ _ _ _ _ _ _ H0 (small_document style) (small_clean style) Hm) as Hn.
  apply small_meaning in Hm as ->. cbn [bindings_of] in Hfl. apply Permutation_nil_r in Hfl.
  destruct Hca as [(rules & E1) [[(rules2 & E2) _] _]]. 
  pose proof (from_document_sound _ _ _ _ _ H0) as Hso. pose proof (so_live _ Hso) as Hl. rewrite Hroot in Hl.
  split; [|by split]. split; [|split; [|split; [|split]]].
  - apply (live_parent _ _ Hl). apply Hatt; [done|]. split; [unfold defined; rewrite E1; apply elem_of_list_here|].
    intros (p & b & vis & Hin & _). rewrite Hfl in Hin. destruct Hin.
  - unfold attr. rewrite E2. cbn. exact (lookup_insert (∅ : gmap string string) "style" style).
  - intros n e He. destruct (Hn n e He) as [Hlt Hz]. cbn in Hlt. destruct n as [|[|[|n]]]; [|rewrite E1 in He; injection He as <-|rewrite E2 in He; injection He as <-|lia].
    + destruct (Hz eq_refl) as [-> ->]. repeat split; lia.
    + repeat split; lia.
    + cbn. rewrite Hr. repeat split; lia.
  - eexists. split; [exact E1|reflexivity].
  - eexists. exact E2.
Qed.
Lemma small_same t t' style ds : same_content t t' -> small_page t style ds -> small_page t' style ds.
Proof.
  intros Hc (S1 & S2 & S3 & (e1 & S4 & S4') & (e2 & S5)). pose proof (content_shown _ _ Hc) as Hs. split; [by rewrite (shown_parent _ _ _ Hs)|].
  split; [by rewrite (shown_attr _ _ _ _ Hs)|]. split; [|split].
  - intros n e He. destruct (same_ctx _ _ _ _ (same_sym _ _ Hc) He) as (e' & He' & Hce). destruct (S3 n e' He') as (A & B & C). unfold content in Hce. injection Hce. intros. split; [congruence|]. split; [done|congruence].
  - destruct (same_ctx _ _ _ _ Hc S4) as (e' & He' & Hce). exists e'. split; [done|]. unfold content in Hce. injection Hce. intros. congruence.
  - destruct (same_ctx _ _ _ _ Hc S5) as (e' & He' & _). by exists e'.
Qed.
Lemma small_from X fuel style v0 : all value_char style -> no_blank_first style -> from_html X fuel (small_text style) "" = Ok v0 -> from_document (reading X) fuel (small style) css_empty = Ok v0.
Proof.
  intros Hv Hb H0. exact (eq_trans (eq_sym (from_html_read X fuel (small_text style) "" (small style) css_empty (document_read _ _ (small_written style Hv Hb)) read_nothing)) H0).
Qed.
Lemma prepared_bind X fuel v i x m t ids : prepare X fuel v i x = Ok (m, t, ids) -> exists rs, view_bind X v x = Ok (m, rs).
Proof.
  intros Hp'. unfold prepare in Hp'. apply bindR_Ok in Hp' as ([m1 rs] & Hvb & Hp'). apply bindR_Ok in Hp' as ([ta ids0] & _ & Hp').
  apply bindR_Ok in Hp' as (t1 & _ & Hp'). apply bindR_Ok in Hp' as (t2 & _ & Hp'). apply bindR_Ok in Hp' as (t3 & _ & Hp'). injection Hp' as <- _ _. by exists rs.
Qed.
(** Its element shows what its style says, after any history of data and input. *)
Theorem C67_small_page : forall X fuel style v0 hist v os pre k w post x,
  declarations_text (pre ++ DeclProperty (mkProperty k [[DExplicit w]]) :: post) style -> all value_char style -> no_blank_first style ->
  Forall tidy_declaration (pre ++ DeclProperty (mkProperty k [[DExplicit w]]) :: post) -> Forall quiet_declaration (pre ++ DeclProperty (mkProperty k [[DExplicit w]]) :: post) ->
  (forall p vs, DeclProperty p ∈ post -> last_given (expand (p_key p) vs) k = None) -> (forall sizes, SpecShow.meaning sizes k w = Some x) ->
  (forall s, x_order X s ≡ₚ map_to_list s) -> from_html X fuel (small_text style) "" = Ok v0 -> updates (reading X) fuel v0 hist = Ok (v, os) -> hist <> [] ->
  shows_at (v_tree v) 2 k 0 = Some x.
Proof.
  intros X fuel style v0 hist v os pre k w post x Hd Hv Hb Ht Hq Hpost Hx Ho H0 H Hne.
  pose proof (small_from X fuel style v0 Hv Hb H0) as H0'. clear H0.
  assert (Hr : x_read_inline_css (reading X) style = Some (pre ++ DeclProperty (mkProperty k [[DExplicit w]]) :: post)).
  { cbn [reading x_read_inline_css]. unfold inline_reader. by rewrite (inline_read _ _ Hd). }
  destruct (exists_last Hne) as (past & [i value] & ->). apply updates_snoc in H as (v1 & os1 & o & H & Hu & _).
  destruct (small_loaded _ _ _ _ _ H0' Hr) as (S0 & Hfl & Hroot & Hbody).
  destruct (unbound_content _ _ _ _ _ _ _ _ H0' Hfl H) as [C1 C2].
  destruct (update_looks _ _ _ _ _ _ _ Hu) as (m & t & ids & Hp & Hlooks). rewrite (Hlooks 2 k 0). clear Hlooks.
  destruct (updates_reacted _ _ _ _ _ _ H) as (log & Hre).
  pose proof (small_same _ _ _ _ (C2 _ _ _ _ _ Hp) S0) as (P1 & P2 & P3 & (e1 & P4 & P4') & (e2 & P5)).
  pose proof (prepared_bind _ _ _ _ _ _ _ _ Hp) as Hvb.
  destruct Hvb as (rs & Hvb). destruct (kept_history _ _ _ _ _ _ _ _ H0' H) as (rn & t0 & _ & _ & _ & _ & _ & Hbody1 & Hbs & Hso).
  assert (Hall : forall P : Declaration -> Prop, Forall P (pre ++ DeclProperty (mkProperty k [[DExplicit w]]) :: post) -> inline_all P t /\ inline_along P (reading X) v0 past).
  { intros P HP. assert (G : forall t, small_page t style (pre ++ DeclProperty (mkProperty k [[DExplicit w]]) :: post) -> inline_all P t).
    { intros t' (_ & _ & G3 & _) n ds Hi. unfold inline in Hi. destruct (get_ctx t' n) as [e|] eqn:E; [|done]. injection Hi as <-. destruct (G3 _ _ E) as (_ & _ & ->). case_decide; [done|constructor]. }
    split; [apply G; exact (small_same _ _ _ _ (C2 _ _ _ _ _ Hp) S0)|]. eapply along_static; [exact H0'| |by apply G]. intros p b n j Hin. rewrite Hfl in Hin. destruct Hin. }
  assert (Hst : style_settled v0 2 (log ++ rs)) by (split; [|left]; intros p b; rewrite Hfl; [intros Hin|intros ? Hin]; destruct Hin).
  assert (Htc : tidy_css css_empty).
  { split; [intros s Hs; by apply elem_of_nil in Hs|intros name an kf Hl; cbn in Hl; discriminate Hl]. }
  assert (Hpe : plain_element css_empty v1 t 2).
  { unfold plain_element. rewrite Hbody1. split; [|split; [|split]].
    + split; [apply rtc_once; exact P1|]. split; [exists e2; split; [exact P5|exact (proj1 (P3 _ _ P5))]|].
      assert (Hl : live t 0). { apply (shown_live (v_tree v1)); [|rewrite <- (so_root _ Hso); exact (so_live _ Hso)]. apply content_shown. eapply same_trans; [apply same_sym; exact C1|exact (C2 _ _ _ _ _ Hp)]. }
      intros m' Hm1 Hm2 (e & He & Hc). apply (above_le _ _ _ _ Hl) in Hm1. apply (above_lt _ _ _ Hl) in Hm2. assert (m' = 1) as -> by lia.
      rewrite (proj1 (P3 _ _ He)) in Hc. assert (e = e1) as -> by congruence. rewrite P4' in Hc. destruct Hc as [[? Hc]|Hc]; discriminate Hc.
    + refine (quiet_rest _ _ _ _ _ _ _ _ _ (proj2 (Hall _ Hq)) Ho H0' H 2). intros s Hs. by apply elem_of_nil in Hs.
    + intros s sel Hs. by apply elem_of_nil in Hs.
    + intros a s _ _ Hs. by apply elem_of_nil in Hs. }
  exact (written_seen X fuel (small style) css_empty v0 ∅ (small_body style) past v1 log i value m rs t ids 2 style pre k w post x
    H0' (small_document style) (small_clean style) (small_bound style) Hre Hvb Hp Hst Htc (proj1 (Hall _ Ht)) Ho Hpe P2 Hd Hpost (Hx _)).
Qed.
Print Assumptions C67_small_page.
(** So is every colour: what is written as [#rrggbbaa] is the colour of the element. *)
Theorem C67_every_colour : forall X fuel r g b a v0 hist v os, is_channel r -> is_channel g -> is_channel b -> is_channel a ->
  (forall s, x_order X s ≡ₚ map_to_list s) ->
  from_html X fuel (small_text ("color:#" +:+ (two_digits r +:+ (two_digits g +:+ (two_digits b +:+ (two_digits a +:+ ";")))))) "" = Ok v0 ->
  updates (reading X) fuel v0 hist = Ok (v, os) -> hist <> [] -> shows_at (v_tree v) 2 KColor 0 = Some (VColor (r, g, b, a)).
Proof.
  intros X fuel r g b a v0 hist v os Hr Hg Hb Ha Ho H0 H Hne.
  assert (Hv : value_text (DExplicit (CColor (r, g, b, a))) ("#" +:+ (two_digits r +:+ (two_digits g +:+ (two_digits b +:+ two_digits a))))) by (constructor; by apply two_digits_channel).
  assert (Hd : declarations_text ([] ++ [DeclProperty (mkProperty KColor [[DExplicit (CColor (r, g, b, a))]])]) ("color:#" +:+ (two_digits r +:+ (two_digits g +:+ (two_digits b +:+ (two_digits a +:+ ";")))))).
  { pose proof (property_written KColor "color" _ _ "" "" "" ltac:(like) ltac:(vm_compute; reflexivity) (values_last _ _ (shorthand_last _ _ Hv)) ltac:(blanks) ltac:(blanks) ltac:(blanks)) as Hp.
    pose proof (next_declaration _ _ "" [] "" Hp ltac:(blanks) no_declarations) as Hq. 
    match type of Hq with declarations_text _ ?t => enough ("color:#" +:+ (two_digits r +:+ (two_digits g +:+ (two_digits b +:+ (two_digits a +:+ ";")))) = t) as -> by exact Hq end.
    repeat rewrite ?sapp_assoc, ?sapp_cons, ?sapp_nil. reflexivity. }
  assert (Hs : forall z, is_channel (z * 16) -> value_char (hex_sign z) = true).
  { intros z Hz. assert (In z (map Z.of_nat (seq 0 16))) as Hin.
    { replace z with (Z.of_nat (Z.to_nat z)) by (unfold is_channel in Hz; lia). apply in_map, in_seq. unfold is_channel in Hz. lia. }
    cbn in Hin. repeat (destruct Hin as [<-|Hin]; [vm_compute; reflexivity|]). destruct Hin. }
  assert (Htd : forall z, is_channel z -> all value_char (two_digits z)).
  { intros z Hz. unfold is_channel in Hz. pose proof (Z.div_mod z 16 ltac:(done)). pose proof (Z.mod_pos_bound z 16 ltac:(done)).
    split; [apply Hs; unfold is_channel; lia|]. split; [apply Hs; unfold is_channel; lia|done]. }
  eapply (C67_small_page X fuel _ v0 hist v os [] KColor (CColor (r, g, b, a)) []); [exact Hd| | | | | | |exact Ho|exact H0|exact H|exact Hne].
  - apply (all_app value_char "color:#"). split; [by vm_compute|]. do 4 (apply all_app; split; [by apply Htd|]). by vm_compute.
  - split; [by intros c q [= <- _]|intros q K; discriminate K].
  - constructor; [right; cbn; lia|constructor].
  - constructor; [reflexivity|constructor].
  - intros p vs Hin. by apply elem_of_nil in Hin.
  - done.
Qed.
Print Assumptions C67_every_colour.
(** The page loads and updates go through; [@style] bound to data is seen too. *)
Definition seen (html css : string) (hist : list (Input * json)) (P : Tree -> Prop) : Prop :=
  succeeds (do! v <- from_html world 20 html css; updates (reading world) 20 v hist) (fun r => P (v_tree (fst r))).
Example C67_colour_ex : seen (small_text "color:#0102fe80;") "" [(frame [], JObj [])] (fun t => shows_at t 2 KColor 0 = Some (VColor (1, 2, 254, 128)%Z)).
Proof. witness. Qed.
Example C67_bound_ex :
  seen ("<html><body><p @style=" +:+ (quoting "color:{c};" +:+ "></p></body></html>")) "p { color: #000000; }" [(frame [], JObj [("c", JStr "#ff0000")]); (frame [], JObj [("c", JStr "#00ff00")])]
    (fun t => shows_at t 2 KColor 0 = Some (VColor (0, 255, 0, 255)%Z)).
Proof. witness. Qed.
