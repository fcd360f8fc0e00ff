(** * The cascade: C31-C34.

    Vocabulary: SpecStyle.v ([means], [gives], [wins]), SpecShow.v ([meaning]:
    what a value of a property shows), SpecPage.v ([declarations], [scope],
    [shows_cascade]), SpecSelect.v. *)
From Coq Require Import ZArith Lia.
From stdpp Require Import gmap.
From RecordUpdate Require Import RecordUpdate.
From Verif Require Import Str F32 Res Json PropKey Html Css Element Tree ViewModel Render Update Matching
  Cascade Initial Animation Apply Styling Events View SpecLive SpecView SpecTree SpecSelect SpecStyle SpecShow SpecPage SpecCss
  ResFacts EventFrame LiveView LiveHistory SelectFacts SelectLive CascadeFacts StyleView StylePage StyleRest StyleMore StyleResolve Samples PropSelect StyleSamples.

(** ** C31 *)
(** A block of declarations: each entry of each property gets the value of the
    last declaration that gives it one, and keeps what it had if none does;
    custom properties are what the last definitions say. *)
Theorem C31_last_declaration_wins : forall fuel ds vars s vars' s',
  compute_declaration_block fuel ds (vars, s) = Ok (vars', s') ->
  vars' = variables_after vars ds /\
  (forall k i v, wins vars ds k i v -> s' !! (k, i) = Some v) /\
  (forall k i, ungiven vars ds k i -> s' !! (k, i) = s !! (k, i)) /\
  (forall k i, (exists v, wins vars ds k i v) \/ ungiven vars ds k i).
Proof. exact block_wins. Qed.
Print Assumptions C31_last_declaration_wins.

(** The rules an element carries, in their order, and then its inline style: of
    those in force the last declaration gives the value. *)
Theorem C31_rules_then_inline_style : forall fuel debug n t e vars vars1 s1 vars2 s2,
  cascade_rules fuel debug n t (e_styles e) (vars, ∅) = Ok (vars1, s1) -> compute_declaration_block fuel (e_style e) (vars1, s1) = Ok (vars2, s2) ->
  exists rules, in_force debug t n (e_styles e) rules /\
    (forall k i v, wins vars (rules ++ e_style e) k i v -> s2 !! (k, i) = Some v) /\
    (forall k i, ungiven vars (rules ++ e_style e) k i -> s2 !! (k, i) = None) /\
    (forall k i, (exists v, wins vars (rules ++ e_style e) k i v) \/ ungiven vars (rules ++ e_style e) k i).
Proof. exact computed_wins. Qed.
Print Assumptions C31_rules_then_inline_style.

(** The page after any history and one more update.  Every element shows, for
    every property, what the last declaration of the rules that select it (in the
    order of the sheet, then the inline style) means, or else what the property
    starts with.  Missing, because false: elements on which an animation or a
    transition runs, selectors that bumaga does not read as CSS does (C28, C29)
    or decides too early (C30), several values where a property takes one (C32),
    and specificity, see below. *)
Theorem C31_page_partial : forall X fuel doc css v0 hist v os input value v' o,
  from_document X fuel doc css = Ok v0 -> updates X fuel v0 hist = Ok (v, os) -> update X fuel v input value = Ok (v', o) ->
  tidy_css css -> (forall s, x_order X s ≡ₚ map_to_list s) ->
  exists m t ids, prepare X fuel v input value = Ok (m, t, ids) /\ same_looks t (v_tree v') /\
  forall n, tidy_inline t -> styled_element t (v_body v) n -> at_rest (v_tree v) n -> plain_selectors css t n ->
    (forall a s, at_or_above t (v_body v) a -> at_or_above t a n -> s ∈ css_styles css -> rule_settled (v_bindings v) t a s) ->
    shows_cascade css (in_viewport input) (v_root v) (v_body v) (v_tree v) t n.
Proof.
  intros X fuel doc css v0 hist v os input value v' o H0 H Hu Hc Ho. destruct (update_looks _ _ _ _ _ _ _ Hu) as (m & t & ids & Hp & Hs).
  exists m, t, ids. split; [exact Hp|]. split; [exact Hs|]. intros n Hr Hel Hrest Hpl Hse. exact (cascade_page _ _ _ _ _ _ _ _ _ _ _ _ _ n H0 H Hp Hc Hr Ho Hel Hrest Hpl Hse).
Qed.
Print Assumptions C31_page_partial.
(** nothing runs on any element if nothing asks for animations or transitions *)
Theorem C31_nothing_runs : forall X fuel doc css v0 hist v os,
  quiet_css css -> inline_along quiet_declaration X v0 hist -> (forall s, x_order X s ≡ₚ map_to_list s) ->
  from_document X fuel doc css = Ok v0 -> updates X fuel v0 hist = Ok (v, os) -> forall n, at_rest (v_tree v) n.
Proof. exact quiet_rest. Qed.
Print Assumptions C31_nothing_runs.

(** A page that meets the hypotheses (StyleSamples.v):
    <div><p style="visibility: hidden"></p></div> with [div { --ink: red; color: blue }]
    and [p { color: var(--ink); width: 10px; width: 20px }] *)
Lemma ink_begun : succeeds (begin inks ink_page ink_css (frame []) (JObj []))
  (fun r => let '(v, (m, t, ids)) := r in ink_tree t /\ shows_at t 3 KColor 0 = Some (VColor red) /\ match shows_at t 3 KWidth 0 with Some (VDimension (DimLength f)) => feq f (f32_of_Z 20) | _ => false end = true /\ shows_at t 3 KVisibility 0 = Some (VFlag false) /\
     shows_at t 2 KColor 0 = Some (VColor blue)).
Proof. witness. Qed.
Lemma ink_parts : exists v m t ids, from_document inks 20 ink_page ink_css = Ok v /\ updates inks 20 v [] = Ok (v, []) /\ prepare inks 20 v (frame []) (JObj []) = Ok (m, t, ids) /\
  v_root v = 0 /\ v_body v = 1 /\ live t 0 /\ ink_tree t /\ shows_at t 3 KColor 0 = Some (VColor red).
Proof.
  destruct ink_begun as ([v [[m t] ids]] & H & Ht & Hc & _). unfold begin in H. apply bindR_Ok in H as (v' & H0 & H). apply bindR_Ok in H as (r & Hp & H). injection H as -> ->.
  exists v, m, t, ids. split; [exact H0|]. split; [reflexivity|]. split; [exact Hp|].
  pose proof (from_document_sound _ _ _ _ _ H0) as Hs. split; [exact (so_root _ Hs)|]. destruct (kept_loaded _ _ _ _ _ H0) as (rn & t0 & _ & _ & _ & _ & _ & Hb). split; [exact Hb|].
  split; [exact (proj1 (prepare_live _ _ _ _ _ _ _ _ Hs Hp))|]. split; [exact Ht|exact Hc].
Qed.
Example ink_meets : exists v m t ids, from_document inks 20 ink_page ink_css = Ok v /\ prepare inks 20 v (frame []) (JObj []) = Ok (m, t, ids) /\
  tidy_css ink_css /\ tidy_inline t /\ inline_along quiet_declaration inks v [] /\ styled_element t (v_body v) 3 /\ at_rest (v_tree v) 3 /\ plain_selectors ink_css t 3 /\
  (forall a s, at_or_above t (v_body v) a -> at_or_above t a 3 -> s ∈ css_styles ink_css -> rule_settled (v_bindings v) t a s) /\
  declarations ink_css t (v_root v) 3 ink_declarations.
Proof.
  destruct ink_parts as (v & m & t & ids & H0 & Hu & Hp & Hr & Hb & Hl & Ht & _). exists v, m, t, ids. rewrite Hr, Hb. destruct ink_tidy as (T1 & T2 & T3 & T4).
  split; [exact H0|]. split; [exact Hp|]. split; [exact T1|].
  split; [exact (prepared_inline _ _ _ _ _ _ _ _ _ Hp (along_read inks 20 _ _ v [] v [] _ _ H0 eq_refl T2))|].
  assert (Hq : inline_along quiet_declaration inks v []) by exact (along_read inks 20 _ _ v [] v [] _ _ H0 eq_refl T4). split; [exact Hq|]. split; [exact (ink_styled t Hl Ht)|].
  split; [exact (quiet_rest _ _ _ _ _ [] v [] T3 Hq (fun s => Permutation_refl _) H0 Hu 3)|]. split; [exact (type_plain _ _ _ ink_types)|].
  split; [|exact (proj1 (ink_declared t Ht))]. intros a s _ _ Hs. destruct (ink_types s Hs) as [name Hn]. exact (type_settled _ _ _ _ _ Hn).
Qed.

(** C31 is false of CSS's other half, specificity: [#x { color: red }] before
    [p { color: blue }] leaves <p id="x"> blue. *)
Theorem C31_specificity_refuted :
  more_specific (specificity [SId "x"]) (specificity [SType "p"]) /\
  succeeds (run world (document [elem "p" [EBNone "id" "x"] []]) (mkCss [rule [[SId "x"]] (paint red); rule [[SType "p"]] (paint blue)] ∅) [(frame [], JObj [])])
    (fun r => shown_color (fst r) 2 = Some blue).
Proof. split; [left; cbn; repeat constructor|witness]. Qed.

(** ** C32 *)
(** Nothing that a view does depends on the order in which its hash maps of
    computed values are walked, if the style sheet gives several values only to
    properties that take a list.  Missing, because false: the others. *)
Theorem C32_order_free_partial : forall X order fuel doc css v0 hist,
  tidy_css css -> inline_along tidy_declaration X v0 hist ->
  (forall s, x_order X s ≡ₚ map_to_list s) -> (forall s, order s ≡ₚ map_to_list s) ->
  from_document X fuel doc css = Ok v0 ->
  from_document (with_order X order) fuel doc css = Ok v0 /\ updates (with_order X order) fuel v0 hist = updates X fuel v0 hist.
Proof. exact order_free. Qed.
Print Assumptions C32_order_free_partial.
(** two orders that meet the hypotheses, and the sheet above is tidy *)
Example orders_lawful : (forall s : ComputedStyle, (fun s => map_to_list s) s ≡ₚ map_to_list s) /\ (forall s : ComputedStyle, (fun s => rev (map_to_list s)) s ≡ₚ map_to_list s) /\ tidy_css ink_css.
Proof. split; [intros s; reflexivity|]. split; [intros s; symmetry; apply Permutation_rev|exact (proj1 ink_tidy)]. Qed.
(** C32 is false: [font-family: "A", "B"] shows A or B, whichever comes last *)
Definition two_fonts : Css := mkCss [rule [[SType "p"]] [DeclProperty (mkProperty KFontFamily [[DExplicit (CStr "A")]; [DExplicit (CStr "B")]])]] ∅.
Definition family (v : View) (n : NodeId) : option string := (fun e => f_family (e_font e)) <$> get_ctx (v_tree v) n.
Theorem C32_two_fonts_refuted :
  exists order, (forall s, order s ≡ₚ map_to_list s) /\ exists a b, a <> b /\
  succeeds (run world (document [elem "p" [] []]) two_fonts [(frame [], JObj [])]) (fun r => family (fst r) 2 = Some a) /\
  succeeds (run (with_order world order) (document [elem "p" [] []]) two_fonts [(frame [], JObj [])]) (fun r => family (fst r) 2 = Some b).
Proof.
  exists (fun s => rev (map_to_list s)). split; [intros s; symmetry; apply Permutation_rev|].
  first [exists "A", "B"; split; [done|split; witness] | exists "B", "A"; split; [done|split; witness]].
Qed.
Print Assumptions C32_two_fonts_refuted.

(** ** C33 *)
(** A custom property has the value that the nearest element above gives it, in
    the last of its definitions there. *)
Theorem C33_nearest_definition : forall css t root body n vars name,
  live t 0 -> scope css t root body n vars -> forall sh, vars !! name = Some sh <-> nearest css t root body n name sh.
Proof. exact scope_nearest. Qed.
Print Assumptions C33_nearest_definition.
(** Without cycles every value is computed, whatever it refers to. *)
Theorem C33_acyclic_computes : forall vars sh, acyclic vars ->
  exists fuel vs, forall fuel', fuel <= fuel' -> compute_shorthand fuel' vars sh = Ok vs.
Proof. exact acyclic_computes. Qed.
Print Assumptions C33_acyclic_computes.
(** On the page of an update that ends, every value of every declaration that
    applies to an element has a meaning... *)
Theorem C33_values_resolve : forall X fuel doc css v0 hist v os input value m t ids n,
  from_document X fuel doc css = Ok v0 -> updates X fuel v0 hist = Ok (v, os) -> prepare X fuel v input value = Ok (m, t, ids) ->
  styled_element t (v_body v) n -> plain_selectors css t n ->
  (forall a s, at_or_above t (v_body v) a -> at_or_above t a n -> s ∈ css_styles css -> rule_settled (v_bindings v) t a s) ->
  all_resolve css t (v_root v) (v_body v) n.
Proof. exact resolved_page. Qed.
Print Assumptions C33_values_resolve.
(** ...and [k: var(--name)] shows what [--name] stands for: what the declarations
    before it say, or else the nearest element above.  Missing, because false: a
    definition after it in the same element, a fallback, and what C31 misses. *)
Theorem C33_reference_shows_definition_partial : forall X fuel doc css v0 hist v os input value m t ids n ds pre k name w post x,
  from_document X fuel doc css = Ok v0 -> updates X fuel v0 hist = Ok (v, os) -> prepare X fuel v input value = Ok (m, t, ids) ->
  tidy_css css -> tidy_inline t -> (forall s, x_order X s ≡ₚ map_to_list s) ->
  styled_element t (v_body v) n -> at_rest (v_tree v) n -> plain_selectors css t n ->
  (forall a s, at_or_above t (v_body v) a -> at_or_above t a n -> s ∈ css_styles css -> rule_settled (v_bindings v) t a s) ->
  declarations css t (v_root v) n ds -> ds = pre ++ DeclProperty (mkProperty k [[DVar name]]) :: post ->
  (forall p vs, DeclProperty p ∈ post -> last_given (expand (p_key p) vs) k = None) ->
  visible css t (v_root v) (v_body v) n pre name [DExplicit w] ->
  SpecShow.meaning (sizes_at (in_viewport input) t (v_body v) n) k w = Some x ->
  shows_at t n k 0 = Some x.
Proof. exact reference_shows. Qed.
Print Assumptions C33_reference_shows_definition_partial.
(** the colour of the sample page, by that theorem *)
Example ink_shows : exists v m t ids, from_document inks 20 ink_page ink_css = Ok v /\ prepare inks 20 v (frame []) (JObj []) = Ok (m, t, ids) /\
  visible ink_css t (v_root v) (v_body v) 3 [] "--ink" [DExplicit (CColor red)].
Proof.
  destruct ink_parts as (v & m & t & ids & H0 & Hu & Hp & Hr & Hb & Hl & Ht & _). exists v, m, t, ids. rewrite Hr, Hb. split; [exact H0|]. split; [exact Hp|].
  right. split; [intros sh' H; by apply elem_of_nil in H|]. destruct (ink_declared t Ht) as (D3 & D2 & D1). pose proof Ht as (P3 & P2 & P1 & _).
  exists 2, [DeclVariable (mkVariable "--ink" [DExplicit (CColor red)]); give KColor (CColor blue)].
  split; [by apply rtc_once|]. split; [by apply tc_once|]. split; [exact D2|]. split.
  - exists [], [give KColor (CColor blue)]. split; [done|]. intros sh' H. apply elem_of_list_singleton in H. discriminate H.
  - intros m' ds' sh' H1 H2. exfalso. apply (above_lt _ _ _ Hl) in H1. apply (above_lt _ _ _ Hl) in H2. lia.
Qed.

(** C33 is false: a custom property that refers to itself is not "invalid", the
    update never ends, however long one waits... *)
Theorem C33_cycle_hangs_refuted : forall vars name, vars !! name = Some [DVar name] ->
  forall fuel, compute_definition fuel vars (DVar name) = Hang.
Proof. exact cyclic_hangs. Qed.
Print Assumptions C33_cycle_hangs_refuted.
Theorem C33_cycle_page_refuted : forall X fuel doc css v0 hist v os input value m t ids n ds pre p post name,
  from_document X fuel doc css = Ok v0 -> updates X fuel v0 hist = Ok (v, os) -> prepare X fuel v input value = Ok (m, t, ids) ->
  styled_element t (v_body v) n -> plain_selectors css t n ->
  (forall a s, at_or_above t (v_body v) a -> at_or_above t a n -> s ∈ css_styles css -> rule_settled (v_bindings v) t a s) ->
  declarations css t (v_root v) n ds -> ds = pre ++ DeclProperty p :: post -> [DVar name] ∈ p_values p ->
  ~ visible css t (v_root v) (v_body v) n pre name [DVar name].
Proof. exact cycle_never_ends. Qed.
Print Assumptions C33_cycle_page_refuted.
Definition cycle_css : Css := mkCss [rule [[SType "p"]] [DeclVariable (mkVariable "--a" [DVar "--a"]); decl KColor [DVar "--a"]]] ∅.
Example cycle_page : outcome_kind (run world (document [elem "p" [] []]) cycle_css [(frame [], JObj [])]) = "hang".
Proof. vm_compute. reflexivity. Qed.
(** ...and a definition is not seen by the declarations before it: the colour is
    the inherited one *)
Definition late_css : Css := mkCss [rule [[SType "p"]] [decl KColor [DVar "--a"]; DeclVariable (mkVariable "--a" [DExplicit (CColor red)])]] ∅.
Theorem C33_late_definition_refuted :
  succeeds (run world (document [elem "p" [] []]) late_css [(frame [], JObj [])]) (fun r => shown_color (fst r) 2 = Some black).
Proof. witness. Qed.

(** ** C34 *)
(** What an element shows does not depend on what the page has shown before, nor
    on where the element stands: two pages, two histories, two elements to which
    (and to whose ancestors) the same declarations apply show the same, for the
    properties that start afresh, and for all others if a declaration gives them
    a value.  Missing, because false: the other properties without a declaration,
    see below, and what C31 misses. *)
Theorem C34_no_leak_partial : forall X fuel css doc v0 hist v os input value m t ids n doc' v0' hist' v' os' input' value' m' t' ids' n',
  from_document X fuel doc css = Ok v0 -> updates X fuel v0 hist = Ok (v, os) -> prepare X fuel v input value = Ok (m, t, ids) ->
  from_document X fuel doc' css = Ok v0' -> updates X fuel v0' hist' = Ok (v', os') -> prepare X fuel v' input' value' = Ok (m', t', ids') ->
  in_viewport input = in_viewport input' ->
  tidy_css css -> tidy_inline t -> tidy_inline t' -> (forall s, x_order X s ≡ₚ map_to_list s) ->
  (forall a, at_or_above t a n -> at_rest (v_tree v) a) -> (forall a, at_or_above t' a n' -> at_rest (v_tree v') a) ->
  styled_element t (v_body v) n -> plain_selectors css t n -> (forall a s, at_or_above t (v_body v) a -> at_or_above t a n -> s ∈ css_styles css -> rule_settled (v_bindings v) t a s) ->
  styled_element t' (v_body v') n' -> plain_selectors css t' n' -> (forall a s, at_or_above t' (v_body v') a -> at_or_above t' a n' -> s ∈ css_styles css -> rule_settled (v_bindings v') t' a s) ->
  same_declared css t t' (v_root v) (v_body v) n n' ->
  forall k i, listed k = true \/ i = 0 ->
    fresh_property k = true \/
    (exists vars ds w, declarations css t (v_root v) n ds /\ scope css t (v_root v) (v_body v) n vars /\ wins vars ds k i w /\
       is_Some (SpecShow.meaning (sizes_at (in_viewport input) t (v_body v) n) k w)) ->
    shows_at t' n' k i = shows_at t n k i.
Proof. exact no_leak. Qed.
Print Assumptions C34_no_leak_partial.
(** the hypothesis on the two elements can be met by different pages: it holds
    when the trees give the same declarations *)
Example ink_same : exists v m t ids, from_document inks 20 ink_page ink_css = Ok v /\ prepare inks 20 v (frame []) (JObj []) = Ok (m, t, ids) /\
  same_declared ink_css t t (v_root v) (v_body v) 3 3.
Proof.
  destruct ink_parts as (v & m & t & ids & H0 & Hu & Hp & Hr & Hb & Hl & Ht & _). exists v, m, t, ids. rewrite Hr, Hb. split; [exact H0|]. split; [exact Hp|].
  destruct (ink_declared t Ht) as (D3 & D2 & D1). pose proof Ht as (P3 & P2 & P1 & _).
  eapply same_child; [done|done|exact P3|exact P3| |exact D3|exact D3]. eapply same_child; [done|done|exact P2|exact P2| |exact D2|exact D2]. eapply same_body; [exact D1|exact D1].
Qed.

(** C34 is false for visibility, cursor, layout and animations: a rule that has
    stopped applying leaves its traces.  The class of <p> is "x", then "y". *)
Definition leak_css (ds : list Declaration) : Css := mkCss [rule [[SClass "x"]] ds] ∅.
Definition leak_class (c : string) : Input * json := (frame [], JObj [("c", str c)]).
Definition leak_page : Html := document [elem "p" [EBAttribute "class" [TSBinder (get ["c"])]] []].
Definition leaks {A} (ds : list Declaration) (f : View -> A) (was now fresh : A) : Prop :=
  succeeds (run world leak_page (leak_css ds) [leak_class "x"]) (fun r => f (fst r) = was) /\
  succeeds (run world leak_page (leak_css ds) [leak_class "x"; leak_class "y"]) (fun r => f (fst r) = now) /\
  succeeds (run world leak_page (leak_css ds) [leak_class "y"]) (fun r => f (fst r) = fresh).
Definition at_2 {A} (f : Element -> A) (v : View) : option A := f <$> get_ctx (v_tree v) 2.
Theorem C34_visibility_leaks_refuted : leaks [give KVisibility (CKeyword "hidden")] (at_2 e_visible) (Some false) (Some false) (Some true).
Proof. split; [|split]; witness. Qed.
Theorem C34_cursor_leaks_refuted : leaks [give KCursor (CKeyword "pointer")] (at_2 e_pointer) (Some PPointer) (Some PPointer) (Some PAuto).
Proof. split; [|split]; witness. Qed.
Definition display_of (v : View) : option Display := (fun x => ts_display (n_style x)) <$> t_nodes (v_tree v) !! 2.
Theorem C34_layout_leaks_refuted : leaks [give KDisplay (CKeyword "grid")] display_of (Some DGrid) (Some DGrid) (Some DBlock).
Proof. split; [|split]; witness. Qed.
Theorem C34_animation_leaks_refuted :
  leaks [give KAnimationName (CKeyword "a")] (at_2 (fun e => map a_name (e_animators e))) (Some ["a"]) (Some ["a"]) (Some []).
Proof. split; [|split]; witness. Qed.
(** and one that does not *)
Example colour_does_not_leak : leaks (paint red) (fun v => shown_color v 2) (Some red) (Some black) (Some black).
Proof. split; [|split]; witness. Qed.
