(** * Selectors and rules: C28-C30. *)
From Coq Require Import ZArith.
From stdpp Require Import gmap.
From RecordUpdate Require Import RecordUpdate.
From Verif Require Import Str F32 Res Json PropKey Html Css Element Tree ViewModel Render Update Matching
  Cascade Initial Animation Apply Styling Events View SpecLive SpecView SpecTree SpecSelect SelectFacts SelectLive SelectFresh Samples.

(** ** C28 *)
(** Any simple selector on any element of any tree: it matches exactly when CSS
    says so, wherever [simple_agrees] (SpecSelect.v) holds.  Missing, because
    they are false, see below: [[a|=v]] against "v-...", values with white space
    other than the space character, empty values for [^=], [*=], [$=], [:root]. *)
Theorem C28_simple_selectors_partial : forall t root n e s,
  get_ctx t n = Some e -> simple_agrees t n s ->
  match_simple_selector view_pseudo s e = true <-> css_simple t root n s.
Proof. exact simple_matches. Qed.
Print Assumptions C28_simple_selectors_partial.

Definition red : Rgba := (255, 0, 0, 255)%Z.
Definition rule (sels : list Complex) (decl : list Declaration) : Style := mkStyle sels decl.
Definition paint (c : Rgba) : list Declaration := [DeclProperty (mkProperty KColor [[DExplicit (CColor c)]])].
Definition red_rule (sel : Complex) : Css := mkCss [rule [sel] (paint red)] ∅.
Definition shown_color (v : View) (n : NodeId) : option Rgba := e_color <$> get_ctx (v_tree v) n.
(** the colour of the first element of the page after one update *)
Definition first_color (attrs : list (string * string)) (sel : Complex) (c : Rgba) : Prop :=
  succeeds (run world (document [elem "p" (map (fun a => EBNone (fst a) (snd a)) attrs) []]) (red_rule sel) [(frame [], JObj [])])
    (fun r => shown_color (fst r) 2 = Some c).

(** it works: an element with two classes, an id and an attribute *)
Example selectors_work :
  first_color [("class", "a big one")] [SClass "big"] red /\ first_color [("class", "a bigger one")] [SClass "big"] black /\
  first_color [("id", "x")] [SType "p"; SId "x"] red /\ first_color [("lang", "en")] [SAttribute "lang" MDashMatch "en"] red /\
  first_color [("href", "a.png")] [SAttribute "href" MSuffix ".png"] red.
Proof. repeat split; witness. Qed.
Lemma check_chars (f : ascii -> bool) s : forallb f (chars s) = true -> forall c, c ∈ chars s -> f c = true.
Proof. intros H c Hc. rewrite forallb_forall in H. apply H. by apply elem_of_list_In. Qed.
Lemma no_spaces s : forallb (fun c => negb (bool_decide (c ∈ [" "; "009"; "010"; "012"; "013"]%char))) (chars s) = true -> forall c, c ∈ chars s -> ~ css_space c.
Proof. intros H c Hc Hs. apply (check_chars _ _ H) in Hc. apply negb_true_iff, bool_decide_eq_false in Hc. done. Qed.
Lemma spaces_only s : forallb (fun c => negb (bool_decide (c ∈ ["009"; "010"; "012"; "013"]%char))) (chars s) = true -> plain_spaces s.
Proof.
  intros H c Hc Hs. apply (check_chars _ _ H) in Hc. apply negb_true_iff, bool_decide_eq_false in Hc.
  unfold css_space in Hs. apply elem_of_cons in Hs as [->|Hs]; done.
Qed.
Example selectors_agree : forall t,
  attr t 2 "class" = Some "a big one" -> simple_agrees t 2 (SClass "big").
Proof.
  intros t H. split; [split; [done|by apply no_spaces]|]. intros v Hv. rewrite H in Hv. injection Hv as <-. by apply spaces_only.
Qed.

(** C28 is false: CSS says each of these attribute values fits, bumaga that it does not... *)
Theorem C28_language_refuted :
  css_attribute MDashMatch "en" "en-US" /\ first_color [("lang", "en-US")] [SAttribute "lang" MDashMatch "en"] black.
Proof. split; [right; by exists "US"|witness]. Qed.
Theorem C28_class_tab_refuted :
  word_of "b" ("a" +:+ String "009" "b") /\ first_color [("class", "a" +:+ String "009" "b")] [SClass "b"] black.
Proof.
  split; [|witness]. split; [done|]. split.
  - by apply no_spaces.
  - exists ("a" +:+ String "009" ""), "". split; [done|]. split; [right; exists "a", "009"%char; split; [by right; left|done]|by left].
Qed.
(** ...or the other way round *)
Theorem C28_language_dash_refuted :
  ~ css_attribute MDashMatch "en" "-en" /\ first_color [("lang", "-en")] [SAttribute "lang" MDashMatch "en"] red.
Proof. split; [intros [H|[r H]]; discriminate|witness]. Qed.
Theorem C28_empty_value_refuted :
  (forall a, ~ css_attribute MPrefix "" a) /\ first_color [("lang", "en")] [SAttribute "lang" MPrefix ""] red /\
  (forall a, ~ css_attribute MSuffix "" a) /\ first_color [("lang", "en")] [SAttribute "lang" MSuffix ""] red /\
  (forall a, ~ css_attribute MSubstring "" a) /\ first_color [("lang", "en")] [SAttribute "lang" MSubstring ""] red.
Proof. repeat split; try witness; by intros a [H _]. Qed.
(** [:root] describes the root but does not select it: for every page whose root
    is not called ":root" (the reader of documents calls it "") *)
Theorem C28_root_refuted : forall t root e, get_ctx t root = Some e -> e_tag e <> ":root" ->
  css_simple t root root SRoot /\ match_simple_selector view_pseudo SRoot e = false.
Proof. intros t root e He Hn. split; [by exists e|]. cbn. by apply String.eqb_neq. Qed.
Print Assumptions C28_root_refuted.

(** ** C29 *)
(** Selectors with child combinators only, on every element of every tree whose
    links are in order ([C29_pages_linked]): matching ends normally and answers
    whether CSS says that the selector selects the element.  Missing, because
    false, see below: the other combinators. *)
Theorem C29_child_selectors_partial : forall debug t root sel n,
  live t root -> child_only sel -> is_Some (get_ctx t n) ->
  (forall m s, at_or_above t m n -> s ∈ sel -> as_combinator s = None -> simple_agrees t m s) ->
  exists b, match_complex_selector debug view_pseudo sel n t = Ok b /\ (b = true <-> css_selects t root sel n).
Proof. intros debug t root sel n H. exact (child_selectors debug t root sel n (live_linked _ _ H)). Qed.
Print Assumptions C29_child_selectors_partial.
(** the page on which an update matches selectors is in order *)
Theorem C29_pages_linked : forall X fuel doc css v0 hist v os value m rs t ids,
  from_document X fuel doc css = Ok v0 -> updates X fuel v0 hist = Ok (v, os) ->
  view_bind X v value = Ok (m, rs) -> update_trees (x_read_inline_css X) (v_tree v, v_ids v) rs = Ok (t, ids) ->
  live t (v_root v).
Proof. exact styled_live. Qed.
Print Assumptions C29_pages_linked.

(** What every selector means in a release build: '>' is the parent, '+' the
    element two places before, the others relate nothing. *)
Theorem C29_combinators_mean_partial : forall t root sel n b,
  live t root -> (forall m s, is_Some (get_ctx t m) -> s ∈ sel -> as_combinator s = None -> simple_agrees t m s) ->
  match_complex_selector false view_pseudo sel n t = Ok b ->
  (b = true <-> selects (css_simple t root) (bumaga_related t) sel n).
Proof. exact combinators_mean. Qed.
Print Assumptions C29_combinators_mean_partial.
(** In a debug build, a '+' selector that gets as far as the combinator on a
    second child stops the program. *)
Theorem C29_plus_panics_refuted : forall t root n p x post,
  live t root -> attached t p = x :: n :: post ->
  forall e s l, get_ctx t n = Some e -> match_simple_selector view_pseudo s e = true -> as_combinator s = None ->
  match_complex_selector true view_pseudo (l ++ [SCombinator "+"; s]) n t = Panic.
Proof. exact plus_selector_panics. Qed.
Print Assumptions C29_plus_panics_refuted.

(** C29 is false: <h1></h1><p></p><div><p></p></div> and a rule for "h1 + p",
    one for "div p", one for "h1 ~ div" *)
Definition siblings_page : Html := document [elem "h1" [] []; elem "p" [] []; elem "div" [] [elem "b" [] [elem "p" [] []]]].
Definition select_colors (sel : Complex) (cs : list (option Rgba)) : Prop :=
  succeeds (run world siblings_page (red_rule sel) [(frame [], JObj [])])
    (fun r => map (shown_color (fst r)) [2; 3; 4; 5; 6] = cs /\
              attached (v_tree (fst r)) 1 = [2; 3; 4] /\ attached (v_tree (fst r)) 4 = [5] /\ attached (v_tree (fst r)) 5 = [6]).
Theorem C29_adjacent_refuted : (* h1 + p should paint 3 *)
  select_colors [SType "h1"; SCombinator "+"; SType "p"] [Some black; Some black; Some black; Some black; Some black].
Proof. witness. Qed.
Theorem C29_adjacent_too_far_refuted : (* h1 + div should paint nothing *)
  select_colors [SType "h1"; SCombinator "+"; SType "div"] [Some black; Some black; Some red; Some red; Some red].
Proof. witness. Qed.
Theorem C29_descendant_refuted : (* div p should paint 6 *)
  select_colors [SType "div"; SCombinator " "; SType "p"] [Some black; Some black; Some black; Some black; Some black].
Proof. witness. Qed.
Theorem C29_sibling_refuted : (* h1 ~ div should paint 4 and its contents *)
  select_colors [SType "h1"; SCombinator "~"; SType "div"] [Some black; Some black; Some black; Some black; Some black].
Proof. witness. Qed.
(** and a child selector that works *)
Example child_works : select_colors [SType "div"; SCombinator ">"; SType "b"; SCombinator ">"; SType "p"] [Some black; Some black; Some black; Some black; Some red].
Proof. witness. Qed.

(** ** C30 *)
(** After any history, and for any further value and input: styling the page
    with the rules as they were sorted at load time is the same as styling it
    with every rule of the sheet matched afresh on every element, provided the
    rules are settled (SpecSelect.v): no '+', no on/off class or id on an element
    under a rule about classes or ids, nothing bound on an ancestor that a rule
    with a combinator looks at.  Missing, because false: the rest. *)
Theorem C30_static_rules_partial : forall X fuel doc css v0 hist v os value m rs t ids input t1 sizes,
  from_document X fuel doc css = Ok v0 -> updates X fuel v0 hist = Ok (v, os) ->
  view_bind X v value = Ok (m, rs) -> update_trees (x_read_inline_css X) (v_tree v, v_ids v) rs = Ok (t, ids) ->
  set_viewport (v_root v) (in_viewport input) t = Ok t1 ->
  (forall n s, at_or_above t (v_body v) n -> s ∈ css_styles css -> rule_settled (v_bindings v) t n s) ->
  apply_styles fuel (x_debug X) (v_css v) (x_order X) (in_time input) (tree_depth t1) (v_body v) sizes ∅ (afresh (css_styles css) t1) =
  map_res (afresh (css_styles css)) (apply_styles fuel (x_debug X) (v_css v) (x_order X) (in_time input) (tree_depth t1) (v_body v) sizes ∅ t1).
Proof. exact static_rules_sound. Qed.
Print Assumptions C30_static_rules_partial.

(** C30 is false: the class of the parent comes from the data, and a rule about
    it never applies to the child. *)
Definition parent_page : Html := document [elem "div" [EBAttribute "class" [TSBinder (get ["c"])]] [elem "p" [] []]].
Definition parent_rule : Css := red_rule [SClass "x"; SCombinator ">"; SType "p"].
Theorem C30_parent_class_refuted :
  succeeds (run world parent_page parent_rule [(frame [], JObj [("c", str "x")]); (frame [], JObj [("c", str "x")])])
    (fun r => attr (v_tree (fst r)) 2 "class" = Some "x" /\ attached (v_tree (fst r)) 2 = [3] /\ shown_color (fst r) 3 = Some black).
Proof. witness. Qed.
(** ...and the class of an element is taken away by an on/off attribute, but the
    rule about it goes on being applied. *)
Definition flag_page : Html := document [elem "p" [EBNone "class" "a"; EBTag "class" (get ["on"])] []].
Theorem C30_class_flag_refuted :
  succeeds (run world flag_page (red_rule [SClass "a"]) [(frame [], JObj [("on", JBool true)]); (frame [], JObj [("on", JBool false)])])
    (fun r => attr (v_tree (fst r)) 2 "class" = None /\ shown_color (fst r) 2 = Some red).
Proof. witness. Qed.
(** A page that meets the hypotheses: a class from the data, a rule about it and
    a rule about the hover state; the colour follows. *)
Definition class_page : Html := document [elem "p" [EBAttribute "class" [TSBinder (get ["c"])]] []; elem "b" [] []].
Definition class_rules : Css := mkCss [rule [[SClass "x"]] (paint red); rule [[SType "b"; SPseudoClass "hover"]] (paint red)] ∅.
Example class_follows :
  succeeds (run boxes class_page class_rules [(frame [], JObj [("c", str "x")])]) (fun r => map (shown_color (fst r)) [2; 3] = [Some red; Some black]) /\
  succeeds (run boxes class_page class_rules [(frame [], JObj [("c", str "x")]); (frame [IMouseMove vzero], JObj [("c", str "y")]); (frame [], JObj [("c", str "y")])])
    (fun r => map (shown_color (fst r)) [2; 3] = [Some black; Some red]).
Proof. split; witness. Qed.
Example class_settled :
  succeeds (from_document boxes 20 class_page class_rules)
    (fun v => map (fun e => bd_params (snd e)) (flat (v_bindings v)) = [BAttribute 2 "class" 0]).
Proof. witness. Qed.
Example class_rules_settled : forall bs t n s,
  map (fun e => bd_params (snd e)) (flat bs) = [BAttribute 2 "class" 0] -> s ∈ css_styles class_rules -> rule_settled bs t n s.
Proof.
  intros bs t n s Hbs Hs. cbn in Hs. rewrite !elem_of_cons in Hs.
  assert (Hnc : forall sel c, sel ∈ s_selectors s -> SCombinator c ∉ sel).
  { intros sel c Hsel Hc. destruct Hs as [->|[->|Hs]]; [..|by apply elem_of_nil in Hs]; cbn in Hsel; apply elem_of_list_singleton in Hsel as ->;
      rewrite !elem_of_cons in Hc; repeat (destruct Hc as [Hc|Hc]; [discriminate|]); by apply elem_of_nil in Hc. }
  split; [|split].
  - intros sel Hsel c Hc. by apply Hnc in Hc.
  - intros key _ _ (p & b & Hin & Hb). apply (in_map (fun e => bd_params (snd e))) in Hin. rewrite Hbs in Hin. cbn in Hin. rewrite Hb in Hin. by destruct Hin.
  - intros (sel & c & Hsel & Hc). by apply Hnc in Hc.
Qed.
