# Formal model of lebedec/bumaga in Rocq (Coq 8.16.1)

bumaga is a small HTML/CSS user-interface engine: an HTML template and a CSS
sheet are loaded into a `View`; at every frame the application calls
`View::update(input, value)`, which binds a JSON value to the template, updates
the element tree, recomputes styles, layout and final positions, handles input
events and returns an `Output`.

## 1. Layout of the development

`rocq/theories/`:

| files | what |
|---|---|
| Str, F32, Res, Json | strings, IEEE-754 binary32/64 (Flocq), outcomes of a Rust function, serde_json values and pointers, src/value.rs |
| PropKey, Initial | generated by `tools/gen_propkey.py`, `tools/gen_initial.py` from src/css/model.rs and src/styles/initial.rs |
| Html, Css, Element, Tree | data types: parsed template, parsed sheet, element, the taffy node tree |
| ViewModel, Render, Update | data binding, template rendering, application of reactions to the tree |
| Matching, Cascade, Animation, Apply, Styling | selector matching, cascade, animations and transitions, effect of properties on elements, final positions, scrolling |
| Events, View | input events, output, the whole `View` and its `update` |
| Peg, CssGrammar, HtmlGrammar | semantics of pest's parsing expressions (implicit white space and comments, atomic rules, pairs); src/css/css.pest and src/html/html.pest rule by rule |
| Fragment | `View::body` and `Fragment::children` |
| Transform | `View::pipe`, `default_transformers` with `Duration::from_secs_f64` and its `Debug` of the standard library |
| Fonts | `measure_text`, `DummyFonts` |
| Input | src/input.rs, `Duration::as_secs_f32` |
| Number, ReadCss, ReadHtml, Load | `f32::from_str`, src/css/reader.rs, src/html/reader.rs, `View::from_html` |
| SpecBind, SpecReact, SpecSchema, SpecView, SpecLog | what binding a value means; histories |
| SpecRender, SpecTree, SpecLive, SpecDocument | what a template and a document mean; well-formed pages |
| SpecWalk, SpecImage | an application that draws the page; images |
| SpecTime, SpecPipe | times as texts; applications that register transformers |
| SpecLocal | which places of the page a change of the data concerns |
| SpecEvents | sessions of input events: who is told what |
| SpecSelect, SpecStyle, SpecShow, SpecPage, SpecCss, SpecValues | selectors as CSS has them; cascade; what a value shows |
| SpecTotal, SpecShape | documents whose links can be followed to an end; the data a template takes |
| SpecAnim, SpecEnds, SpecPlace | animations over the reals; what never ends; geometry |
| SpecSame | updates that repeat |
| SpecInput | the calls with which an application builds an input |
| SpecMove | what one update does with the animations and transitions of an element, and many updates |
| SpecText, SpecSheet, SpecTemplate, SpecKeys, SpecRead, SpecSeen | how style sheets and templates are written (no reference to the grammars or readers); names of properties (generated by `tools/gen_speckeys.py` from the CSS names) |
| `Prop*.v` | property theorems only: statement, `exact lemma`, `Print Assumptions`, and an `Example` showing the hypotheses are met |
| ReadTests, ViewTests | the crate's own unit tests (html/reader.rs, css/reader.rs, view.rs, view_model.rs), replayed on the model by computation: evidence that the model is the code |
| Samples, StyleSamples, ValueSamples, MoveSamples | concrete pages for the examples and refutations |
| all others | lemmas |

`tools/manifest.py` regenerates MANIFEST.json from the theorem names and
`tools/status.json`; `tools/axioms.py` regenerates section 5.

Conventions. A Rust function `fn(&mut S, A) -> Result<B>` becomes
`S -> A -> res (S * B)` where `res A := Ok a | Err e | Panic | Hang`.  `Panic` is
every panicking path (index out of bounds, unwrap of None, debug overflow);
`Hang` is non-termination: recursive functions whose recursion is not structural
take fuel and return `Hang` when it runs out.  Every theorem either says what
holds when the result is `Ok` *for every fuel*, or gives a fuel bound under
which the result is not `Hang`; `X_refuted` theorems show `Hang` for every fuel.

If a property as a user would state it is false of the code, the file proves
`X_refuted` (a concrete witness, a finding about the code) and `X_partial`, the
strongest version that holds.

## 2. Trusted base

* Coq's kernel (8.16.1), including its VM (`vm_compute`).
* Axioms: only those of the Coq standard library that Flocq's real-number
  semantics pulls in; see section 5, generated from `Print Assumptions`.
* The reading of the Rust code: every definition cites the lines it models.
* Contracts of the external crates, written into the model:
  * serde_json: `Value` equality, `BTreeMap` ordering of objects, `pointer`,
    number classes (no NaN in a `Value`).  `Number` printing of floats (`ryu`) is
    a parameter `fmt_f64`.
  * taffy: a slot map of nodes with parent/children lists and per-node style,
    context and layout.  The layout algorithm is the oracle `x_layout`, any
    function of the tree; no theorem assumes anything about it.
  * `HashMap` iteration order: oracle `x_order`, any permutation.
  * file reads and `Fonts`: oracles. Logging has no effect.
* NaN payloads are collapsed (Flocq's single canonical NaN); nothing in bumaga
  observes payloads.  Float rounding is IEEE nearest-even.
  * pest: Peg.v is its semantics of parsing expressions (ordered choice, greedy
    repetition, predicates, implicit WHITESPACE/COMMENT, silent, atomic and
    compound-atomic rules) with the tree of pairs the readers walk.
  * mesura: a counter is a natural number of this view (Metrics.v).
* Not modelled: taffy's calls of the text measurement (`measure_text` itself is,
  Fonts.v), painting (done by the application), hot-reload watching of files, fonts and resources (`view.rs` 30-94 loads them
  before the page), the error messages of pest, and the `examples/` applications.
  `str` is a list of bytes; Rust's `trim`, `lines` and `char::is_whitespace` are
  modelled on UTF-8 bytes.

## 3. Properties, models, proofs

| id | modelled by | proof idea / status |
|---|---|---|
| C01 | ViewModel.bind_value | induction on the source value; object case uses that serde_json objects have unique sorted keys |
| C02 | ViewModel.bind_value, memorize_array_default | spec `project schema value`; induction over conforming values, then over histories |
| C03 | ViewModel.bind_value, react | spec: set of leaf positions whose value differs; reactions counted per binding path |
| C04 | ViewModel.bind_value | refuted (array bound to a text leaf, then a shorter array); partial: never panics on conforming values |
| C05 | bind_value + Update.update_tree | invariant on the span store; refuted for null and regrown arrays; partial for non-null values |
| C06 | define_value, pointer | induction over tokens; consistency predicate for index/name |
| C07 | Events.make_message, emit | case analysis on the argument list, all arguments |
| C08 | Update.reattach, insertion_index | invariant: children is a sublist of the definition list; induction over reactions |
| C09, C10 | Update.repeat_children | list lemmas on windows; C10 refuted by shrink+grow with a following sibling, partial when the block is last |
| C11 | Element.text_set, text_to_string | list update lemmas, fold over settings |
| C12 | Render + Update | invariant of rendering: every binding points at existing nodes / ranges; preserved by updates |
| C13 | Update.update_tree, View.get_element_by_id | refuted (stale id); partial for ids that are never re-bound |
| C14 | Render.render_node | structural induction on templates; refuted with duplicate alias names |
| C15, C16 | Render.render_node | induction on fuel with a tree invariant |
| C17–C24, C26 | Events.handle_event | invariants over event lists; delivery log in the model state |
| C25 | Events.choose_pointer | induction over the list under the mouse |
| C27 | Events.hit, hovers | induction over the tree; float comparison lemmas for half-open boxes |
| C28, C29 | Matching | spec of CSS matching as a relation; `|=` and `+` refuted, the rest proved equal |
| C30 | Matching.classify, calculate_elements_stylesheet | soundness lemma per selector; refuted for parent's dynamic class |
| C31 | Cascade.compute_style, overwrite_all | map lemmas, last writer wins |
| C32 | Apply.apply_all | commutation of independent writes; refuted for two indices of one scalar property |
| C33 | Cascade.compute_definition | nearest definition; termination under acyclic variables, refuted for cycles |
| C34 | Apply.reset_element_style | refuted; partial for the reset fields |
| C35 | Animation.animator_update, wrap_time | Flocq rounding monotonicity over the loop that wraps time; refuted for negative iteration counts, frozen clocks |
| C36 | Animation.keyframe_style, play_track, animate | invariant of the key frame search; percent arithmetic on floats |
| C37 | Animation.lerp_color, lerp_channel | error bound of float interpolation against the real one; both end points exact |
| C38 | Animation.transition_play, play_loop | invariant over histories of frames; refuted for no duration and delays |
| C39 | View.update with `ends` (a result for all large enough fuels, the same one) | every loop bounded by a measure computed from the page; refuted for cyclic variables, zero durations, missing ranges; partial under `page_inv`; whole histories (PropCounted.v): every animator of the page keeps an invariant that its declarations, the frames and the order of application preserve (`mild_timer`: counted laps; `slow_timer`: a clock of at most one frame bound per frame, on the grid of exact floats); any page whose timers are tame at every frame (PropRun.v); the bound itself does not matter: an outcome under one bound is the outcome under all larger ones (BoundFacts.v, by `le_res` through every function), so every history ends or never does |
| C40 | Styling.compute_final_positions | induction on the tree, sums over the chain of ancestors |
| C41 | Styling.scrolling_* | invariant over wheel events; refuted when only the other axis overflows |
| C42 | ReadCss.read_color, CssGrammar | round trip through the grammar for symbolic digits; refuted for short hex |
| C43 | ReadHtml text normalisation | invariant of every read template (all texts); spec `says` of lines |
| C44 | ReadCss.parse_key, SpecKeys | generated table of CSS names against the generated parser; injectivity by computation over all keys |
| C45 | Json.eval_* | case analysis; f64 lemmas for counts |
| C46 | Render.render | fuel monotonicity; refuted by a template that links to itself |
| C47–C50 | ViewModel + Update over histories | refinement: what is shown is a function of the last value (LiveData, LiveValues) |
| C51–C54 | Events | the log of deliveries of a session; totality of handling input; SpecTold.v: numbers and state flags in the event JSON, frame argument per kind of input (EventTold.v) |
| C55 | Render, Update (inline style) | invariant `follows` over histories; refuted for constant bindings and flags |
| C56 | Cascade.expand | equality of blocks with their longhands; CSS table in SpecCss |
| C57 | Apply.length, Cascade | float error bounds against the CSS formula over the reals |
| C58 | Styling.apply_styles | start values along the tree |
| C59 | Cascade.compute_function | truncation and saturation lemmas |
| C60 | View.from_document | scan of the document against `document_templates`; `carries` |
| C61 | Peg.eval, readers | termination measure of the two grammars (PegTotal), shapes of the pairs every rule can produce (PegShape), so that no `unwrap` of the readers is reached |
| C62, C63 | CssGrammar, ReadCss | derivations: every text of `sheet_text` is parsed to the pairs of its rules, by induction on how it is written |
| C64 | HtmlGrammar, ReadHtml | the same for templates, mutual induction over contents and children |
| C65 | Number, ReadCss | the decimal reader is the correctly rounded one (NumberFacts), for any number of digits |
| C66 | Load | composition |
| C67 | all of the above | composition of reading (C63, C64), loading (C60), inline styles (C55) and the cascade (C31) |
| C68 | bind_value, react, update_tree | the reactions of an update come from changes only, and each reaction spares every other place (LocalFacts.untouched_places) |
| C69 | the same | each place shows the last value written to it, which the final data determines (LiveData.scalar_shown, list_current); null and the zeros refuted |
| C70 | View::body, Fragment::children | the invariant `live` of the tree (children newer than parents, one parent each), induction on the walk |
| C71 | img elements through rendering, update_tree and apply_styles | invariant `backs`: every img has one child with one source background naming the attribute; kept by every reaction and by the cascade (which does not descend into img) |
| C72 | duration | round-half-even of m·2^e·10^9 is Flocq's ZnearestE; digits by induction; page: through C05's lemma |
| C73 | pipe | loading does not look at the transformers, so registering first is loading in a world that has them; sessions of calls by induction with `sound` and `shaped` |
| C74 | measure_text, DummyFonts | whole numbers below 2^24 are floats, so floor and rounding of the quotient commute up to one |
| C75 | from_html | the templates needed form a finite, acyclic graph, so nesting is bounded: total correctness of rendering by induction on that depth; default data by induction on the schema; selectors by `live` |
| C76 | update | every step of an update returns a value or runs out of its bound: induction on the tree with the invariants of C08 (`live`), C28 (`kept`), C17 (`inv`) and C02 (`shaped`); a track always has its first frame; with C39 the bound is enough; whole sessions (PropRun.v): with the histories of PropCounted.v |
| C77 | Schema, from_html, update | the names of a template (C46's `pointers`) are the places of a shape: the schema stays a part of the shape and is complete when every scalar has a name (induction on the shape and the names); with C75 and C76 all hypotheses are about the texts; sessions with animations, and the two outcomes of any session, in PropRun.v |
| C78 | update, apply_styles, Animator | one update refines "cascade, then each animation in order, then each transition" (SpecMove's `shows_moving`, by the trace of the styling pass down to the element, C31's frame lemmas for the rest); the clocks over a history by induction on the updates (`frames`), so that C35/C36 give the progress and the key frames shown |
| C79 | update, apply_styles, Transition | the same refinement with one transition: it begins with both ends at the value shown, is kept while the value is held (induction on the updates), turns when the value changes, and C37/C38's interpolation gives the value between and the end |
| C80 | update, apply_styles | C31's refinement at two consecutive updates: the trees have the same content (C02) and the same states, so the same declarations win; properties that are reset agree by C32's argument, kept ones because keeping is idempotent; induction on the number of updates |
| C81 | src/input.rs | the builder as a record, calls as a list; induction on the calls after the last setter |
| C82 | `Duration::as_secs_f32` (standard library) as called at src/styles/mod.rs:97 | the four roundings over the reals with Flocq's relative error; monotone by monotonicity of rounding; C35 instantiated |
| C83 | `ViewMetrics`, `CascadeStats` and every place that counts (src/view.rs, src/styles/mod.rs) as a state threaded through `update` that survives failures | erasure to the uncounted functions; lists of the elements counted built along the recursion, with the custom properties handed down to each; C31's winners for the values, C80 for the layouts |
| C84 | the viewport lines of `update` (src/view.rs:115-127) | the root's style through every stage of an update, by induction over the history; box determined by the list of viewports |
| C85 | `bind_value`, `react` and everything an update does after them (src/view_model.rs:86-236, src/view.rs:110-145) | the changes `bind_value` reports are a function of the named part of the data (ConformFacts), up to the hidden contents of list items, which reactions do not look at; then induction over the history |
| C86 | loading, matching and sorting of rules (src/view.rs:315-355, src/css/matching.rs), and that an update looks at no other part of the sheet than its animations | a rule that asks for an absent kind matches nowhere and is static, so it is given to no element; induction over the inserted rules, then over the history |
| C87 | from_html, update and update_tree (src/view.rs:30-303), and that binding never sees styles | every step of the tree respects the erasure of styles, states, layouts and rules: a congruence for each operation, then induction over the reactions and the history |
| C88 | update, apply_styles (src/view.rs:357-437), the cascade (src/styles) | C31's refinement for both views at once: by induction over the updates (for values kept when nothing is declared) and, within one, over the path from the body (for inherited values and custom properties) |

## 4. Findings

Where the English property is false of the code there is a theorem named
`…_refuted` with a concrete witness.  Grouped by what a user would notice:

*Never returns.*  A template that links to itself (C46).  A custom property that
refers to itself (C33).  A transition on a property that appears for the first
time; an endless animation with a duration of zero or less, and any animation of
negative duration with less than one iteration; an endless animation whose age
exceeds 2^26 durations (C39).

*Panics.*  A list bound to a text whose value becomes shorter (C04).

*Shows something else than the data say.*  `null` from the start leaves the
placeholder (C05, C47–C49).  Copies that come back after a shorter list stand
after following siblings (C10).  Repeats inside repeats keep counts of earlier
lists (C50).  A binder path with a token like `01` never resolves (C06).  Two
aliases of one name leak (C14).  Ids that were bound can be stale (C13).  The
empty object counts as true; counts above 2^53 are confused (C45).

*Events.*  The focus goes to the outermost of nested inputs (C19); a right press
and a left release are a click (C22); a drag persists when it is released over
no target (C23); a window resized in one direction only is not noticed (C84); a transformer on a list sees fields no template names (C85); several moves in one update all report the last position
(C51); a detached focused element still gets keys (C53); boxes that are not on
whole pixels may overlap or leave gaps (C27); hit testing ignores clipping;
every update without a mouse move repeats the last one, at first at (0, 0).

*Selectors.*  `:root` never matches, `+` looks at the wrong sibling, `|=` and
empty prefixes are wrong, other combinators never match (C28, C29); rules decided
at load time ignore bound attributes of ancestors and `#class`/`#id` flags (C30).

*Cascade and values.*  Specificity is ignored (C31); several values of a property
that has room for one depend on the order of a hash map (C32); a custom property
is seen only by declarations after it, a fallback of `var` is ignored (C33);
layout properties and border widths keep the value of earlier rules (C34); `gap`
has its two values swapped, `inset` with two or three values, `border` with two
and `background` with several do nothing, `background-position` with one means it for both
sides, `animation` knows four orders of its values only, and no shorthand resets the
longhands it leaves out (C56); `em` is relative to the parent's
font size for every property, a radius of `0` is refused (C57); `text-align`,
`visibility` and `cursor` are not inherited, `currentcolor` is the parent's
colour (C58); `rgb()` truncates (C59); `green` is (0, 255, 0); `display: none` is
not supported; `@style` with a constant is ignored, `#style` off keeps the style
(C55).

*Animations.*  Progress is cut to whole percents; a negative number of iterations
gives negative progress; `0.2s` times 3 ends near the beginning; direction, fill
mode and timing functions are ignored; a transition without a duration divides by
zero, a delay shows the new value first, `transition: all` does nothing, `0` to a
length jumps half way (C35–C38).

*Geometry.*  Content that overflows in one axis scrolls negatively in the other
(C41); wheel input is never used and scrolling happens whatever `overflow` says;
the viewport is only set when both dimensions change.

*Reading.*  See C62–C64: the last declaration of a rule needs its semicolon (in an
inline style it is dropped without an error), digits in keywords and custom
properties, two blanks between values, leading zeros, `+`, exponents, single
quotes, `!important`, `@media` and `calc` sums are refused; `#rgb` is white,
unknown units are pixels, arguments of `:not` are dropped, an unknown step of an
animation is 0%, the second of two equal steps replaces the first; 22 names ending
in `-style` are only known with an extra `s`, `background-position-x/y` not at all
(C44).  In templates `<!DOCTYPE html>`, unquoted attributes, `>` in texts and tags
beginning like a void element (`<column>`) are refused; a closing tag need not
match, everything after the first root is dropped, entities are not decoded, white
space at the beginning of attributes and after the binders of an attribute is lost
(`@class="{a} open"` is one class), a blank after a
transformer belongs to its name.

**Images.**  `<img ?src={a}>` sets the attribute but never the picture; a hidden
image (`visibility: hidden`) is drawn all the same, because the picture is a child
no style reaches (C71).

**Transformers.**  `duration` panics (and `View::update` with it) on negative
numbers and from 2^64 seconds on (C72).  A transformer registered after data were
passed is not used until the value changes (C73).

**Default fonts.**  A text that fills its line exactly gets two, a short text takes
all the width there is, and no room is reserved under min-content (C74).

**Loading.**  Loading fails only for a text that is not in the grammar, a link to a
template that is not there (reported as an error), a template inside itself (never
returns, C46) and, in a debug build, a rule with `+` (crash, C30); every other pair of
texts makes a page (C75).

**Updating.**  With data that fit and transformers that do not fail an update either
succeeds or never returns (C76), and so does a whole session (`C76_success_or_never`);
the crashes that remain are data of another kind (C04) and `+` in a debug build (C30).
The recursion bound of the model decides nothing: an outcome under one bound is the
outcome under every larger one (`C39_one_outcome`, `C75_one_outcome`, C46).

## 5. Axioms per theorem

Generated by `tools/axioms.py` (`Print Assumptions` of every theorem).  All four
axioms are of Coq's standard library (they come with its real numbers, on which
Flocq's floats are specified).

* no axioms (closed under the global context): C06_defined_pointers_resolve, C06_inconsistent_refuted, C06_leading_zero_refuted, C07_message_exists, C07_message_is_determined, C07_one_call, C28_root_refuted, C28_simple_selectors_partial, C29_child_selectors_partial, C29_combinators_mean_partial, C29_plus_panics_refuted, C33_nearest_definition, C43_leading_blank_refuted, C43_lines_partial, C43_no_line_break, C43_text_kept_partial, C45_array, C45_shown_apart, C60_templates_exist, C61_templates, C64_one_meaning_partial, C64_otherwise_refuted, C64_refused_refuted, C64_template_read_partial, C72_text_is_one_time, C74_any_fonts, C75_read_names.

* `ClassicalDedekindReals.sig_forall_dec`, `ClassicalDedekindReals.sig_not_dec`, `Classical_Prop.classic`, `FunctionalExtensionality.functional_extensionality_dep`: C01_rebind_no_op, C02_model_is_last_value, C03_every_change_reported_once, C04_binding_never_panics_partial, C04_binding_never_panics_refuted, C05_null_after_a_value_partial, C05_null_item_shows_old_text_refuted, C05_null_shows_placeholder_refuted, C05_text_shows_current_value_partial, C06_template_pointers_resolve, C08_conditional_children_in_order, C08_shown_iff_last_visible, C09_one_repeat, C09_other_children_stay, C09_repeat_shows_first_items, C10_repeat_order_partial, C10_repeat_order_refuted, C11_attribute_is_its_pieces, C11_pieces_are_independent, C12_loading_never_fails_late, C12_reactions_never_fail, C13_lookup_by_id_partial, C13_lookup_by_id_refuted, C14_duplicate_alias_leaks_refuted, C14_locals_restored, C14_names_are_lexical, C15_rendered_tree_well_formed, C16_own_name_in_list_refuted, C16_repeat_renders_count_copies, C17_flags_change_only_by_events, C17_hover_is_under_mouse, C17_hover_step, C18_enter_leave_alternate, C19_focus_blur_alternate, C19_focus_goes_to_innermost_refuted, C19_one_focus, C19_only_press_moves_focus, C19_press_moves_focus, C20_active_iff_pressed, C20_active_iff_pressed_now, C20_active_step, C21_events_call_their_handlers, C21_keys_go_to_focus, C22_click_happens, C22_click_is_press_and_release, C22_click_needs_left_press_refuted, C22_no_click_while_dragging, C23_drag_protocol, C23_dragstart, C23_drop, C23_drop_to_innermost, C23_release_ends_drag_partial, C23_release_ends_drag_refuted, C24_captured_iff_engaged, C24_not_captured_means_quiet_partial, C24_not_captured_means_quiet_refuted, C25_pointer_of_innermost, C26_messages_of_one_update, C27_adjacent_boxes_partial, C27_adjacent_boxes_refuted, C27_box_is_half_open, C27_pixel_boxes, C28_class_tab_refuted, C28_empty_value_refuted, C28_language_dash_refuted, C28_language_refuted, C29_adjacent_refuted, C29_adjacent_too_far_refuted, C29_descendant_refuted, C29_pages_linked, C29_sibling_refuted, C30_class_flag_refuted, C30_parent_class_refuted, C30_static_rules_partial, C31_last_declaration_wins, C31_nothing_runs, C31_page_partial, C31_rules_then_inline_style, C31_specificity_refuted, C32_order_free_partial, C32_two_fonts_refuted, C33_acyclic_computes, C33_cycle_hangs_refuted, C33_cycle_page_refuted, C33_late_definition_refuted, C33_reference_shows_definition_partial, C33_values_resolve, C34_animation_leaks_refuted, C34_cursor_leaks_refuted, C34_layout_leaks_refuted, C34_no_leak_partial, C34_visibility_leaks_refuted, C35_clock, C35_delay, C35_finished_at_end_partial, C35_finished_at_end_refuted, C35_finished_stays, C35_first_iteration, C35_never_decreases, C35_paused, C35_progress_in_range, C35_single_iteration_end, C35_single_iteration_never_decreases, C36_every_progress_refuted, C36_frames, C36_interpolation_between, C36_interpolation_follows, C36_interpolation_forward, C37_channels_forward, C37_colours_between, C37_ends, C38_delay_refuted, C38_no_duration_refuted, C38_reaches_target_partial, C38_starts_from_shown, C38_zero_length_refuted, C39_counted_animation_ends, C39_counted_pages_end, C39_endless_animation_ends, C39_endless_pages_end, C39_ends_or_never, C39_no_duration_refuted, C39_one_outcome, C39_one_run_ends, C39_quiet_pages_end, C39_short_duration_refuted, C39_stuck_animation_refuted, C39_stuck_transition_refuted, C39_tame_histories_end_partial, C39_transition_refuted, C39_update_ends_partial, C40_geometry, C40_nearest_clip, C40_opacity_shrinks, C40_pixel_sums, C40_transparent_inside, C41_in_range_partial, C41_narrow_refuted, C41_wheel_refuted, C41_wheel_turns, C42_hex_partial, C42_round_trip_partial, C42_short_refuted, C44_missing_names, C44_one_meaning, C44_one_name, C44_standard_names_partial, C44_style_names_refuted, C45_boolean_partial, C45_count_partial, C45_empty_object_refuted, C45_large_count_refuted, C45_shown_counts, C46_fuel_does_not_matter, C46_rendering_ends_refuted, C47_attribute_shows_current_value_partial, C48_tag_shows_current_value_partial, C49_null_after_a_value_partial, C49_visibility_follows_data_partial, C49_visibility_null_refuted, C50_nested_repeat_refuted, C50_repeat_follows_data_partial, C51_event_payload, C51_event_position_refuted, C51_numbers_told, C51_state_told, C52_input_never_fails, C53_keys_go_to_elements_on_the_page_refuted, C54_move_inside_out, C54_release_inside_out, C55_constant_binding_refuted, C55_flag_refuted, C55_inline_style_follows_partial, C56_animation_order_refuted, C56_border_background_refuted, C56_gap_refuted, C56_inset_refuted, C56_page_partial, C56_position_refuted, C56_reset_refuted, C56_same_as_longhands_partial, C57_currentcolor_refuted, C57_em_refuted, C57_lengths_partial, C58_display_none_refuted, C58_inheritance_refuted, C58_inherited_partial, C58_not_inherited, C58_text_like_its_element, C59_bytes, C59_percent_partial, C59_rgb, C59_rgb_page, C59_rgba_page_partial, C59_rgba_partial, C59_rounding_refuted, C59_url, C60_page_is_the_body, C61_inline_styles, C61_sheets, C62_one_meaning_partial, C62_otherwise_refuted, C62_refused_refuted, C62_sheet_read_partial, C63_inline_read_partial, C63_semicolon_refuted, C65_numbers_partial, C66_layout_of_texts_partial, C66_loading_partial, C66_refused, C67_every_colour, C67_small_page, C67_written_is_seen_partial, C68_untouched_places_stay, C69_page_depends_on_history_refuted, C69_page_is_function_of_data_partial, C70_children_in_order, C70_page_can_be_read, C71_bound_image_follows_data_partial, C71_hidden_image_refuted, C71_image_draws_its_source_partial, C71_switched_source_refuted, C72_duration_writes_the_time_partial, C72_large_panics_refuted, C72_negative_panics_refuted, C72_other_values_unchanged, C72_page_shows_the_time_partial, C72_update_panics_refuted, C72_whole_seconds, C73_changed_values_use_current_transformers, C73_late_transformer_unused_refuted, C73_registered_transformer_applies_partial, C74_full_line_takes_two_refuted, C74_line_width, C74_narrower_is_not_lower, C74_short_text_takes_all_refuted, C74_smallest_size_is_nothing_refuted, C74_text_has_room_partial, C75_loading_succeeds, C75_one_outcome, C75_texts_load, C76_counted_pages_run, C76_endless_pages_run, C76_quiet_pages_run, C76_success_or_never, C76_tame_sessions_run, C76_update_succeeds, C76_updates_never_fail, C77_counted_pages_run, C77_quiet_pages_run, C77_template_shape, C77_texts_never_fail, C77_texts_run_or_never, C78_begins, C78_clock, C78_goes_on, C78_one_update, C78_plays, C78_single, C79_begins, C79_page_partial, C80_layout_style_stays, C80_same_again, C80_stays, C81_input, C82_any_frame_rate, C82_order, C82_time, C82_whole, C83_applied, C83_counts, C83_every_update, C83_no_layouts, C83_restyled, C83_same_run, C83_same_view, C84_follows_viewport_refuted, C84_new_viewport_partial, C84_root_box, C85_more_is_harmless, C85_other_fields_do_not_matter, C85_piped_list_refuted, C86_rules_without_elements, C87_contents_apart, C88_further_rules, C88_rules_are_local, C88_texts.
