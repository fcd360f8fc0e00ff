{
 "claims": [
  {
   "property": "C01",
   "status": "proved",
   "theorems": [
    "C01_rebind_no_op"
   ],
   "note": "File: PropBind.v"
  },
  {
   "property": "C02",
   "status": "proved",
   "theorems": [
    "C02_model_is_last_value"
   ],
   "note": "For shapes without lists directly inside lists (wf_shape). File: PropBind.v"
  },
  {
   "property": "C03",
   "status": "proved",
   "theorems": [
    "C03_every_change_reported_once"
   ],
   "note": "File: PropBind.v"
  },
  {
   "property": "C04",
   "status": "partial",
   "theorems": [
    "C04_binding_never_panics_refuted",
    "C04_binding_never_panics_partial"
   ],
   "note": "False as stated (C04_binding_never_panics_refuted: an array bound to a text shrinks); proved for values that fit the template. File: PropBind.v"
  },
  {
   "property": "C05",
   "status": "partial",
   "theorems": [
    "C05_null_shows_placeholder_refuted",
    "C05_null_item_shows_old_text_refuted",
    "C05_text_shows_current_value_partial",
    "C05_null_after_a_value_partial"
   ],
   "note": "False as stated for null (two refutations); proved for every non-null value after any fitting history, and for null once the field has had a value. File: PropTree.v"
  },
  {
   "property": "C06",
   "status": "partial",
   "theorems": [
    "C06_defined_pointers_resolve",
    "C06_template_pointers_resolve",
    "C06_leading_zero_refuted",
    "C06_inconsistent_refuted"
   ],
   "note": "Proved for every plain, consistently used pointer; refuted for a pointer token with a leading zero and for a name used both as list and scalar. File: PropSchema.v"
  },
  {
   "property": "C07",
   "status": "proved",
   "theorems": [
    "C07_one_call",
    "C07_message_is_determined",
    "C07_message_exists"
   ],
   "note": "File: PropEvents.v"
  },
  {
   "property": "C08",
   "status": "proved",
   "theorems": [
    "C08_shown_iff_last_visible",
    "C08_conditional_children_in_order"
   ],
   "note": "File: PropTree.v"
  },
  {
   "property": "C09",
   "status": "proved",
   "theorems": [
    "C09_one_repeat",
    "C09_repeat_shows_first_items",
    "C09_other_children_stay"
   ],
   "note": "File: PropTree.v"
  },
  {
   "property": "C10",
   "status": "partial",
   "theorems": [
    "C10_repeat_order_refuted",
    "C10_repeat_order_partial"
   ],
   "note": "False as stated (C10_repeat_order_refuted); proved for parents in which nothing follows the copies. File: PropTree.v"
  },
  {
   "property": "C11",
   "status": "proved",
   "theorems": [
    "C11_pieces_are_independent",
    "C11_attribute_is_its_pieces"
   ],
   "note": "File: PropTree.v"
  },
  {
   "property": "C12",
   "status": "proved",
   "theorems": [
    "C12_reactions_never_fail",
    "C12_loading_never_fails_late"
   ],
   "note": "File: PropTree.v"
  },
  {
   "property": "C13",
   "status": "partial",
   "theorems": [
    "C13_lookup_by_id_refuted",
    "C13_lookup_by_id_partial"
   ],
   "note": "False as stated (C13_lookup_by_id_refuted: stale ids); proved when no id attribute is bound. File: PropTree.v"
  },
  {
   "property": "C14",
   "status": "proved",
   "theorems": [
    "C14_names_are_lexical",
    "C14_locals_restored",
    "C14_duplicate_alias_leaks_refuted"
   ],
   "note": "For distinct alias names as the property says; C14_duplicate_alias_leaks_refuted shows the need. File: PropRender.v"
  },
  {
   "property": "C15",
   "status": "proved",
   "theorems": [
    "C15_rendered_tree_well_formed"
   ],
   "note": "File: PropRender.v"
  },
  {
   "property": "C16",
   "status": "proved",
   "theorems": [
    "C16_repeat_renders_count_copies",
    "C16_own_name_in_list_refuted"
   ],
   "note": "For loop names that do not occur as the head of the repeated list's path; C16_own_name_in_list_refuted shows the claim is false otherwise. File: PropRender.v"
  },
  {
   "property": "C17",
   "status": "proved",
   "theorems": [
    "C17_hover_is_under_mouse",
    "C17_hover_step",
    "C17_flags_change_only_by_events"
   ],
   "note": "File: PropEvents.v"
  },
  {
   "property": "C18",
   "status": "proved",
   "theorems": [
    "C18_enter_leave_alternate"
   ],
   "note": "File: PropEvents.v"
  },
  {
   "property": "C19",
   "status": "proved",
   "theorems": [
    "C19_one_focus",
    "C19_focus_blur_alternate",
    "C19_press_moves_focus",
    "C19_only_press_moves_focus",
    "C19_focus_goes_to_innermost_refuted"
   ],
   "note": "One focus at a time, moved only by presses. Finding C19_focus_goes_to_innermost_refuted: of nested inputs under the mouse the OUTER one gets the focus. File: PropEvents.v"
  },
  {
   "property": "C20",
   "status": "proved",
   "theorems": [
    "C20_active_iff_pressed",
    "C20_active_iff_pressed_now",
    "C20_active_step"
   ],
   "note": "File: PropEvents.v"
  },
  {
   "property": "C21",
   "status": "proved",
   "theorems": [
    "C21_keys_go_to_focus",
    "C21_events_call_their_handlers"
   ],
   "note": "File: PropEvents.v"
  },
  {
   "property": "C22",
   "status": "proved",
   "theorems": [
    "C22_click_is_press_and_release",
    "C22_no_click_while_dragging",
    "C22_click_happens",
    "C22_click_needs_left_press_refuted"
   ],
   "note": "The press may be of any button (C22_click_needs_left_press_refuted: right press then left release is a click). File: PropEvents.v"
  },
  {
   "property": "C23",
   "status": "partial",
   "theorems": [
    "C23_drag_protocol",
    "C23_dragstart",
    "C23_drop",
    "C23_drop_to_innermost",
    "C23_release_ends_drag_partial",
    "C23_release_ends_drag_refuted"
   ],
   "note": "False as stated: releasing over no drop target keeps the drag (C23_release_ends_drag_refuted); proved when a drop target is under the mouse. File: PropEvents.v"
  },
  {
   "property": "C24",
   "status": "partial",
   "theorems": [
    "C24_captured_iff_engaged",
    "C24_not_captured_means_quiet_partial",
    "C24_not_captured_means_quiet_refuted"
   ],
   "note": "First half proved; second half false as stated (C24_not_captured_means_quiet_refuted), proved for the events it does hold for. File: PropEvents.v"
  },
  {
   "property": "C25",
   "status": "proved",
   "theorems": [
    "C25_pointer_of_innermost"
   ],
   "note": "File: PropEvents.v"
  },
  {
   "property": "C26",
   "status": "proved",
   "theorems": [
    "C26_messages_of_one_update"
   ],
   "note": "File: PropEvents.v"
  },
  {
   "property": "C27",
   "status": "partial",
   "theorems": [
    "C27_box_is_half_open",
    "C27_pixel_boxes",
    "C27_adjacent_boxes_partial",
    "C27_adjacent_boxes_refuted"
   ],
   "note": "Half-open boxes proved for all finite floats, adjacency proved for pixel (integer) boxes up to 2^23; false for non-integer adjacent boxes (C27_adjacent_boxes_refuted). File: PropEvents.v"
  },
  {
   "property": "C28",
   "status": "partial",
   "theorems": [
    "C28_simple_selectors_partial",
    "C28_language_refuted",
    "C28_class_tab_refuted",
    "C28_language_dash_refuted",
    "C28_empty_value_refuted",
    "C28_root_refuted"
   ],
   "note": "False as stated (five refutations: |=, tabs between classes, empty ^= $= *=, :root); proved for every other selector and value. File: PropSelect.v"
  },
  {
   "property": "C29",
   "status": "partial",
   "theorems": [
    "C29_child_selectors_partial",
    "C29_pages_linked",
    "C29_combinators_mean_partial",
    "C29_plus_panics_refuted",
    "C29_adjacent_refuted",
    "C29_adjacent_too_far_refuted",
    "C29_descendant_refuted",
    "C29_sibling_refuted"
   ],
   "note": "False as stated ('+' looks two places back and panics in debug builds; descendant and '~' never match); proved for child combinators, and the meaning of every combinator in a release build. File: PropSelect.v"
  },
  {
   "property": "C30",
   "status": "partial",
   "theorems": [
    "C30_static_rules_partial",
    "C30_parent_class_refuted",
    "C30_class_flag_refuted"
   ],
   "note": "False as stated (a bound class on the parent, an on/off class); proved after any history for rules that do not depend on these. File: PropSelect.v"
  },
  {
   "property": "C31",
   "status": "partial",
   "theorems": [
    "C31_last_declaration_wins",
    "C31_rules_then_inline_style",
    "C31_page_partial",
    "C31_nothing_runs",
    "C31_specificity_refuted"
   ],
   "note": "False as stated (C31_specificity_refuted); proved after any history for elements on which no animation or transition runs and selectors read as CSS does; order of declarations proved for all inputs. File: PropStyle.v"
  },
  {
   "property": "C32",
   "status": "partial",
   "theorems": [
    "C32_order_free_partial",
    "C32_two_fonts_refuted"
   ],
   "note": "False as stated (C32_two_fonts_refuted); proved for sheets that give several values only to properties that take a list. File: PropStyle.v"
  },
  {
   "property": "C33",
   "status": "partial",
   "theorems": [
    "C33_nearest_definition",
    "C33_acyclic_computes",
    "C33_values_resolve",
    "C33_reference_shows_definition_partial",
    "C33_cycle_hangs_refuted",
    "C33_cycle_page_refuted",
    "C33_late_definition_refuted"
   ],
   "note": "False as stated (cycles hang; late definitions are not seen); proved: nearest definition, termination without cycles, resolution on every page of an update that ends. File: PropStyle.v"
  },
  {
   "property": "C34",
   "status": "partial",
   "theorems": [
    "C34_no_leak_partial",
    "C34_visibility_leaks_refuted",
    "C34_cursor_leaks_refuted",
    "C34_layout_leaks_refuted",
    "C34_animation_leaks_refuted"
   ],
   "note": "False as stated (visibility, cursor, layout, animations leak); proved for the properties that start afresh and for those a declaration gives. File: PropStyle.v"
  },
  {
   "property": "C35",
   "status": "partial",
   "theorems": [
    "C35_progress_in_range",
    "C35_never_decreases",
    "C35_single_iteration_never_decreases",
    "C35_first_iteration",
    "C35_delay",
    "C35_clock",
    "C35_paused",
    "C35_finished_stays",
    "C35_finished_at_end_partial",
    "C35_single_iteration_end",
    "C35_finished_at_end_refuted"
   ],
   "note": "range, order, first iteration, delay, clock, pause and the hold after the end for all timings; the end is 1 for one iteration or exactly adding durations, refuted for animation: 0.2s x 3 File: PropAnim.v"
  },
  {
   "property": "C36",
   "status": "partial",
   "theorems": [
    "C36_frames",
    "C36_interpolation_between",
    "C36_interpolation_follows",
    "C36_interpolation_forward",
    "C36_every_progress_refuted"
   ],
   "note": "frames, interpolation and absence of panics for all key frames and progresses; the progress is first cut to whole percents (refuted as CSS) File: PropAnim.v"
  },
  {
   "property": "C37",
   "status": "proved",
   "theorems": [
    "C37_colours_between",
    "C37_ends",
    "C37_channels_forward"
   ],
   "note": "File: PropAnim.v"
  },
  {
   "property": "C38",
   "status": "partial",
   "theorems": [
    "C38_starts_from_shown",
    "C38_reaches_target_partial",
    "C38_delay_refuted",
    "C38_no_duration_refuted",
    "C38_zero_length_refuted"
   ],
   "note": "start, between, target for transitions without delay; refuted: delay shows the new value first, no duration gives NaN, 0 to a length jumps File: PropAnim.v"
  },
  {
   "property": "C39",
   "status": "partial",
   "theorems": [
    "C39_counted_pages_end",
    "C39_endless_pages_end",
    "C39_update_ends_partial",
    "C39_quiet_pages_end",
    "C39_counted_animation_ends",
    "C39_endless_animation_ends",
    "C39_no_duration_refuted",
    "C39_short_duration_refuted",
    "C39_transition_refuted",
    "C39_stuck_animation_refuted",
    "C39_stuck_transition_refuted",
    "C39_one_outcome",
    "C39_one_run_ends",
    "C39_ends_or_never",
    "C39_tame_histories_end_partial"
   ],
   "note": "False as stated: refuted for endless animations with a duration <= 0 or gone round more than 2^26 times, for transitions without a start value and (C33) for custom properties that refer to themselves; proved: an update ends whenever none of these is at hand; every history ends of a page without animations and transitions, of a page whose animations count their laps, and (for up to 2^23 frames) of a page with endless animations no shorter than a frame. File: PropCounted.v, PropEnds.v, PropRun.v"
  },
  {
   "property": "C40",
   "status": "proved",
   "theorems": [
    "C40_geometry",
    "C40_pixel_sums",
    "C40_nearest_clip",
    "C40_opacity_shrinks",
    "C40_transparent_inside"
   ],
   "note": "Geometry and opacity as the floating-point sums and products along the ancestors; the exact sum for whole pixels up to 2^24. File: PropPlace.v"
  },
  {
   "property": "C41",
   "status": "partial",
   "theorems": [
    "C41_in_range_partial",
    "C41_wheel_turns",
    "C41_wheel_refuted",
    "C41_narrow_refuted"
   ],
   "note": "False as stated: content that overflows in one axis only is scrolled past the end of the other (C41_narrow_refuted), and the wheel does nothing on a page (C41_wheel_refuted); proved for content that fills the box. File: PropPlace.v"
  },
  {
   "property": "C42",
   "status": "partial",
   "theorems": [
    "C42_hex_partial",
    "C42_round_trip_partial",
    "C42_short_refuted"
   ],
   "note": "Six and eight digits proved; false for the short forms (C42_short_refuted: #123 is read as white). File: PropRead.v"
  },
  {
   "property": "C43",
   "status": "partial",
   "theorems": [
    "C43_no_line_break",
    "C43_lines_partial",
    "C43_text_kept_partial",
    "C43_leading_blank_refuted"
   ],
   "note": "No line break: proved for every template. Kept as is: proved for texts that do not begin with white space; C43_leading_blank_refuted shows the blank after an element is lost. File: PropRead.v"
  },
  {
   "property": "C44",
   "status": "partial",
   "theorems": [
    "C44_standard_names_partial",
    "C44_one_name",
    "C44_one_meaning",
    "C44_style_names_refuted",
    "C44_missing_names"
   ],
   "note": "One name per property and one property per name: proved. Standard names: proved except for the 22 misspelt and 2 nameless ones (C44_style_names_refuted, C44_missing_names). File: PropRead.v"
  },
  {
   "property": "C45",
   "status": "partial",
   "theorems": [
    "C45_boolean_partial",
    "C45_empty_object_refuted",
    "C45_count_partial",
    "C45_large_count_refuted",
    "C45_shown_counts",
    "C45_shown_apart",
    "C45_array"
   ],
   "note": "Booleans: false for the empty object (C45_empty_object_refuted), exact otherwise; counts exact up to 2^53, C45_large_count_refuted beyond. File: PropRead.v"
  },
  {
   "property": "C46",
   "status": "partial",
   "theorems": [
    "C46_rendering_ends_refuted",
    "C46_fuel_does_not_matter"
   ],
   "note": "False: C46_rendering_ends_refuted (a template that links to itself); proved: rendering that ends does not depend on the recursion bound, and ends exactly when the template has a finite meaning (C14_names_are_lexical). File: PropRender.v"
  },
  {
   "property": "C47",
   "status": "partial",
   "theorems": [
    "C47_attribute_shows_current_value_partial"
   ],
   "note": "Proved for non-null values of pieces written by one binding; null from the start keeps the placeholder as in C05. File: PropTree.v"
  },
  {
   "property": "C48",
   "status": "partial",
   "theorems": [
    "C48_tag_shows_current_value_partial"
   ],
   "note": "Proved for non-null values of attributes written by one binding. File: PropTree.v"
  },
  {
   "property": "C49",
   "status": "partial",
   "theorems": [
    "C49_visibility_null_refuted",
    "C49_visibility_follows_data_partial",
    "C49_null_after_a_value_partial"
   ],
   "note": "False as stated for null from the start (C49_visibility_null_refuted); proved otherwise. File: PropTree.v"
  },
  {
   "property": "C50",
   "status": "partial",
   "theorems": [
    "C50_nested_repeat_refuted",
    "C50_repeat_follows_data_partial"
   ],
   "note": "False as stated for nested repeats (C50_nested_repeat_refuted); proved for lists outside lists. File: PropTree.v"
  },
  {
   "property": "C51",
   "status": "partial",
   "theorems": [
    "C51_event_payload",
    "C51_numbers_told",
    "C51_state_told",
    "C51_event_position_refuted"
   ],
   "note": "Position is that of the END of the update: C51_event_position_refuted shows two moves in one update both report the last position. File: PropEvents.v"
  },
  {
   "property": "C52",
   "status": "proved",
   "theorems": [
    "C52_input_never_fails"
   ],
   "note": "File: PropEvents.v"
  },
  {
   "property": "C53",
   "status": "partial",
   "theorems": [
    "C53_keys_go_to_elements_on_the_page_refuted"
   ],
   "note": "False: C53_keys_go_to_elements_on_the_page_refuted (a focused element that was detached still receives keys). File: PropEvents.v"
  },
  {
   "property": "C54",
   "status": "proved",
   "theorems": [
    "C54_release_inside_out",
    "C54_move_inside_out"
   ],
   "note": "File: PropEvents.v"
  },
  {
   "property": "C55",
   "status": "partial",
   "theorems": [
    "C55_inline_style_follows_partial",
    "C55_constant_binding_refuted",
    "C55_flag_refuted"
   ],
   "note": "False for @style with a constant and for ?style; proved for every other element, after any history. File: PropDocument.v"
  },
  {
   "property": "C56",
   "status": "partial",
   "theorems": [
    "C56_same_as_longhands_partial",
    "C56_page_partial",
    "C56_gap_refuted",
    "C56_inset_refuted",
    "C56_border_background_refuted",
    "C56_position_refuted",
    "C56_animation_order_refuted",
    "C56_reset_refuted"
   ],
   "note": "False for gap with two values, inset with two or three, border with two, background with several, background-position with one, animation in other orders than duration (timing (delay or count)) name, and for the longhands a shorthand leaves out, which CSS resets (refutations); proved for every other shorthand and value list, for any surrounding declarations. File: PropValues.v"
  },
  {
   "property": "C57",
   "status": "partial",
   "theorems": [
    "C57_lengths_partial",
    "C57_em_refuted",
    "C57_currentcolor_refuted"
   ],
   "note": "False for 'em' outside font-size and for currentcolor (refutations); proved for all other units up to rounding, and for em relative to the parent. File: PropValues.v"
  },
  {
   "property": "C58",
   "status": "partial",
   "theorems": [
    "C58_inherited_partial",
    "C58_not_inherited",
    "C58_text_like_its_element",
    "C58_inheritance_refuted",
    "C58_display_none_refuted"
   ],
   "note": "False for visibility, text-align, cursor; display:none is not a value; proved for colour, font, pointer events, opacity, backgrounds and for texts. File: PropValues.v"
  },
  {
   "property": "C59",
   "status": "partial",
   "theorems": [
    "C59_rgb",
    "C59_bytes",
    "C59_rgba_partial",
    "C59_percent_partial",
    "C59_rgb_page",
    "C59_rgba_page_partial",
    "C59_url",
    "C59_rounding_refuted"
   ],
   "note": "Exact for whole numbers; fractions and opacity are cut instead of rounded (C59_rounding_refuted). File: PropValues.v"
  },
  {
   "property": "C60",
   "status": "proved",
   "theorems": [
    "C60_page_is_the_body",
    "C60_templates_exist"
   ],
   "note": "For templates whose names are used cleanly (the hypotheses of C14, C16). File: PropDocument.v"
  },
  {
   "property": "C61",
   "status": "proved",
   "theorems": [
    "C61_sheets",
    "C61_inline_styles",
    "C61_templates"
   ],
   "note": "File: PropLoad.v"
  },
  {
   "property": "C62",
   "status": "partial",
   "theorems": [
    "C62_sheet_read_partial",
    "C62_one_meaning_partial",
    "C62_refused_refuted",
    "C62_otherwise_refuted"
   ],
   "note": "Proved for every text in the written form of SpecSheet.v; CSS that bumaga refuses or reads otherwise is listed in C62_refused_refuted and C62_otherwise_refuted. File: PropLoad.v"
  },
  {
   "property": "C63",
   "status": "partial",
   "theorems": [
    "C63_inline_read_partial",
    "C63_semicolon_refuted"
   ],
   "note": "Proved for declarations that all end in a semicolon; C63_semicolon_refuted shows what is silently dropped otherwise. File: PropLoad.v"
  },
  {
   "property": "C64",
   "status": "partial",
   "theorems": [
    "C64_template_read_partial",
    "C64_one_meaning_partial",
    "C64_refused_refuted",
    "C64_otherwise_refuted"
   ],
   "note": "Proved for every text in the written form of SpecTemplate.v; HTML that bumaga refuses or reads otherwise is listed in C64_refused_refuted and C64_otherwise_refuted. File: PropLoad.v"
  },
  {
   "property": "C65",
   "status": "partial",
   "theorems": [
    "C65_numbers_partial"
   ],
   "note": "Proved for decimals without sign +, exponent or superfluous zeros (those are refused, C62). File: PropLoad.v"
  },
  {
   "property": "C66",
   "status": "partial",
   "theorems": [
    "C66_loading_partial",
    "C66_layout_of_texts_partial",
    "C66_refused"
   ],
   "note": "Proved for texts in the written forms of SpecSheet.v and SpecTemplate.v; C66_refused for all texts. File: PropLoad.v"
  },
  {
   "property": "C67",
   "status": "partial",
   "theorems": [
    "C67_written_is_seen_partial",
    "C67_small_page",
    "C67_every_colour"
   ],
   "note": "For texts in the written forms, tidy styles and the elements of C31; C67_small_page and C67_every_colour hold for every history of a page with one element. File: PropSeen.v"
  },
  {
   "property": "C68",
   "status": "proved",
   "theorems": [
    "C68_untouched_places_stay"
   ],
   "note": "File: PropLocal.v"
  },
  {
   "property": "C69",
   "status": "partial",
   "theorems": [
    "C69_page_depends_on_history_refuted",
    "C69_page_is_function_of_data_partial"
   ],
   "note": "False for null (C69_page_depends_on_history_refuted); proved for the places decided by the data: scalars other than null and zero fractions, lists outside lists, each written by one binding; order of children where repeats stand last. File: PropLocal.v"
  },
  {
   "property": "C70",
   "status": "proved",
   "theorems": [
    "C70_page_can_be_read",
    "C70_children_in_order"
   ],
   "note": "File: PropWalk.v"
  },
  {
   "property": "C71",
   "status": "partial",
   "theorems": [
    "C71_image_draws_its_source_partial",
    "C71_bound_image_follows_data_partial",
    "C71_switched_source_refuted",
    "C71_hidden_image_refuted"
   ],
   "note": "False for <img ?src={a}> (C71_switched_source_refuted), and an invisible image is still drawn (C71_hidden_image_refuted); proved for every other image. File: PropImage.v"
  },
  {
   "property": "C72",
   "status": "partial",
   "theorems": [
    "C72_duration_writes_the_time_partial",
    "C72_whole_seconds",
    "C72_text_is_one_time",
    "C72_other_values_unchanged",
    "C72_page_shows_the_time_partial",
    "C72_negative_panics_refuted",
    "C72_large_panics_refuted",
    "C72_update_panics_refuted"
   ],
   "note": "False for negative numbers and from 2^64 seconds on: the transformer and with it the update panic (C72_negative_panics_refuted, C72_large_panics_refuted, C72_update_panics_refuted); proved for all other numbers. File: PropPipe.v"
  },
  {
   "property": "C73",
   "status": "partial",
   "theorems": [
    "C73_registered_transformer_applies_partial",
    "C73_changed_values_use_current_transformers",
    "C73_late_transformer_unused_refuted"
   ],
   "note": "False for values passed before the registration (C73_late_transformer_unused_refuted); proved for registrations before the first update and for every later change. Texts only; null excepted as in C05. File: PropPipe.v"
  },
  {
   "property": "C74",
   "status": "partial",
   "theorems": [
    "C74_text_has_room_partial",
    "C74_narrower_is_not_lower",
    "C74_any_fonts",
    "C74_line_width",
    "C74_full_line_takes_two_refuted",
    "C74_short_text_takes_all_refuted",
    "C74_smallest_size_is_nothing_refuted"
   ],
   "note": "The count of lines is proved where the text is not negative or longer than 2^23 lines; not minimal for texts that fill their line (C74_full_line_takes_two_refuted); short texts take all the width (C74_short_text_takes_all_refuted); nothing is reserved under min-content (C74_smallest_size_is_nothing_refuted). File: PropFont.v"
  },
  {
   "property": "C75",
   "status": "proved",
   "theorems": [
    "C75_one_outcome",
    "C75_loading_succeeds",
    "C75_read_names",
    "C75_texts_load"
   ],
   "note": "File: PropRun.v, PropTotal.v"
  },
  {
   "property": "C76",
   "status": "proved",
   "theorems": [
    "C76_counted_pages_run",
    "C76_endless_pages_run",
    "C76_success_or_never",
    "C76_tame_sessions_run",
    "C76_updates_never_fail",
    "C76_update_succeeds",
    "C76_quiet_pages_run"
   ],
   "note": "No update of a page whose data fit ever fails; every session of the pages of C39 (no animations and transitions; counted animations; endless animations no shorter than a frame, for up to 2^23 frames) succeeds. Hypothesis: cyclic custom properties are excluded by a rank (C33); in a debug build no rule contains a sibling combinator (C30). File: PropRun.v, PropTotal.v"
  },
  {
   "property": "C77",
   "status": "proved",
   "theorems": [
    "C77_texts_run_or_never",
    "C77_counted_pages_run",
    "C77_template_shape",
    "C77_texts_never_fail",
    "C77_quiet_pages_run"
   ],
   "note": "File: PropRun.v, PropShape.v"
  },
  {
   "property": "C78",
   "status": "proved",
   "theorems": [
    "C78_one_update",
    "C78_begins",
    "C78_clock",
    "C78_plays",
    "C78_single",
    "C78_goes_on"
   ],
   "note": "For pages C31 speaks of (fair: rules whose selectors the crate keeps up to date, one value where a property takes one), key frames not before 0% and animations with a duration above zero; the transitions of the element are of properties that take one value. File: PropMove.v"
  },
  {
   "property": "C79",
   "status": "partial",
   "theorems": [
    "C79_begins",
    "C79_page_partial"
   ],
   "note": "For one transition of a property with one value and no animation on the element, without a delay (with a delay the claim is false: C38). File: PropMove.v"
  },
  {
   "property": "C80",
   "status": "proved",
   "theorems": [
    "C80_same_again",
    "C80_stays",
    "C80_layout_style_stays"
   ],
   "note": "File: PropSame.v"
  },
  {
   "property": "C81",
   "status": "proved",
   "theorems": [
    "C81_input"
   ],
   "note": "File: PropInput.v"
  },
  {
   "property": "C82",
   "status": "proved",
   "theorems": [
    "C82_time",
    "C82_order",
    "C82_whole",
    "C82_any_frame_rate"
   ],
   "note": "File: PropInput.v"
  },
  {
   "property": "C83",
   "status": "proved",
   "theorems": [
    "C83_same_view",
    "C83_same_run",
    "C83_every_update",
    "C83_counts",
    "C83_restyled",
    "C83_applied",
    "C83_no_layouts"
   ],
   "note": "File: PropMetrics.v"
  },
  {
   "property": "C84",
   "status": "partial",
   "theorems": [
    "C84_root_box",
    "C84_new_viewport_partial",
    "C84_follows_viewport_refuted"
   ],
   "note": "Proved for viewports of which both sides are new, and exactly for every history (C84_root_box); false when one side keeps its length (C84_follows_viewport_refuted). File: PropViewport.v"
  },
  {
   "property": "C85",
   "status": "proved",
   "theorems": [
    "C85_other_fields_do_not_matter",
    "C85_more_is_harmless",
    "C85_piped_list_refuted"
   ],
   "note": "For lists that do not as a whole pass through a transformer; C85_piped_list_refuted shows the need. File: PropUsed.v"
  },
  {
   "property": "C86",
   "status": "proved",
   "theorems": [
    "C86_rules_without_elements"
   ],
   "note": "For rules without ids, classes and attributes in their selectors. File: PropIdle.v"
  },
  {
   "property": "C87",
   "status": "proved",
   "theorems": [
    "C87_contents_apart"
   ],
   "note": "File: PropApart.v"
  },
  {
   "property": "C88",
   "status": "proved",
   "theorems": [
    "C88_rules_are_local",
    "C88_further_rules",
    "C88_texts"
   ],
   "note": "For elements that C31 speaks of: no running animation or transition, selectors read as CSS does. File: PropApart.v"
  }
 ]
}