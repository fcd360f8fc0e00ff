{
 "C02": [
  "proved",
  "For shapes without lists directly inside lists (wf_shape)."
 ],
 "C04": [
  "partial",
  "False as stated (C04_binding_never_panics_refuted: an array bound to a text shrinks); proved for values that fit the template."
 ],
 "C14": [
  "proved",
  "For distinct alias names as the property says; C14_duplicate_alias_leaks_refuted shows the need."
 ],
 "C16": [
  "proved",
  "For loop names that do not occur as the head of the repeated list's path; C16_own_name_in_list_refuted shows the claim is false otherwise."
 ],
 "C46": [
  "partial",
  "False: C46_rendering_ends_refuted (a template that links to itself); proved: rendering that ends does not depend on the recursion bound, and ends exactly when the template has a finite meaning (C14_names_are_lexical)."
 ],
 "C05": [
  "partial",
  "False as stated for null (two refutations); proved for every non-null value after any fitting history, and for null once the field has had a value."
 ],
 "C10": [
  "partial",
  "False as stated (C10_repeat_order_refuted); proved for parents in which nothing follows the copies."
 ],
 "C13": [
  "partial",
  "False as stated (C13_lookup_by_id_refuted: stale ids); proved when no id attribute is bound."
 ],
 "C47": [
  "partial",
  "Proved for non-null values of pieces written by one binding; null from the start keeps the placeholder as in C05."
 ],
 "C48": [
  "partial",
  "Proved for non-null values of attributes written by one binding."
 ],
 "C49": [
  "partial",
  "False as stated for null from the start (C49_visibility_null_refuted); proved otherwise."
 ],
 "C50": [
  "partial",
  "False as stated for nested repeats (C50_nested_repeat_refuted); proved for lists outside lists."
 ],
 "C06": [
  "partial",
  "Proved for every plain, consistently used pointer; refuted for a pointer token with a leading zero and for a name used both as list and scalar."
 ],
 "C19": [
  "proved",
  "One focus at a time, moved only by presses. Finding C19_focus_goes_to_innermost_refuted: of nested inputs under the mouse the OUTER one gets the focus."
 ],
 "C22": [
  "proved",
  "The press may be of any button (C22_click_needs_left_press_refuted: right press then left release is a click)."
 ],
 "C23": [
  "partial",
  "False as stated: releasing over no drop target keeps the drag (C23_release_ends_drag_refuted); proved when a drop target is under the mouse."
 ],
 "C24": [
  "partial",
  "First half proved; second half false as stated (C24_not_captured_means_quiet_refuted), proved for the events it does hold for."
 ],
 "C27": [
  "partial",
  "Half-open boxes proved for all finite floats, adjacency proved for pixel (integer) boxes up to 2^23; false for non-integer adjacent boxes (C27_adjacent_boxes_refuted)."
 ],
 "C51": [
  "partial",
  "Position is that of the END of the update: C51_event_position_refuted shows two moves in one update both report the last position."
 ],
 "C53": [
  "partial",
  "False: C53_keys_go_to_elements_on_the_page_refuted (a focused element that was detached still receives keys)."
 ],
 "C28": [
  "partial",
  "False as stated (five refutations: |=, tabs between classes, empty ^= $= *=, :root); proved for every other selector and value."
 ],
 "C29": [
  "partial",
  "False as stated ('+' looks two places back and panics in debug builds; descendant and '~' never match); proved for child combinators, and the meaning of every combinator in a release build."
 ],
 "C30": [
  "partial",
  "False as stated (a bound class on the parent, an on/off class); proved after any history for rules that do not depend on these."
 ],
 "C31": [
  "partial",
  "False as stated (C31_specificity_refuted); proved after any history for elements on which no animation or transition runs and selectors read as CSS does; order of declarations proved for all inputs."
 ],
 "C32": [
  "partial",
  "False as stated (C32_two_fonts_refuted); proved for sheets that give several values only to properties that take a list."
 ],
 "C33": [
  "partial",
  "False as stated (cycles hang; late definitions are not seen); proved: nearest definition, termination without cycles, resolution on every page of an update that ends."
 ],
 "C34": [
  "partial",
  "False as stated (visibility, cursor, layout, animations leak); proved for the properties that start afresh and for those a declaration gives."
 ],
 "C55": [
  "partial",
  "False for @style with a constant and for ?style; proved for every other element, after any history."
 ],
 "C60": [
  "proved",
  "For templates whose names are used cleanly (the hypotheses of C14, C16)."
 ],
 "C56": [
  "partial",
  "False for gap with two values, inset with two or three, border with two, background with several, background-position with one, animation in other orders than duration (timing (delay or count)) name, and for the longhands a shorthand leaves out, which CSS resets (refutations); proved for every other shorthand and value list, for any surrounding declarations."
 ],
 "C57": [
  "partial",
  "False for 'em' outside font-size and for currentcolor (refutations); proved for all other units up to rounding, and for em relative to the parent."
 ],
 "C58": [
  "partial",
  "False for visibility, text-align, cursor; display:none is not a value; proved for colour, font, pointer events, opacity, backgrounds and for texts."
 ],
 "C59": [
  "partial",
  "Exact for whole numbers; fractions and opacity are cut instead of rounded (C59_rounding_refuted)."
 ],
 "C35": [
  "partial",
  "range, order, first iteration, delay, clock, pause and the hold after the end for all timings; the end is 1 for one iteration or exactly adding durations, refuted for animation: 0.2s x 3"
 ],
 "C36": [
  "partial",
  "frames, interpolation and absence of panics for all key frames and progresses; the progress is first cut to whole percents (refuted as CSS)"
 ],
 "C38": [
  "partial",
  "start, between, target for transitions without delay; refuted: delay shows the new value first, no duration gives NaN, 0 to a length jumps"
 ],
 "C39": [
  "partial",
  "False as stated: refuted for endless animations with a duration <= 0 or gone round more than 2^26 times, for transitions without a start value and (C33) for custom properties that refer to themselves; proved: an update ends whenever none of these is at hand; every history ends of a page without animations and transitions, of a page whose animations count their laps, and (for up to 2^23 frames) of a page with endless animations no shorter than a frame."
 ],
 "C40": [
  "proved",
  "Geometry and opacity as the floating-point sums and products along the ancestors; the exact sum for whole pixels up to 2^24."
 ],
 "C41": [
  "partial",
  "False as stated: content that overflows in one axis only is scrolled past the end of the other (C41_narrow_refuted), and the wheel does nothing on a page (C41_wheel_refuted); proved for content that fills the box."
 ],
 "C62": [
  "partial",
  "Proved for every text in the written form of SpecSheet.v; CSS that bumaga refuses or reads otherwise is listed in C62_refused_refuted and C62_otherwise_refuted."
 ],
 "C63": [
  "partial",
  "Proved for declarations that all end in a semicolon; C63_semicolon_refuted shows what is silently dropped otherwise."
 ],
 "C64": [
  "partial",
  "Proved for every text in the written form of SpecTemplate.v; HTML that bumaga refuses or reads otherwise is listed in C64_refused_refuted and C64_otherwise_refuted."
 ],
 "C65": [
  "partial",
  "Proved for decimals without sign +, exponent or superfluous zeros (those are refused, C62)."
 ],
 "C66": [
  "partial",
  "Proved for texts in the written forms of SpecSheet.v and SpecTemplate.v; C66_refused for all texts."
 ],
 "C42": [
  "partial",
  "Six and eight digits proved; false for the short forms (C42_short_refuted: #123 is read as white)."
 ],
 "C43": [
  "partial",
  "No line break: proved for every template. Kept as is: proved for texts that do not begin with white space; C43_leading_blank_refuted shows the blank after an element is lost."
 ],
 "C44": [
  "partial",
  "One name per property and one property per name: proved. Standard names: proved except for the 22 misspelt and 2 nameless ones (C44_style_names_refuted, C44_missing_names)."
 ],
 "C45": [
  "partial",
  "Booleans: false for the empty object (C45_empty_object_refuted), exact otherwise; counts exact up to 2^53, C45_large_count_refuted beyond."
 ],
 "C67": [
  "partial",
  "For texts in the written forms, tidy styles and the elements of C31; C67_small_page and C67_every_colour hold for every history of a page with one element."
 ],
 "C69": [
  "partial",
  "False for null (C69_page_depends_on_history_refuted); proved for the places decided by the data: scalars other than null and zero fractions, lists outside lists, each written by one binding; order of children where repeats stand last."
 ],
 "C71": [
  "partial",
  "False for <img ?src={a}> (C71_switched_source_refuted), and an invisible image is still drawn (C71_hidden_image_refuted); proved for every other image."
 ],
 "C72": [
  "partial",
  "False for negative numbers and from 2^64 seconds on: the transformer and with it the update panic (C72_negative_panics_refuted, C72_large_panics_refuted, C72_update_panics_refuted); proved for all other numbers."
 ],
 "C73": [
  "partial",
  "False for values passed before the registration (C73_late_transformer_unused_refuted); proved for registrations before the first update and for every later change. Texts only; null excepted as in C05."
 ],
 "C74": [
  "partial",
  "The count of lines is proved where the text is not negative or longer than 2^23 lines; not minimal for texts that fill their line (C74_full_line_takes_two_refuted); short texts take all the width (C74_short_text_takes_all_refuted); nothing is reserved under min-content (C74_smallest_size_is_nothing_refuted)."
 ],
 "C78": [
  "proved",
  "For pages C31 speaks of (fair: rules whose selectors the crate keeps up to date, one value where a property takes one), key frames not before 0% and animations with a duration above zero; the transitions of the element are of properties that take one value."
 ],
 "C79": [
  "partial",
  "For one transition of a property with one value and no animation on the element, without a delay (with a delay the claim is false: C38)."
 ],
 "C84": [
  "partial",
  "Proved for viewports of which both sides are new, and exactly for every history (C84_root_box); false when one side keeps its length (C84_follows_viewport_refuted)."
 ],
 "C85": [
  "proved",
  "For lists that do not as a whole pass through a transformer; C85_piped_list_refuted shows the need."
 ],
 "C86": [
  "proved",
  "For rules without ids, classes and attributes in their selectors."
 ],
 "C88": [
  "proved",
  "For elements that C31 speaks of: no running animation or transition, selectors read as CSS does."
 ],
 "C76": [
  "proved",
  "No update of a page whose data fit ever fails; every session of the pages of C39 (no animations and transitions; counted animations; endless animations no shorter than a frame, for up to 2^23 frames) succeeds. Hypothesis: cyclic custom properties are excluded by a rank (C33); in a debug build no rule contains a sibling combinator (C30)."
 ]
}