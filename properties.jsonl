{"id": "C01", "title": "Re-binding the same value is a no-op", "statement": "If View::update is called twice in a row with the same value, the second call changes no bound text, attribute, tag, visibility or repeat: binding the value a second time produces no reaction and leaves the stored model unchanged.", "quantifier": "every stored model, every value that bind accepts, every set of bindings", "why_tests_cant": "values are arbitrary nested JSON; the claim is about all of them and all stored models", "anchors": ["src/view_model.rs:ViewModel::bind", "src/view_model.rs:ViewModel::bind_value", "src/view_model.rs:ViewModel::react"]}
{"id": "C02", "title": "The bound model depends only on the last value", "statement": "After any sequence of updates with values that fit the shape the template implies (arrays where the template repeats, objects where it takes fields), the stored model is the projection of the last value onto the template's schema; earlier values leave no trace.", "quantifier": "every schema built by the template, every finite sequence of conforming values", "why_tests_cant": "history independence ranges over all sequences of values", "anchors": ["src/view_model.rs:ViewModel::bind_value", "src/view_model.rs:ViewModel::memorize_array_default", "src/view_model.rs:Schema"]}
{"id": "C03", "title": "Every change is reported to its bindings", "statement": "When an update changes the stored value at a scalar position that a text, attribute, tag or visibility binding names, that binding receives exactly one reaction in that update, carrying the new value after its transformers; a position whose value did not change produces none.", "quantifier": "every model, value, binding map and transformer table", "why_tests_cant": "completeness and exactness over all positions of all trees", "anchors": ["src/view_model.rs:ViewModel::bind_value", "src/view_model.rs:ViewModel::react", "src/view_model.rs:Binding::react_value_change"]}
{"id": "C04", "title": "Binding a value never crashes", "statement": "View::update does not panic while binding, whatever JSON value the application passes.", "quantifier": "every template schema, every history of JSON values", "why_tests_cant": "all JSON values and histories; the failure needs a particular pair of consecutive values", "anchors": ["src/view_model.rs:ViewModel::bind_value"]}
{"id": "C05", "title": "Shown text equals the current value", "statement": "After every update, a text span bound to a field shows the string form of the field's current value.", "quantifier": "every history of updates, every bound field", "why_tests_cant": "needs a history quantification: stale text appears only after particular sequences", "anchors": ["src/view_model.rs:ViewModel::bind_value", "src/view.rs:View::update_tree", "src/element.rs:TextContent"]}
{"id": "C06", "title": "The schema resolves every pointer the template uses", "statement": "After a template is rendered, every pointer that was defined resolves in the initial model, and defining further pointers that use positions consistently (index against name) never makes an earlier pointer unresolvable.", "quantifier": "every sequence of pointers", "why_tests_cant": "all sequences of definitions and all pointer strings", "anchors": ["src/view_model.rs:Schema::define_value", "src/view_model.rs:Schema::field", "src/view_model.rs:Schema::index"]}
{"id": "C07", "title": "Message format", "statement": "A handler whose event fires on its element appends exactly one message: the first argument's string form is the key; with no further argument the message is the string key, with one it is {key: argument}, with more it is {key: [arguments]}; an element without that handler appends nothing.", "quantifier": "every element, handler, argument list, event, stored model", "why_tests_cant": "all argument lists and JSON values", "anchors": ["src/view_model.rs:ViewModel::emit"]}
{"id": "C08", "title": "Conditional elements keep document order", "statement": "Showing and hiding conditional elements in any order keeps the shown children of a parent in the order of the template, and an element is among the children exactly when its last reaction was 'visible'.", "quantifier": "every parent, every finite sequence of show/hide reactions", "why_tests_cant": "all sequences of reactions", "anchors": ["src/view.rs:View::update_tree"]}
{"id": "C09", "title": "Repeat shows exactly the first items", "statement": "After a repeat reaction exactly the first min(length, count) copies are attached, each once, and the other copies of the block are detached; children outside the block are not touched.", "quantifier": "every child list in which the block's attached copies are a prefix of the block, every cursor", "why_tests_cant": "all window positions and all lengths, over all histories of lengths", "anchors": ["src/view_model.rs:Binding::react_value_change", "src/view.rs:View::update_tree"]}
{"id": "C10", "title": "Repeat keeps document order", "statement": "After any sequence of repeat reactions the attached children appear in template order.", "quantifier": "every parent, every sequence of array lengths", "why_tests_cant": "the failure needs a history (shrink then grow) together with a following sibling", "anchors": ["src/view.rs:View::update_tree"]}
{"id": "C11", "title": "Attribute and text spans are independent", "statement": "Setting one bound span of an attribute or text replaces that span only; the attribute value/text is always the concatenation of the spans in template order.", "quantifier": "every list of spans, every index, every text, every sequence of settings", "why_tests_cant": "all sequences of span updates", "anchors": ["src/element.rs:TextContent", "src/view.rs:View::update_tree"]}
{"id": "C12", "title": "Reactions of a rendered view never fail", "statement": "For a view rendered from a template, every reaction produced by binding refers to an existing node of the right kind (text nodes for text, children ranges inside the parent's children), so applying it returns Ok.", "quantifier": "every template, every value history", "why_tests_cant": "well-formedness of all rendered trees", "anchors": ["src/rendering.rs:Renderer::render", "src/view.rs:View::update_tree"]}
{"id": "C13", "title": "Looking an element up by id", "statement": "get_element_by_id returns an element only if its current id attribute is that id.", "quantifier": "every sequence of updates of a bound id attribute", "why_tests_cant": "a history property", "anchors": ["src/view.rs:View::get_element_by_id", "src/view.rs:View::update_tree"]}
{"id": "C14", "title": "Template locals are scoped", "statement": "Rendering an element (aliases, repeats, templates) restores the set of local names: a name introduced inside is not visible to following siblings and outer names are restored.", "quantifier": "every template with distinct alias names, nested arbitrarily", "why_tests_cant": "all templates; structural induction", "anchors": ["src/rendering.rs:Renderer::render_element"]}
{"id": "C15", "title": "Rendering produces a well-formed tree", "statement": "Every rendered node has a unique identity, its parent link agrees with its parent's child list, the definition list equals the initial child list, and every binding refers to rendered nodes and in-range children.", "quantifier": "every template", "why_tests_cant": "all templates; structural induction", "anchors": ["src/rendering.rs:Renderer::render", "src/rendering.rs:Renderer::render_element", "src/rendering.rs:Renderer::render_text"]}
{"id": "C16", "title": "A repeat renders its count of copies", "statement": "A repeated element renders exactly count copies, the n-th bound to item n of the array.", "quantifier": "every template, count and locals", "why_tests_cant": "all counts and nestings", "anchors": ["src/rendering.rs:Renderer::render_element"]}
{"id": "C17", "title": "Hover flag tracks the mouse", "statement": "After every update an element's hover flag is set exactly when it is in the set of elements under the mouse computed by the last mouse move.", "quantifier": "every tree, every event sequence, every sequence of updates", "why_tests_cant": "an invariant over all event histories", "anchors": ["src/view_model.rs:ViewModel::handle_elements_input"]}
{"id": "C18", "title": "Mouse enter and leave alternate", "statement": "Per element, onmouseenter and onmouseleave strictly alternate, starting with enter, and onmousemove is delivered only between an enter and the next leave.", "quantifier": "every tree, event history and element", "why_tests_cant": "trace property over all histories", "anchors": ["src/view_model.rs:ViewModel::handle_elements_input"]}
{"id": "C19", "title": "At most one focused element", "statement": "At every moment at most one element has the focus flag, it is the one keyboard events are sent to, and onfocus/onblur alternate per element.", "quantifier": "every tree, event history", "why_tests_cant": "an invariant over all event histories", "anchors": ["src/view_model.rs:ViewModel::handle_elements_input"]}
{"id": "C20", "title": "Active flag lasts from press to release", "statement": "An element is active exactly while it is in the set of pressed elements; after a mouse button release no element is active.", "quantifier": "every tree, event history", "why_tests_cant": "an invariant over all event histories", "anchors": ["src/view_model.rs:ViewModel::handle_elements_input"]}
{"id": "C21", "title": "Keyboard events go to the focus only", "statement": "Key and character events are delivered only to the focused element, and to nobody when there is no focus; they change no element state.", "quantifier": "every tree, event history", "why_tests_cant": "all event histories", "anchors": ["src/view_model.rs:ViewModel::handle_elements_input"]}
{"id": "C22", "title": "A click is a press and a release over the element", "statement": "onclick is delivered to an element only on a left button release while the element is under the mouse, was pressed since the last release, and no drag is in progress.", "quantifier": "every tree, event history", "why_tests_cant": "trace property over all event histories", "anchors": ["src/view_model.rs:ViewModel::handle_elements_input"]}
{"id": "C23", "title": "Drag and drop protocol", "statement": "ondrop and ondragend come in pairs after an ondragstart, the drag ends at the first drop target under the mouse; dragenter/over/leave are delivered only during a drag; releasing the button ends the drag.", "quantifier": "every tree, event history", "why_tests_cant": "trace property over all event histories", "anchors": ["src/view_model.rs:ViewModel::handle_elements_input"]}
{"id": "C24", "title": "Input capture report", "statement": "Output.is_input_captured is true exactly when some element is under the mouse, pressed, focused or dragged; if it is false no handler other than those for leaving/blur/release ran in reaction to the events.", "quantifier": "every tree, event history", "why_tests_cant": "all event histories", "anchors": ["src/view_model.rs:ViewModel::handle_output"]}
{"id": "C25", "title": "Pointer shape", "statement": "Output.pointer is the pointer of the last (innermost, latest) element under the mouse that has a non-auto pointer, and the default when there is none.", "quantifier": "every tree, event list", "why_tests_cant": "all trees and event lists", "anchors": ["src/view_model.rs:ViewModel::handle_output"]}
{"id": "C26", "title": "Messages belong to one update", "statement": "The messages returned by an update are exactly those produced by that update's events; none is lost or delivered twice.", "quantifier": "every sequence of updates", "why_tests_cant": "history property", "anchors": ["src/view_model.rs:ViewModel::handle_output"]}
{"id": "C27", "title": "Hit testing", "statement": "The elements under the mouse are exactly the attached, visible elements with pointer events whose half-open box contains the point, in document order, each at most once; a point on the common edge of two adjacent boxes is in exactly one of them.", "quantifier": "every tree, every point, every box", "why_tests_cant": "all trees and all float coordinates", "anchors": ["src/view_model.rs:ViewModel::calculate_mouse_hovers", "src/view_model.rs:hovers"]}
{"id": "C28", "title": "Simple selectors match as in CSS", "statement": "All, type, id, class, attribute ([a], =, ~=, ^=, $=, *=, |=) and pseudo-class selectors match an element exactly as the CSS Selectors specification says.", "quantifier": "every element and selector", "why_tests_cant": "all strings for names, values and attributes", "anchors": ["src/css/matching.rs:match_simple_selector", "src/view.rs:ViewElementMatcher"]}
{"id": "C29", "title": "Combinators match as in CSS", "statement": "A complex selector with child and adjacent-sibling combinators matches an element exactly when the chain of elements the combinators describe exists and each compound matches.", "quantifier": "every tree, selector and element", "why_tests_cant": "all trees and selectors", "anchors": ["src/css/matching.rs:match_complex_selector", "src/css/matching.rs:find_next_target"]}
{"id": "C30", "title": "Static style classification is sound", "statement": "Deciding at load time which rules can never or always apply to an element gives, at every later update, the same set of matching rules as matching all rules afresh.", "quantifier": "every view, style sheet, and every sequence of state, class, id and attribute changes through bindings", "why_tests_cant": "all sheets and all dynamic states", "anchors": ["src/view.rs:View::calculate_elements_stylesheet", "src/view.rs:View::apply_styles"]}
{"id": "C31", "title": "Cascade: the later declaration wins", "statement": "Among the declarations that apply to an element the last one for a property determines its computed value; inline style overrides rules.", "quantifier": "every list of declarations", "why_tests_cant": "all declaration lists", "anchors": ["src/styles/mod.rs:Cascade::apply_styles", "src/styles/compute_style.rs:compute_style"]}
{"id": "C32", "title": "Computed style does not depend on hash order", "statement": "The element produced by applying the computed style is the same for every iteration order of the computed property map.", "quantifier": "every computed style, every permutation", "why_tests_cant": "hash iteration order is random per process; all permutations", "anchors": ["src/styles/mod.rs:Cascade::apply_styles", "src/styles/apply.rs:apply_element_style"]}
{"id": "C33", "title": "Custom properties", "statement": "A variable reference takes the value of the nearest definition on the element or an ancestor, and resolving style always terminates.", "quantifier": "every set of variable definitions, every nesting", "why_tests_cant": "termination over all definition graphs", "anchors": ["src/styles/mod.rs:Cascade::compute_shorthand", "src/view.rs:View::apply_styles"]}
{"id": "C34", "title": "No style leaks from the previous update", "statement": "The style of an element after an update depends only on the rules that match now (and its ancestors, clock and scroll), not on rules that matched earlier.", "quantifier": "every element, every pair of histories ending in the same matches", "why_tests_cant": "history property over all rule sets", "anchors": ["src/styles/default.rs:reset_element_style", "src/styles/mod.rs:Cascade::apply_styles"]}
{"id": "C35", "title": "Animation progress stays in range", "statement": "For a positive duration, animation progress is always in [0,1], never decreases within an iteration, and a finished finite animation stays at its end.", "quantifier": "every duration, delay, iteration count and sequence of frame times", "why_tests_cant": "all float frame times; invariant over time", "anchors": ["src/animation.rs:Animator::update"]}
{"id": "C36", "title": "Animation frames", "statement": "Playing an animation track at any progress in [0,1] yields the interpolation between the two neighbouring key frames and never panics.", "quantifier": "every track with frames at 0 and 100, every progress", "why_tests_cant": "all tracks and float times", "anchors": ["src/animation.rs:Animator::play_track", "src/styles/compute_animation_tracks.rs"]}
{"id": "C37", "title": "Interpolated colours stay between the endpoints", "statement": "Each channel of an interpolated colour lies between the channels of the two endpoints for every progress in [0,1], and equals the endpoint at 0 and 1.", "quantifier": "every pair of colours, every float in [0,1]", "why_tests_cant": "2^24 x 2^24 x all floats", "anchors": ["src/animation.rs:animate"]}
{"id": "C38", "title": "Transitions reach their target", "statement": "A transition started by a property change is at the old value at time 0, stays between old and new, and once its duration has passed the element has the new value.", "quantifier": "every duration and sequence of frame times", "why_tests_cant": "all sequences of frame times", "anchors": ["src/animation.rs:Transition::play", "src/animation.rs:Transition::init_after_style_applied"]}
{"id": "C39", "title": "Each update terminates", "statement": "View::update finishes for every style sheet, every value and every frame time.", "quantifier": "every input, style sheet and elapsed time", "why_tests_cant": "non-termination cannot be observed by a finite test", "anchors": ["src/animation.rs:Animator::update", "src/animation.rs:Transition::play", "src/styles/mod.rs:Cascade::compute_shorthand"]}
{"id": "C40", "title": "Final geometry composes along the tree", "statement": "An element's final position is the sum of its ancestors' local offsets minus their scroll offsets, its opacity the product of the ancestors' own opacities, its clip region the layout of the nearest scrolling ancestor.", "quantifier": "every tree and layout", "why_tests_cant": "all trees", "anchors": ["src/view.rs:View::compute_final_positions"]}
{"id": "C41", "title": "Scrolling stays inside the content", "statement": "The scroll offset of each axis always stays between 0 and the overflow of that axis.", "quantifier": "every sequence of wheel events and layout changes", "why_tests_cant": "history property over floats", "anchors": ["src/styles/scrolling.rs"]}
{"id": "C42", "title": "Hex colours", "statement": "Reading #rrggbb gives the three channels and opaque alpha, #rrggbbaa all four; writing any colour in hex and reading it back gives the same colour; the short forms #rgb are read per CSS.", "quantifier": "every colour / every hex string", "why_tests_cant": "2^32 colours and all strings", "anchors": ["src/css/reader.rs:read_color"]}
{"id": "C43", "title": "Text whitespace", "statement": "The source line breaks and indentation of text content collapse: the text spans contain no line break, and a text without line break is kept as is.", "quantifier": "every text content", "why_tests_cant": "all strings", "anchors": ["src/html/reader.rs:parse_content"]}
{"id": "C44", "title": "Property names", "statement": "Every CSS property name in the supported list is recognised and two different names never denote the same property; the standard names are accepted.", "quantifier": "every property key", "why_tests_cant": "completeness over the whole table", "anchors": ["src/css/model.rs:PropertyKey"]}
{"id": "C45", "title": "JSON value reading", "statement": "The boolean, string and array readings of a JSON value are total and agree with each other (falsy values are exactly null, false, zero, the empty string and the empty array/object as documented by the code).", "quantifier": "every JSON value", "why_tests_cant": "all JSON values", "anchors": ["src/value.rs:ValueExtensions"]}
{"id": "C46", "title": "Loading a template ends", "statement": "View::from_html finishes for every document, also when templates link to each other.", "quantifier": "every document and set of templates", "why_tests_cant": "non-termination of the recursive rendering cannot be observed by a finite test, and every document is meant", "anchors": ["src/rendering.rs:render_node", "src/html/reader.rs:as_template_link"]}
{"id": "C47", "title": "Bound attributes show the current value", "statement": "After every update, a piece of an attribute bound to a field shows the string form of the field's current value, and the attribute is the concatenation of its pieces.", "quantifier": "every history of updates, every bound attribute piece that no other binding writes", "why_tests_cant": "Tests run a few histories; the claim is about every sequence of values, including shrinking and growing lists.", "anchors": ["src/view.rs:update_tree", "src/view_model.rs:react_value_change"]}
{"id": "C48", "title": "On/off attributes follow the data", "statement": "After every update an element has an on/off attribute exactly when the boolean reading of the field's current value is true.", "quantifier": "every history of updates, every tag binding", "why_tests_cant": "Depends on the whole history of values.", "anchors": ["src/view.rs:update_tree", "src/view_model.rs:react_value_change"]}
{"id": "C49", "title": "Conditional elements follow the data", "statement": "After every update a conditional element is attached exactly when the boolean reading of the field's current value is what its condition asks for.", "quantifier": "every history of updates, every conditional element", "why_tests_cant": "Depends on the whole history of values and on every order of showing and hiding.", "anchors": ["src/view.rs:update_tree", "src/view.rs:apply_default_bindings_state"]}
{"id": "C50", "title": "Repeats follow the data", "statement": "After every update the number of attached copies of a repeat is the length of the current list, up to the copies the template has.", "quantifier": "every history of updates, every repeat", "why_tests_cant": "Depends on the whole history of list lengths.", "anchors": ["src/view.rs:update_tree", "src/view_model.rs:bind_value"]}
{"id": "C51", "title": "Event payload", "statement": "Every message an element sends because of an input event carries, wherever its handler asks for it, the element's laid-out position and size and the mouse position of the update in which the event happened (as the same real numbers, null for what JSON cannot write), and the active/checked/focus/hover state of the element at that moment: entered and moved-over elements are hovered, left ones are not, a pressed one is active, a focused one has the focus, a blurred one has not, everything else is as before the event.", "quantifier": "every session, every input event, every handler", "why_tests_cant": "Depends on the whole interaction history and layout; every element and event combination is involved.", "anchors": ["src/view_model.rs:emit", "src/view_model.rs:handle_elements_input", "src/element.rs:ElementState", "src/view_model.rs:EventTarget"]}
{"id": "C52", "title": "Handling input never fails", "statement": "Once the data has been bound and the elements placed, handling the input events of an update never fails, panics or diverges, whatever the events and the page.", "quantifier": "every session, every sequence of input events, every page", "why_tests_cant": "Unbounded pages, histories and event sequences.", "anchors": ["src/view_model.rs:handle_elements_input", "src/view_model.rs:emit"]}
{"id": "C53", "title": "Keys only reach elements on the page", "statement": "A key event only calls handlers of an element that is attached to the page.", "quantifier": "every session, every key event", "why_tests_cant": "Depends on the history of focus and of conditional elements.", "anchors": ["src/view_model.rs:handle_elements_input"]}
{"id": "C54", "title": "Events bubble inside-out", "statement": "When several elements lie under the mouse, a move or release is delivered to the inner (later drawn) elements before the outer ones.", "quantifier": "every session, every page, every move or release", "why_tests_cant": "Ranges over all page shapes and layouts.", "anchors": ["src/view_model.rs:handle_elements_input", "src/view_model.rs:calculate_mouse_hovers"]}
{"id": "C55", "title": "Inline styles follow the attribute", "statement": "After every update the inline style of an element is what its style attribute says, also when the attribute is bound to data.", "quantifier": "every document, every history of updates, every element", "why_tests_cant": "Depends on the whole history of values of the bound attribute.", "anchors": ["src/view.rs:update_tree", "src/rendering.rs:render_node"]}
{"id": "C56", "title": "Shorthand properties", "statement": "A shorthand declaration (margin, padding, inset, border, border-width/color/radius, overflow, gap, background, background-position, transition, animation) has exactly the effect of the longhand declarations CSS defines for it.", "quantifier": "every shorthand, every list of values, every surrounding block of declarations", "why_tests_cant": "All shorthands, value lists and positions in a block.", "anchors": ["src/styles/compute_style.rs:compute_style"]}
{"id": "C57", "title": "Lengths and relative values", "statement": "A length shows as the number of pixels CSS gives it: px as is, em relative to the element's font size (the parent's for font-size), rem to the root's, vw/vh/vmin/vmax to the viewport; currentcolor is the element's colour.", "quantifier": "every property that takes a length, every unit and number, every page and viewport", "why_tests_cant": "All numbers, units and nestings.", "anchors": ["src/styles/apply.rs:parse_dimension_length", "src/styles/apply.rs:resolve_color"]}
{"id": "C58", "title": "Inheritance", "statement": "A property nothing is declared for shows the parent's value if CSS inherits it and its initial value otherwise; a text shows in the colour and font of its element.", "quantifier": "every page, history, element and property", "why_tests_cant": "All pages and histories.", "anchors": ["src/styles/inherit.rs", "src/styles/default.rs", "src/view.rs:apply_styles"]}
{"id": "C59", "title": "Colour and image functions", "statement": "rgb() and rgba() give the colour whose channels are the arguments, percentages being parts of 255, rounded and clamped to a byte; on the page a colour property with such a value shows that colour, and background-image: url(path) shows the image of that path.", "quantifier": "every argument", "why_tests_cant": "All floating point arguments.", "anchors": ["src/styles/compute_function.rs:compute_function"]}
{"id": "C60", "title": "The page is the document's body", "statement": "Loading a document shows its first body with every link replaced by the last template of that name defined before the body; nothing else in the document matters; every element on the page carries what the template says and is attached unless a condition decides about it.", "quantifier": "every document", "why_tests_cant": "All documents, templates and nestings.", "anchors": ["src/view.rs:from_html", "src/rendering.rs:render_node", "src/html/reader.rs:as_template_link"]}
{"id": "C61", "title": "Reading ends for every text", "statement": "Reading any text as a template or a style sheet gives a result or an error, never a panic or an endless loop; reading any text as an inline style always gives declarations.", "quantifier": "every text", "why_tests_cant": "All texts, of any length and nesting.", "anchors": ["src/html/reader.rs:read_html", "src/css/reader.rs:read_css", "src/css/reader.rs:read_inline_css", "src/css/css.pest", "src/html/html.pest"]}
{"id": "C62", "title": "Style sheets are read as written", "statement": "However a style sheet is laid out (white space, comments, line breaks), loading it gives exactly the rules it was written from: selectors, properties and values in their order, and the last animation of each name.", "quantifier": "every style sheet and every layout of it", "why_tests_cant": "All sheets and all ways of writing each.", "anchors": ["src/css/reader.rs:read_css", "src/css/css.pest"]}
{"id": "C63", "title": "Inline styles are read as written", "statement": "However an inline style is laid out, it is read as the declarations it was written from.", "quantifier": "every list of declarations and every layout of it", "why_tests_cant": "All declarations and all ways of writing them.", "anchors": ["src/css/reader.rs:read_inline_css"]}
{"id": "C64", "title": "Templates are read as written", "statement": "However a template is laid out, it is read as the elements, attributes, bindings and texts it was written from, and a text is a way of writing only one template.", "quantifier": "every template and every layout of it", "why_tests_cant": "All templates, nestings and layouts.", "anchors": ["src/html/reader.rs:read_html", "src/html/html.pest"]}
{"id": "C65", "title": "Numbers in style sheets", "statement": "A number in a style sheet is the single-precision number nearest to the decimal that is written; lengths, percentages and times are made from it by their unit.", "quantifier": "every decimal, of any number of digits", "why_tests_cant": "All decimals.", "anchors": ["src/css/reader.rs:read_number", "src/css/reader.rs:read_dimension", "src/css/reader.rs:read_percentage", "src/css/reader.rs:read_seconds"]}
{"id": "C66", "title": "Loading a page from texts", "statement": "Loading the texts of a template and a style sheet gives the page of the template and the sheet they were written from; white space and comments make no difference; if a text cannot be read nothing is loaded.", "quantifier": "every template, sheet and layout of their texts", "why_tests_cant": "All templates and texts.", "anchors": ["src/view.rs:from_html"]}
{"id": "C67", "title": "What is written is seen", "statement": "From the texts of a template and a style sheet to the screen: after any history of data and input, an element shows the last value that its attribute style (constant or bound to data) gives to a property; every colour written as #rrggbbaa in the style of an element is the colour it shows.", "quantifier": "every template, sheet, layout of their texts, history and property; every colour", "why_tests_cant": "All texts, histories, properties and values, through reading, rendering, binding, cascade and application.", "anchors": ["src/view.rs:from_html", "src/view.rs:update", "src/css/reader.rs:read_inline_css", "src/rendering.rs:render_node"]}
{"id": "C68", "title": "Only what changed changes", "statement": "An update changes only the texts, attributes and lists of children that are bound to data whose value changed since the previous update; everything else on the page stays as it was.", "quantifier": "every page, history of updates, last and new value of the data", "why_tests_cant": "All pages and all pairs of values: a test looks at a few places after a few changes.", "anchors": ["src/view.rs:update", "src/view.rs:update_tree", "src/view_model.rs:bind_value"]}
{"id": "C69", "title": "The page is a function of the data", "statement": "Two views of the same page that were updated through different histories ending with the same data show the same texts, attributes and children.", "quantifier": "every page, every two histories of data and input, every final value", "why_tests_cant": "Two arbitrary histories are compared; a test runs one.", "anchors": ["src/view.rs:update", "src/view.rs:update_tree", "src/view_model.rs:bind_value", "src/value.rs:eval_string"]}
{"id": "C70", "title": "The page can be read", "statement": "After any history of updates an application that draws the page, starting with the body and going through the children of every fragment, meets no panic, comes to an end and sees every element attached below the body exactly once and in order.", "quantifier": "every page, every history of data and input", "why_tests_cant": "The shape of the tree after every possible history; a cycle or a dangling child would only show after particular sequences.", "anchors": ["src/view.rs:body", "src/view.rs:Fragment::children", "src/view.rs:update_tree"]}
{"id": "C71", "title": "An image shows its source", "statement": "After any history of updates, and whatever the style sheet says, an <img> element draws exactly one picture, the one its attribute src names now; an image whose source is bound draws what the last data name.", "quantifier": "every page with images, every style sheet, every history of data and input", "why_tests_cant": "The picture is kept in a hidden child of the element that data updates, the cascade and animations all pass over; whether it still agrees with the attribute depends on the whole history.", "anchors": ["src/controls/img.rs", "src/rendering.rs:render_bg_image", "src/view.rs:update_tree", "src/view.rs:apply_styles"]}
{"id": "C72", "title": "duration writes times", "statement": "The built-in transformer `duration` turns every number of seconds into a text that writes that time, rounded to the nearest nanosecond, in the largest unit that fits and without superfluous digits; other values pass unchanged, and a text bound through it shows, after any history, the time the last data give.", "quantifier": "every JSON number, every page and history", "why_tests_cant": "Ranges over all doubles and integers; rounding, carry into the next unit and trailing zeros are corner cases that examples miss.", "anchors": ["src/view_model.rs:default_transformers", "src/view_model.rs:duration"]}
{"id": "C73", "title": "Registered transformers are used", "statement": "A transformer registered with View::pipe is used by every binding that names it: a text bound through a name shows what the function registered last under that name makes of the value, whenever it was registered.", "quantifier": "every page, every sequence of registrations and updates", "why_tests_cant": "Depends on the order of registrations and updates in unbounded sessions.", "anchors": ["src/view.rs:pipe", "src/view_model.rs:react", "src/view_model.rs:react_value_change"]}
{"id": "C74", "title": "Room for texts", "statement": "With the default fonts a text gets enough lines to hold it at the width it is given, at most one more than necessary, and a narrower box never makes it less high; one line of it is as wide as its characters. With any fonts of the application a known width or height is taken as it is, and the fonts are asked for the other.", "quantifier": "every text, font size and width", "why_tests_cant": "Floating-point rounding of the quotient and its floor decide the number of lines; all widths and lengths count.", "anchors": ["src/fonts.rs:DummyFonts::measure", "src/view.rs:measure_text"]}
{"id": "C75", "title": "Loading succeeds", "statement": "Two texts that can be read make a page: if every link names a template of the document and no template contains itself, View::from_html returns a view for every style sheet (in a debug build: without the combinator '+'); rendering, the default data, the rules of every element and the default state of all conditions never fail.", "quantifier": "every document and style sheet", "why_tests_cant": "Nesting of templates, repetitions and conditions is unbounded; each test loads one document.", "anchors": ["src/view.rs:from_html", "src/rendering.rs:Renderer::render", "src/view_model.rs:Schema", "src/view.rs:apply_default_bindings_state", "src/view.rs:calculate_elements_stylesheet"]}
{"id": "C76", "title": "Updates never fail", "statement": "View::update neither returns an error nor panics, for every page, style sheet (with its animations and transitions), history, time and events, as long as the data fit the template and the registered transformers do not fail; on a page without animations and transitions and without self-referring custom properties every session of updates succeeds.", "quantifier": "every document, style sheet, history of fitting data, times and events", "why_tests_cant": "A panic may hide behind any combination of key frames, selectors, bindings, hidden elements and input; histories are unbounded.", "anchors": ["src/view.rs:update", "src/view.rs:apply_styles", "src/view.rs:compute_final_positions", "src/animation.rs:play_track", "src/css/matching.rs", "src/view_model.rs:handle_output"]}
{"id": "C77", "title": "The data a template takes", "statement": "When the names used by a template (in texts, attributes, conditions, loops, aliases and handlers, across templates) are the places of one shape of data, the page starts with exactly the data of that shape: every name is there, nothing else is, a repeated list has as many items as its loop, every scalar is null. So two texts that can be read, with finite links, make a page that loads and never fails in any session with data of that shape.", "quantifier": "every document and style sheet, every shape of data, every history", "why_tests_cant": "Templates, loops and names nest without bound; whether updates are safe depends on the whole schema, which no finite set of documents determines.", "anchors": ["src/view_model.rs:Schema", "src/rendering.rs:Renderer", "src/view.rs:from_html", "src/view.rs:update"]}
{"id": "C78", "title": "Animations play on the page", "statement": "After any history an update shows an element as its rules say, with the key frames of its animations put on top in the order they are listed, each at the progress that the times since it appeared give it; an animation begins at 0 with the update that gives it, is advanced by exactly the time of each following update, and one without key frames stands still. Properties that no key frame mentions show what the rules give.", "quantifier": "every document, style sheet, history of data, events and times, element and property", "why_tests_cant": "The clock of an animation depends on all updates since it appeared, and the shown value on cascade, inheritance, custom properties and all other animations of the element.", "anchors": ["src/view.rs:update", "src/view.rs:apply_styles", "src/styles/mod.rs:apply_styles", "src/animation.rs:Animator::play", "src/animation.rs:Animator::update"]}
{"id": "C79", "title": "Transitions play on the page", "statement": "A property with a transition and no delay keeps showing its value while the value stays; in the update in which the rules give another value it still shows the old one, then values between the old and the new one, and the new one from the moment the duration has passed since the change.", "quantifier": "every document, style sheet, history, element, property with one value, pair of values and sequence of times", "why_tests_cant": "Whether a transition starts, and from what value, depends on the whole history of the element; times and values are unbounded.", "anchors": ["src/view.rs:apply_styles", "src/styles/mod.rs:apply_styles", "src/animation.rs:Transition::play", "src/animation.rs:Transition::init_after_style_applied"]}
{"id": "C80", "title": "Updates that change nothing show the same page", "statement": "If an update is followed by further updates with the same data and viewport, and the states of the elements (under the mouse, pressed, focused, checked) stay the same, every element without running animations or transitions on it or on its ancestors shows exactly what it showed: each property and each entry of a list. Applying the rules again to an element that already has their values changes nothing, however often it happens.", "quantifier": "every document, style sheet, history, data, number of repeated updates, element, property and list entry", "why_tests_cant": "The rules are applied in each update onto what the last one left in the element, some properties being reset and some kept; whether any page drifts is a fixed point question over all sheets and histories.", "anchors": ["src/view.rs:update", "src/view.rs:apply_styles", "src/styles/mod.rs:apply_styles", "src/styles/default.rs:reset_element_style"]}
{"id": "C81", "title": "An input is what the application has put into it", "statement": "However an application builds an input, the update sees the time of its last call of time (zero if none), the viewport of its last call of viewport (800 x 600 if none), and the events of its last call of events followed in order by those added by later calls of event.", "quantifier": "every sequence of builder calls", "why_tests_cant": "Sequences of calls are unbounded and their order matters.", "anchors": ["src/input.rs:Input::new", "src/input.rs:Input::time", "src/input.rs:Input::viewport", "src/input.rs:Input::events", "src/input.rs:Input::event"]}
{"id": "C82", "title": "Any frame time is a proper time", "statement": "Every Duration an application passes becomes a finite, non-negative number of seconds within one part in four millions of the exact time; up to half a year whole seconds are exact and longer times are not seen as shorter. So the progress of an animation lies between 0 and 1 at every frame rate.", "quantifier": "every Duration and every sequence of Durations", "why_tests_cant": "There are 2^64 * 10^9 durations, and the conversion rounds four times.", "anchors": ["src/input.rs:Input", "src/styles/mod.rs:apply_styles", "src/animation.rs:Animator::update"]}
{"id": "C83", "title": "The counters count what they say", "statement": "Counting never changes a view or its output. Every call of update is counted, failed ones too, and no counter goes back. After a successful update the elements shown are those below the body, the cascades those elements that have a style of their own, the layouts those of them whose layout style is another one than before, and the applied and refused values the properties whose winning declaration has, or has not, a meaning. A page updated with the same data, viewport and states asks for no further layout.", "quantifier": "every page, style sheet, history of updates and input; failures at any point", "why_tests_cant": "The counts must agree with the page for every document and history, and the absence of relayouts with every number of repeated updates.", "anchors": ["src/metrics.rs:ViewMetrics", "src/styles/stats.rs:CascadeStats", "src/view.rs:update", "src/view.rs:apply_styles", "src/view.rs:compute_final_positions_and_clipping", "src/styles/mod.rs:apply_styles"]}
{"id": "C84", "title": "The page's box is the viewport", "statement": "The root of the page is as large as the viewport of the last update, whatever the data, the events and the style sheet are. (It is after the first update and whenever both sides are new; a window of which one side keeps its length is not noticed.)", "quantifier": "every document, style sheet and history of updates", "why_tests_cant": "The size depends on the whole history of viewports and must survive everything else an update does.", "anchors": ["src/view.rs:update", "src/input.rs:Input::viewport"]}
{"id": "C85", "title": "Only the data a template names matters", "statement": "Two sessions of one page with the same inputs, whose data agree on every field the template names (the same scalars, lists of the same length), show the same pages, send the same messages and succeed or fail alike, whatever else the data contain; in particular an application may always pass more than the template takes. (False for a list that as a whole goes through a transformer, which is given the items as they are.)", "quantifier": "every document, style sheet, pair of histories with agreeing data and input", "why_tests_cant": "It relates two unbounded histories and quantifies over everything the other fields may contain.", "anchors": ["src/view_model.rs:bind_value", "src/view_model.rs:react", "src/view.rs:update"]}
{"id": "C86", "title": "Rules for elements the page does not have", "statement": "Rules whose selectors ask for kinds of elements that a page does not have (alone, under others, or in a state such as :hover) may stand anywhere in its style sheet without effect: the page loads to the same view and every session with it gives the same pages, messages, reports, failures. (For rules without ids, classes and attributes.)", "quantifier": "every document, style sheet, number and position of further rules, and history of updates", "why_tests_cant": "It compares two style sheets over every page and session; order of rules matters to the cascade, so inserting any number anywhere needs an argument.", "anchors": ["src/view.rs:calculate_elements_stylesheet", "src/css/matching.rs:match_complex_selector", "src/view.rs:from_html"]}
{"id": "C87", "title": "What a page contains does not depend on its style sheet", "statement": "Two views of one document with different style sheets, given the same data update for update (whatever the events, times, viewports and layouts are), have the same elements in the same places with the same tags, texts, attributes, listeners, inline styles and ids.", "quantifier": "every document, two style sheets, histories of events, viewports and layouts with the same data", "why_tests_cant": "It compares two programs over every page and history: that no update reads back what styling or layout has written is a non-interference property.", "anchors": ["src/view.rs:from_html", "src/view.rs:update", "src/view.rs:update_tree", "src/view_model.rs:bind"]}
{"id": "C88", "title": "Rules change only what they select", "statement": "If two views of one document with different style sheets are updated side by side with the same data and viewports, and the rules of both sheets that apply to some elements and to the elements above them say the same in each update in which they are on the page, then these elements look the same: each property and each entry of a list, however different the rules for the rest of the page are. (For elements that C31 speaks of, without running animations.)", "quantifier": "every document, two style sheets, set of elements closed under parents, history, property and list entry", "why_tests_cant": "It compares two sheets over every page and history; a rule could leak through variables, inherited values, kept values or the order of application.", "anchors": ["src/view.rs:apply_styles", "src/styles/mod.rs:apply_styles", "src/styles/inherit.rs:inherit", "src/styles/default.rs:reset_element_style"]}
