#!/usr/bin/env python3
# Writes /verif/properties.jsonl. One entry per semantic property.
import json
P=[]
def p(title, statement, quantifier, why, anchors):
    P.append(dict(id="C%02d"%(len(P)+1), title=title, statement=statement, quantifier=quantifier, why_tests_cant=why, anchors=anchors))
VM="src/view_model.rs"; V="src/view.rs"; R="src/rendering.rs"
p("Re-binding the same value is a no-op",
  "If View::update is called twice in a row with the same value, the second call changes no bound text, attribute, tag, visibility or repeat: binding the value a second time produces no reaction and leaves the stored model unchanged.",
  "every stored model, every value that bind accepts, every set of bindings",
  "values are arbitrary nested JSON; the claim is about all of them and all stored models",
  [VM+":ViewModel::bind", VM+":ViewModel::bind_value", VM+":ViewModel::react"])
p("The bound model depends only on the last value",
  "After any sequence of updates with values that fit the shape the template implies (arrays where the template repeats, objects where it takes fields), the stored model is the projection of the last value onto the template's schema; earlier values leave no trace.",
  "every schema built by the template, every finite sequence of conforming values",
  "history independence ranges over all sequences of values",
  [VM+":ViewModel::bind_value", VM+":ViewModel::memorize_array_default", VM+":Schema"])
p("Every change is reported to its bindings",
  "When an update changes the stored value at a scalar position that a text, attribute, tag or visibility binding names, that binding receives exactly one reaction in that update, carrying the new value after its transformers; a position whose value did not change produces none.",
  "every model, value, binding map and transformer table",
  "completeness and exactness over all positions of all trees",
  [VM+":ViewModel::bind_value", VM+":ViewModel::react", VM+":Binding::react_value_change"])
p("Binding a value never crashes",
  "View::update does not panic while binding, whatever JSON value the application passes.",
  "every template schema, every history of JSON values",
  "all JSON values and histories; the failure needs a particular pair of consecutive values",
  [VM+":ViewModel::bind_value"])
p("Shown text equals the current value",
  "After every update, a text span bound to a field shows the string form of the field's current value.",
  "every history of updates, every bound field",
  "needs a history quantification: stale text appears only after particular sequences",
  [VM+":ViewModel::bind_value", V+":View::update_tree", "src/element.rs:TextContent"])
p("The schema resolves every pointer the template uses",
  "After a template is rendered, every pointer that was defined resolves in the initial model, and defining further pointers that use positions consistently (index against name) never makes an earlier pointer unresolvable.",
  "every sequence of pointers",
  "all sequences of definitions and all pointer strings",
  [VM+":Schema::define_value", VM+":Schema::field", VM+":Schema::index"])
p("Message format",
  "A handler whose event fires on its element appends exactly one message: the first argument's string form is the key; with no further argument the message is the string key, with one it is {key: argument}, with more it is {key: [arguments]}; an element without that handler appends nothing.",
  "every element, handler, argument list, event, stored model",
  "all argument lists and JSON values",
  [VM+":ViewModel::emit"])
p("Conditional elements keep document order",
  "Showing and hiding conditional elements in any order keeps the shown children of a parent in the order of the template, and an element is among the children exactly when its last reaction was 'visible'.",
  "every parent, every finite sequence of show/hide reactions",
  "all sequences of reactions",
  [V+":View::update_tree"])
p("Repeat shows exactly the first items",
  "After a repeat reaction exactly the first min(length, count) copies are attached, each once, and the other copies of the block are detached; children outside the block are not touched.",
  "every child list in which the block's attached copies are a prefix of the block, every cursor",
  "all window positions and all lengths, over all histories of lengths",
  [VM+":Binding::react_value_change", V+":View::update_tree"])
p("Repeat keeps document order",
  "After any sequence of repeat reactions the attached children appear in template order.",
  "every parent, every sequence of array lengths",
  "the failure needs a history (shrink then grow) together with a following sibling",
  [V+":View::update_tree"])
p("Attribute and text spans are independent",
  "Setting one bound span of an attribute or text replaces that span only; the attribute value/text is always the concatenation of the spans in template order.",
  "every list of spans, every index, every text, every sequence of settings",
  "all sequences of span updates",
  ["src/element.rs:TextContent", V+":View::update_tree"])
p("Reactions of a rendered view never fail",
  "For a view rendered from a template, every reaction produced by binding refers to an existing node of the right kind (text nodes for text, children ranges inside the parent's children), so applying it returns Ok.",
  "every template, every value history",
  "well-formedness of all rendered trees",
  [R+":Renderer::render", V+":View::update_tree"])
p("Looking an element up by id",
  "get_element_by_id returns an element only if its current id attribute is that id.",
  "every sequence of updates of a bound id attribute",
  "a history property",
  [V+":View::get_element_by_id", V+":View::update_tree"])
p("Template locals are scoped",
  "Rendering an element (aliases, repeats, templates) restores the set of local names: a name introduced inside is not visible to following siblings and outer names are restored.",
  "every template with distinct alias names, nested arbitrarily",
  "all templates; structural induction",
  [R+":Renderer::render_element"])
p("Rendering produces a well-formed tree",
  "Every rendered node has a unique identity, its parent link agrees with its parent's child list, the definition list equals the initial child list, and every binding refers to rendered nodes and in-range children.",
  "every template",
  "all templates; structural induction",
  [R+":Renderer::render", R+":Renderer::render_element", R+":Renderer::render_text"])
p("A repeat renders its count of copies",
  "A repeated element renders exactly count copies, the n-th bound to item n of the array.",
  "every template, count and locals",
  "all counts and nestings",
  [R+":Renderer::render_element"])
p("Hover flag tracks the mouse",
  "After every update an element's hover flag is set exactly when it is in the set of elements under the mouse computed by the last mouse move.",
  "every tree, every event sequence, every sequence of updates",
  "an invariant over all event histories",
  [VM+":ViewModel::handle_elements_input"])
p("Mouse enter and leave alternate",
  "Per element, onmouseenter and onmouseleave strictly alternate, starting with enter, and onmousemove is delivered only between an enter and the next leave.",
  "every tree, event history and element",
  "trace property over all histories",
  [VM+":ViewModel::handle_elements_input"])
p("At most one focused element",
  "At every moment at most one element has the focus flag, it is the one keyboard events are sent to, and onfocus/onblur alternate per element.",
  "every tree, event history",
  "an invariant over all event histories",
  [VM+":ViewModel::handle_elements_input"])
p("Active flag lasts from press to release",
  "An element is active exactly while it is in the set of pressed elements; after a mouse button release no element is active.",
  "every tree, event history",
  "an invariant over all event histories",
  [VM+":ViewModel::handle_elements_input"])
p("Keyboard events go to the focus only",
  "Key and character events are delivered only to the focused element, and to nobody when there is no focus; they change no element state.",
  "every tree, event history",
  "all event histories",
  [VM+":ViewModel::handle_elements_input"])
p("A click is a press and a release over the element",
  "onclick is delivered to an element only on a left button release while the element is under the mouse, was pressed since the last release, and no drag is in progress.",
  "every tree, event history",
  "trace property over all event histories",
  [VM+":ViewModel::handle_elements_input"])
p("Drag and drop protocol",
  "ondrop and ondragend come in pairs after an ondragstart, the drag ends at the first drop target under the mouse; dragenter/over/leave are delivered only during a drag; releasing the button ends the drag.",
  "every tree, event history",
  "trace property over all event histories",
  [VM+":ViewModel::handle_elements_input"])
p("Input capture report",
  "Output.is_input_captured is true exactly when some element is under the mouse, pressed, focused or dragged; if it is false no handler other than those for leaving/blur/release ran in reaction to the events.",
  "every tree, event history",
  "all event histories",
  [VM+":ViewModel::handle_output"])
p("Pointer shape",
  "Output.pointer is the pointer of the last (innermost, latest) element under the mouse that has a non-auto pointer, and the default when there is none.",
  "every tree, event list",
  "all trees and event lists",
  [VM+":ViewModel::handle_output"])
p("Messages belong to one update",
  "The messages returned by an update are exactly those produced by that update's events; none is lost or delivered twice.",
  "every sequence of updates",
  "history property",
  [VM+":ViewModel::handle_output"])
p("Hit testing",
  "The elements under the mouse are exactly the attached, visible elements with pointer events whose half-open box contains the point, in document order, each at most once; a point on the common edge of two adjacent boxes is in exactly one of them.",
  "every tree, every point, every box",
  "all trees and all float coordinates",
  [VM+":ViewModel::calculate_mouse_hovers", VM+":hovers"])
p("Simple selectors match as in CSS",
  "All, type, id, class, attribute ([a], =, ~=, ^=, $=, *=, |=) and pseudo-class selectors match an element exactly as the CSS Selectors specification says.",
  "every element and selector",
  "all strings for names, values and attributes",
  ["src/css/matching.rs:match_simple_selector", V+":ViewElementMatcher"])
p("Combinators match as in CSS",
  "A complex selector with child and adjacent-sibling combinators matches an element exactly when the chain of elements the combinators describe exists and each compound matches.",
  "every tree, selector and element",
  "all trees and selectors",
  ["src/css/matching.rs:match_complex_selector", "src/css/matching.rs:find_next_target"])
p("Static style classification is sound",
  "Deciding at load time which rules can never or always apply to an element gives, at every later update, the same set of matching rules as matching all rules afresh.",
  "every view, style sheet, and every sequence of state, class, id and attribute changes through bindings",
  "all sheets and all dynamic states",
  [V+":View::calculate_elements_stylesheet", V+":View::apply_styles"])
p("Cascade: the later declaration wins",
  "Among the declarations that apply to an element the last one for a property determines its computed value; inline style overrides rules.",
  "every list of declarations",
  "all declaration lists",
  ["src/styles/mod.rs:Cascade::apply_styles", "src/styles/compute_style.rs:compute_style"])
p("Computed style does not depend on hash order",
  "The element produced by applying the computed style is the same for every iteration order of the computed property map.",
  "every computed style, every permutation",
  "hash iteration order is random per process; all permutations",
  ["src/styles/mod.rs:Cascade::apply_styles", "src/styles/apply.rs:apply_element_style"])
p("Custom properties",
  "A variable reference takes the value of the nearest definition on the element or an ancestor, and resolving style always terminates.",
  "every set of variable definitions, every nesting",
  "termination over all definition graphs",
  ["src/styles/mod.rs:Cascade::compute_shorthand", V+":View::apply_styles"])
p("No style leaks from the previous update",
  "The style of an element after an update depends only on the rules that match now (and its ancestors, clock and scroll), not on rules that matched earlier.",
  "every element, every pair of histories ending in the same matches",
  "history property over all rule sets",
  ["src/styles/default.rs:reset_element_style", "src/styles/mod.rs:Cascade::apply_styles"])
p("Animation progress stays in range",
  "For a positive duration, animation progress is always in [0,1], never decreases within an iteration, and a finished finite animation stays at its end.",
  "every duration, delay, iteration count and sequence of frame times",
  "all float frame times; invariant over time",
  ["src/animation.rs:Animator::update"])
p("Animation frames",
  "Playing an animation track at any progress in [0,1] yields the interpolation between the two neighbouring key frames and never panics.",
  "every track with frames at 0 and 100, every progress",
  "all tracks and float times",
  ["src/animation.rs:Animator::play_track", "src/styles/compute_animation_tracks.rs"])
p("Interpolated colours stay between the endpoints",
  "Each channel of an interpolated colour lies between the channels of the two endpoints for every progress in [0,1], and equals the endpoint at 0 and 1.",
  "every pair of colours, every float in [0,1]",
  "2^24 x 2^24 x all floats",
  ["src/animation.rs:animate"])
p("Transitions reach their target",
  "A transition started by a property change is at the old value at time 0, stays between old and new, and once its duration has passed the element has the new value.",
  "every duration and sequence of frame times",
  "all sequences of frame times",
  ["src/animation.rs:Transition::play", "src/animation.rs:Transition::init_after_style_applied"])
p("Each update terminates",
  "View::update finishes for every style sheet, every value and every frame time.",
  "every input, style sheet and elapsed time",
  "non-termination cannot be observed by a finite test",
  ["src/animation.rs:Animator::update", "src/animation.rs:Transition::play", "src/styles/mod.rs:Cascade::compute_shorthand"])
p("Final geometry composes along the tree",
  "An element's final position is the sum of its ancestors' local offsets minus their scroll offsets, its opacity the product of the ancestors' own opacities, its clip region the layout of the nearest scrolling ancestor.",
  "every tree and layout",
  "all trees",
  [V+":View::compute_final_positions"])
p("Scrolling stays inside the content",
  "The scroll offset of each axis always stays between 0 and the overflow of that axis.",
  "every sequence of wheel events and layout changes",
  "history property over floats",
  ["src/styles/scrolling.rs"])
p("Hex colours",
  "Reading #rrggbb gives the three channels and opaque alpha, #rrggbbaa all four; writing any colour in hex and reading it back gives the same colour; the short forms #rgb are read per CSS.",
  "every colour / every hex string",
  "2^32 colours and all strings",
  ["src/css/reader.rs:read_color"])
p("Text whitespace",
  "The source line breaks and indentation of text content collapse: the text spans contain no line break, and a text without line break is kept as is.",
  "every text content",
  "all strings",
  ["src/html/reader.rs:parse_content"])
p("Property names",
  "Every CSS property name in the supported list is recognised and two different names never denote the same property; the standard names are accepted.",
  "every property key",
  "completeness over the whole table",
  ["src/css/model.rs:PropertyKey"])
p("JSON value reading",
  "The boolean, string and array readings of a JSON value are total and agree with each other (falsy values are exactly null, false, zero, the empty string and the empty array/object as documented by the code).",
  "every JSON value",
  "all JSON values",
  ["src/value.rs:ValueExtensions"])
open('/verif/properties.jsonl','w').write("".join(json.dumps(x)+"\n" for x in P))
print(len(P))
