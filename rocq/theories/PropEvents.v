(** * Properties C07, C17-C27, C51-C54: input events.

    Vocabulary: SpecEvents.v.  [session_of X fuel doc css hist v steps]: the
    document is loaded, the updates [hist] lead to the view [v], and [steps] are
    all events handled on the way, with the session and the tree before and
    after each ([sessions_exist]: every successful run has its steps).
    [sent]/[calls]: the handlers a step offers to elements; [trace]: those of
    all steps.  An element without that handler answers nothing ([answers]). *)
From Coq Require Import ZArith Reals.
From stdpp Require Import gmap.
From RecordUpdate Require Import RecordUpdate.
From Flocq Require Import IEEE754.BinarySingleNaN.
From Verif Require Import Str F32 Res Json PropKey Html Css Element Tree ViewModel Render Update Matching
  Cascade Initial Animation Apply Styling Events View SpecReact SpecLive SpecEvents SpecTold
  EventSay EventHistory EventProps EventMore EventOut EventTotal FloatFacts EventBox EventTold Samples.

Theorem sessions_cover_all_runs : forall X fuel doc css hist v0 v os,
  from_document X fuel doc css = Ok v0 -> updates X fuel v0 hist = Ok (v, os) -> exists steps, session_of X fuel doc css hist v steps.
Proof. exact sessions_exist. Qed.
Print Assumptions sessions_cover_all_runs.
Theorem updates_have_steps : forall X fuel v i x v1 o, update X fuel v i x = Ok (v1, o) -> exists t now, input_steps X fuel v i x t now.
Proof. exact update_has_steps. Qed.
Print Assumptions updates_have_steps.

(** ** C07, C26: messages *)
(** C26.  The messages an update returns are exactly the answers to the handler
    calls of its own events, in order: one for each call on an element that has
    the handler, none for the others; the calls of the session so far are those
    before the update followed by its own. *)
Theorem C26_messages_of_one_update : forall X fuel doc css hist v steps i x v1 o t now,
  session_of X fuel doc css hist v steps -> update X fuel v i x = Ok (v1, o) -> input_steps X fuel v i x t now ->
  session_of X fuel doc css (hist ++ [(i, x)]) v1 (steps ++ now) /\
  answers (x_fmt_f64 X) (v_model v1) (x_transformers X) t (trace now) (messages o).
Proof. exact messages_are. Qed.
Print Assumptions C26_messages_of_one_update.

(** C07.  One handler call: one message if the element has the handler, and it
    is what the declared arguments say ([says]: key and payload); none otherwise. *)
Theorem C07_one_call : forall fmt m tr n e h event s s', emit fmt m tr n e h event s = Ok s' ->
  ev_log s' = ev_log s ++ [mkDispatch n h event] /\
  match e_listeners e !! h with
  | None => messages (ev_output s') = messages (ev_output s)
  | Some args => exists msg, says fmt m tr event args msg /\ messages (ev_output s') = messages (ev_output s) ++ [msg]
  end.
Proof. exact emit_says. Qed.
Print Assumptions C07_one_call.
(** C07.  The arguments determine the message. *)
Theorem C07_message_is_determined : forall fmt m tr event args m1 m2,
  says fmt m tr event args m1 -> says fmt m tr event args m2 -> m1 = m2.
Proof. exact says_det. Qed.
Print Assumptions C07_message_is_determined.
(** C07.  There is always a message unless a transformer fails. *)
Theorem C07_message_exists : forall fmt m tr event args, transformers_total tr -> exists msg, says fmt m tr event args msg.
Proof. exact says_total. Qed.
Print Assumptions C07_message_exists.

(** ** C17, C18: hovering *)
(** C17.  After an update the hovered elements are exactly those on the page
    under the mouse, for the positions and sizes of that update. *)
Theorem C17_hover_is_under_mouse : forall X fuel doc css hist v steps, session_of X fuel doc css hist v steps -> hist <> [] ->
  forall n, hovered (v_tree v) n <-> under_mouse (v_tree v) (v_body v) (mouse_history hist) n.
Proof. exact hover_now. Qed.
Print Assumptions C17_hover_is_under_mouse.
(** C17.  Event by event: a move sets the flags, nothing else changes them. *)
Theorem C17_hover_step : forall X fuel doc css hist v steps sp, session_of X fuel doc css hist v steps -> sp ∈ steps -> forall n,
  match sp_event sp with
  | IMouseMove p => hovered (tree_of (sp_after sp)) n <-> under_mouse (tree_of (sp_before sp)) (v_body v) p n
  | _ => hovered (tree_of (sp_after sp)) n <-> hovered (tree_of (sp_before sp)) n
  end.
Proof. exact hover_steps. Qed.
Print Assumptions C17_hover_step.
(** C17, C19, C20.  Between events no flag changes (binding, styling and layout
    leave them alone), and all are off in a loaded page.  [g]: any flag. *)
Theorem C17_flags_change_only_by_events : forall X fuel doc css hist v steps g, session_of X fuel doc css hist v steps -> g state_default = false ->
  match steps with
  | [] => forall n, ~ flag g (v_tree v) n
  | sp :: _ => (forall n, ~ flag g (tree_of (sp_before sp)) n) /\
      (forall i x y, steps !! i = Some x -> steps !! S i = Some y -> forall n, flag g (tree_of (sp_before y)) n <-> flag g (tree_of (sp_after x)) n) /\
      (forall y, list.last steps = Some y -> forall n, flag g (v_tree v) n <-> flag g (tree_of (sp_after y)) n)
  end.
Proof. exact session_flags. Qed.
Print Assumptions C17_flags_change_only_by_events.
(** C18.  For every element the calls of the whole session are
    enter, moves, leave, enter, ...; it is inside exactly when it is hovered. *)
Theorem C18_enter_leave_alternate : forall X fuel doc css hist v steps, session_of X fuel doc css hist v steps -> forall n,
  exists inside : bool, accept (hover_rule n) (Some false) (trace steps) = Some inside /\ (inside = true <-> hovered (v_tree v) n).
Proof. exact hover_trace. Qed.
Print Assumptions C18_enter_leave_alternate.

(** ** C19, C21: focus and keyboard *)
Theorem C19_one_focus : forall X fuel doc css hist v steps sp a b, session_of X fuel doc css hist v steps -> sp ∈ steps ->
  (focused (tree_of (sp_before sp)) a -> focused (tree_of (sp_before sp)) b -> a = b) /\
  (focused (tree_of (sp_after sp)) a -> focused (tree_of (sp_after sp)) b -> a = b).
Proof. exact focus_always. Qed.
Print Assumptions C19_one_focus.
(** C19.  The whole trace is focus, keys, blur, focus, ..., keys only to the
    focused element; the flag is on exactly the one that has the focus now. *)
Theorem C19_focus_blur_alternate : forall X fuel doc css hist v steps, session_of X fuel doc css hist v steps ->
  exists f, accept focus_rule (Some None) (trace steps) = Some f /\ forall n, focused (v_tree v) n <-> f = Some n.
Proof. exact focus_trace. Qed.
Print Assumptions C19_focus_blur_alternate.
(** C19.  Where the focus goes at a press: to the first element in document
    order (the outermost) under the mouse that takes input; without one the old
    focus stays if it is under the mouse and is lost otherwise. *)
Theorem C19_press_moves_focus : forall X fuel doc css hist v steps i x t pre sp post p U b o, session_of X fuel doc css hist v steps ->
  input_steps X fuel v i x t (pre ++ sp :: post) -> list.last (moves (map sp_event pre)) = Some p -> elements_under t (v_body v) p U ->
  sp_event sp = IMouseButtonDown b -> first_of (fun n => listens t n "oninput") U o ->
  forall n, focused (tree_of (sp_after sp)) n <->
    match o with Some k => n = k | None => focused (tree_of (sp_before sp)) n /\ n ∈ U end.
Proof. exact focus_moves. Qed.
Print Assumptions C19_press_moves_focus.
Theorem C19_only_press_moves_focus : forall X fuel doc css hist v steps sp n, session_of X fuel doc css hist v steps -> sp ∈ steps -> ~ is_down sp ->
  focused (tree_of (sp_after sp)) n <-> focused (tree_of (sp_before sp)) n.
Proof. exact focus_stays_steps. Qed.
Print Assumptions C19_only_press_moves_focus.

(** C21.  A key event calls exactly one handler, on the focused element, and
    tells the key; without a focus it calls none.  It changes no element. *)
Theorem C21_keys_go_to_focus : forall X fuel doc css hist v steps sp h field value,
  session_of X fuel doc css hist v steps -> sp ∈ steps -> key_event (sp_event sp) h field value ->
  tree_of (sp_after sp) = tree_of (sp_before sp) /\
  (forall n, focused (tree_of (sp_before sp)) n -> exists d, sent sp = [d] /\ call d = (n, h) /\ pointer (di_event d) field = Some (JStr value)) /\
  ((forall n, ~ focused (tree_of (sp_before sp)) n) -> sent sp = []).
Proof. exact key_steps. Qed.
Print Assumptions C21_keys_go_to_focus.
(** C21.  Every event calls only its own handlers, so keyboard handlers run at
    keyboard events only. *)
Theorem C21_events_call_their_handlers : forall X fuel doc css hist v steps sp n h,
  session_of X fuel doc css hist v steps -> sp ∈ steps -> (n, h) ∈ calls sp -> h ∈ handlers_of (sp_event sp).
Proof. exact handlers_steps. Qed.
Print Assumptions C21_events_call_their_handlers.

(** ** C20, C22: pressing and clicking *)
(** C20.  At every moment an element is active exactly when it was under the
    mouse at a press after which no button was released. *)
Theorem C20_active_iff_pressed : forall X fuel doc css hist v l1 sp l2 n,
  session_of X fuel doc css hist v (l1 ++ sp :: l2) -> active (tree_of (sp_before sp)) n <-> pressed_since l1 n.
Proof. exact active_at. Qed.
Print Assumptions C20_active_iff_pressed.
Theorem C20_active_iff_pressed_now : forall X fuel doc css hist v steps n,
  session_of X fuel doc css hist v steps -> active (v_tree v) n <-> pressed_since steps n.
Proof. exact active_end. Qed.
Print Assumptions C20_active_iff_pressed_now.
Theorem C20_active_step : forall X fuel doc css hist v steps sp, session_of X fuel doc css hist v steps -> sp ∈ steps -> forall n,
  match sp_event sp with
  | IMouseButtonDown _ => active (tree_of (sp_after sp)) n <-> active (tree_of (sp_before sp)) n \/ hovered (tree_of (sp_before sp)) n
  | IMouseButtonUp _ => ~ active (tree_of (sp_after sp)) n
  | _ => active (tree_of (sp_after sp)) n <-> active (tree_of (sp_before sp)) n
  end.
Proof. exact active_steps. Qed.
Print Assumptions C20_active_step.

(** C22.  A click happens only at a left release over an element that was under
    the mouse at a press since the last release ... *)
Theorem C22_click_is_press_and_release : forall X fuel doc css hist v l1 sp l2 n,
  session_of X fuel doc css hist v (l1 ++ sp :: l2) -> (n, "onclick") ∈ calls sp ->
  sp_event sp = IMouseButtonUp MBLeft /\ hovered (tree_of (sp_before sp)) n /\ pressed_since l1 n.
Proof. exact click_means. Qed.
Print Assumptions C22_click_is_press_and_release.
(** ... and never while a drag is in progress; ... *)
Theorem C22_no_click_while_dragging : forall X fuel doc css hist v steps l d l',
  session_of X fuel doc css hist v steps -> trace steps = l ++ d :: l' -> di_handler d = "onclick" -> drag_now l = Some Idle.
Proof. exact click_trace. Qed.
Print Assumptions C22_no_click_while_dragging.
(** ... and then it does happen. *)
Theorem C22_click_happens : forall X fuel doc css hist v l1 sp l2 n,
  session_of X fuel doc css hist v (l1 ++ sp :: l2) ->
  sp_event sp = IMouseButtonUp MBLeft -> hovered (tree_of (sp_before sp)) n -> pressed_since l1 n -> no_drag l1 -> (n, "onclick") ∈ calls sp.
Proof. exact click_given. Qed.
Print Assumptions C22_click_happens.

(** ** C23: drag and drop *)
(** C23.  The trace follows the protocol [drag_rule]: enter, over and leave only
    during a drag, a drop ends it and is answered at once by the dragend of the
    dragged element, no dragend without a drop. *)
Theorem C23_drag_protocol : forall X fuel doc css hist v steps, session_of X fuel doc css hist v steps ->
  no_drag steps \/ exists source, dragging steps source.
Proof. exact drag_trace. Qed.
Print Assumptions C23_drag_protocol.
Theorem C23_dragstart : forall X fuel doc css hist v steps sp n, session_of X fuel doc css hist v steps -> sp ∈ steps -> (n, "ondragstart") ∈ calls sp ->
  sp_event sp = IMouseButtonDown MBLeft /\ hovered (tree_of (sp_before sp)) n /\ is_draggable (tree_of (sp_before sp)) n.
Proof. exact dragstart_means. Qed.
Print Assumptions C23_dragstart.
Theorem C23_drop : forall X fuel doc css hist v l1 sp l2 n, session_of X fuel doc css hist v (l1 ++ sp :: l2) -> (n, "ondrop") ∈ calls sp ->
  is_up sp /\ hovered (tree_of (sp_before sp)) n /\ listens (tree_of (sp_before sp)) n "ondrop" /\ exists source, dragging l1 source.
Proof. exact drop_means. Qed.
Print Assumptions C23_drop.
(** C23.  The innermost drop target under the mouse gets the drop. *)
Theorem C23_drop_to_innermost : forall X fuel doc css hist v steps i x t pre sp post p U source target, session_of X fuel doc css hist v steps ->
  input_steps X fuel v i x t (pre ++ sp :: post) -> list.last (moves (map sp_event pre)) = Some p -> elements_under t (v_body v) p U ->
  is_up sp -> dragging (steps ++ pre) source -> first_of (fun n => listens t n "ondrop") (rev U) (Some target) ->
  forall n, (n, "ondrop") ∈ calls sp <-> n = target.
Proof. exact drop_to_innermost. Qed.
Print Assumptions C23_drop_to_innermost.
(** C23.  A release ends the drag if a drop target is under the mouse, and
    leaves it in progress if there is none. *)
Theorem C23_release_ends_drag_partial : forall X fuel doc css hist v l1 sp l2 source,
  session_of X fuel doc css hist v (l1 ++ sp :: l2) -> is_up sp -> dragging l1 source ->
  ((exists n, hovered (tree_of (sp_before sp)) n /\ listens (tree_of (sp_before sp)) n "ondrop") -> no_drag (l1 ++ [sp])) /\
  (~ (exists n, hovered (tree_of (sp_before sp)) n /\ listens (tree_of (sp_before sp)) n "ondrop") -> dragging (l1 ++ [sp]) source).
Proof. exact drag_release. Qed.
Print Assumptions C23_release_ends_drag_partial.

(** ** C24: capture *)
Theorem C24_captured_iff_engaged : forall X fuel doc css hist v steps i x v1 o now t,
  session_of X fuel doc css hist v steps -> update X fuel v i x = Ok (v1, o) -> input_steps X fuel v i x t now ->
  is_input_captured o = true <->
    (exists n, hovered (v_tree v1) n \/ active (v_tree v1) n \/ focused (v_tree v1) n) \/ exists source, dragging (steps ++ now) source.
Proof. exact captured. Qed.
Print Assumptions C24_captured_iff_engaged.
(** C24.  A single event after which nothing is hovered, focused or dragged
    called only leave and blur handlers. *)
Theorem C24_not_captured_means_quiet_partial : forall X fuel doc css hist v l1 sp l2 n h,
  session_of X fuel doc css hist v (l1 ++ sp :: l2) ->
  (forall k, ~ hovered (tree_of (sp_after sp)) k /\ ~ focused (tree_of (sp_after sp)) k) -> no_drag (l1 ++ [sp]) ->
  (n, h) ∈ calls sp -> h = "onmouseleave" \/ h = "ondragleave" \/ h = "onblur".
Proof. exact quiet_steps. Qed.
Print Assumptions C24_not_captured_means_quiet_partial.

(** ** C25: the pointer *)
Theorem C25_pointer_of_innermost : forall X fuel doc css hist v steps i x v1 o U f,
  session_of X fuel doc css hist v steps -> update X fuel v i x = Ok (v1, o) ->
  elements_under (v_tree v1) (v_body v1) (mouse_history (hist ++ [(i, x)])) U ->
  first_of (fun n => ~ shape (v_tree v1) n PAuto) (rev U) f ->
  match f with Some n => shape (v_tree v1) n (out_pointer o) | None => out_pointer o = PAuto end.
Proof. exact pointer_shape. Qed.
Print Assumptions C25_pointer_of_innermost.

(** ** C27: hit testing *)
(** C27.  A hit box in terms of real numbers: a hit is inside the half-open box;
    a point of the box is hit when its distance from the edge is a float. *)
Theorem C27_box_is_half_open : forall x a w : f32, is_finite x = true -> is_finite a = true -> is_finite w = true ->
  (in_span x a w -> (B2R a <= B2R x < B2R a + B2R w)%R) /\
  ((B2R a <= B2R x < B2R a + B2R w)%R -> rnd (B2R x - B2R a) = (B2R x - B2R a)%R -> in_span x a w).
Proof. exact span_real. Qed.
Print Assumptions C27_box_is_half_open.
(** C27.  Whole pixel coordinates (up to 2^23): exactly the half-open box ... *)
Theorem C27_pixel_boxes : forall x a w : Z, (Z.abs x <= 2 ^ 23)%Z -> (Z.abs a <= 2 ^ 23)%Z -> (Z.abs w <= 2 ^ 23)%Z ->
  in_span (f32_of_Z x) (f32_of_Z a) (f32_of_Z w) <-> (a <= x < a + w)%Z.
Proof. exact span_int. Qed.
Print Assumptions C27_pixel_boxes.
(** ... so a point is in exactly one of two adjacent boxes. *)
Theorem C27_adjacent_boxes_partial : forall x a w w2 : Z, (Z.abs x <= 2 ^ 23)%Z -> (Z.abs a <= 2 ^ 23)%Z -> (Z.abs w <= 2 ^ 23)%Z ->
  (Z.abs w2 <= 2 ^ 23)%Z -> (Z.abs (a + w) <= 2 ^ 23)%Z -> (0 <= w)%Z -> (0 <= w2)%Z -> (a <= x < a + w + w2)%Z ->
  (in_span (f32_of_Z x) (f32_of_Z a) (f32_of_Z w) <-> ~ in_span (f32_of_Z x) (f32_of_Z (a + w)) (f32_of_Z w2)).
Proof. exact edge_int. Qed.
Print Assumptions C27_adjacent_boxes_partial.
(** Without whole coordinates the claim is false: a box of width 1 at 2^-24 and
    its neighbour at the rounded sum, 1, both contain the point 1. *)
Definition tiny : f32 := binary_normalize 24 128 f32_prec f32_emax mode_NE 1 (-24) false.
Theorem C27_adjacent_boxes_refuted : in_span f1 tiny f1 /\ in_span f1 (fadd tiny f1) f1.
Proof. vm_compute. repeat split. Qed.
Print Assumptions C27_adjacent_boxes_refuted.

(** ** C51: what events tell *)
(** C51.  Every event tells the final position and size of its element; a mouse
    event tells the position of the last mouse move of the update. *)
Theorem C51_event_payload : forall X fuel doc css hist v steps i x v1 o t now,
  session_of X fuel doc css hist v steps -> update X fuel v i x = Ok (v1, o) -> input_steps X fuel v i x t now ->
  Forall (reports t (mouse_history (hist ++ [(i, x)]))) (trace now).
Proof. exact reports_are. Qed.
Print Assumptions C51_event_payload.
(** C51.  Those positions and sizes are told as the same real numbers; one that
    is no real number is told as null. *)
Theorem C51_numbers_told : forall X fuel doc css hist v steps i x v1 o t now d,
  session_of X fuel doc css hist v steps -> update X fuel v i x = Ok (v1, o) -> input_steps X fuel v i x t now -> d ∈ trace now ->
  exists e, get_ctx t (di_node d) = Some e /\ pair_told (di_event d) "/target/position" (e_position e) /\ pair_told (di_event d) "/target/size" (e_size e) /\
    (di_handler d ∈ ["onkeydown"; "onkeyup"; "oninput"] \/ pair_told (di_event d) "/position" (mouse_history (hist ++ [(i, x)]))).
Proof. exact numbers_told. Qed.
Print Assumptions C51_numbers_told.
(** C51.  Every event tells the state its element is in at that moment. *)
Theorem C51_state_told : forall X fuel doc css hist v steps sp d, session_of X fuel doc css hist v steps -> sp ∈ steps -> d ∈ sent sp ->
  exists e s, get_ctx (tree_of (sp_before sp)) (di_node d) = Some e /\ flags_told (di_event d) s /\ state_told (sp_event sp) (di_handler d) (e_state e) s.
Proof. exact states_told. Qed.
Print Assumptions C51_state_told.

(** ** C52: input handling never fails *)
Theorem C52_input_never_fails : forall X fuel doc css hist v steps i x m t ids,
  session_of X fuel doc css hist v steps -> transformers_total (x_transformers X) ->
  prepare X fuel v i x = Ok (m, t, ids) -> exists v1 o, update X fuel v i x = Ok (v1, o).
Proof. exact input_total. Qed.
Print Assumptions C52_input_never_fails.

(** ** C54: order of delivery *)
(** C54.  A release without a drag goes to the elements under the mouse from the
    inside out, each gets onmouseup and then onclick or oncontextmenu. *)
Theorem C54_release_inside_out : forall X fuel doc css hist v steps i x t pre sp post p U b, session_of X fuel doc css hist v steps ->
  input_steps X fuel v i x t (pre ++ sp :: post) -> list.last (moves (map sp_event pre)) = Some p -> elements_under t (v_body v) p U ->
  sp_event sp = IMouseButtonUp b -> no_drag (steps ++ pre) ->
  exists ls, Forall2 (release_of b (tree_of (sp_before sp))) (rev U) ls /\ calls sp = List.concat ls.
Proof. exact bubbling. Qed.
Print Assumptions C54_release_inside_out.
(** C54, C27.  A move first leaves the elements no longer under the mouse, then
    enters (if new) and moves over those under it, each once, from the inside out. *)
Theorem C54_move_inside_out : forall X fuel doc css hist v steps i x t pre sp post p U, session_of X fuel doc css hist v steps ->
  input_steps X fuel v i x t (pre ++ sp :: post) -> sp_event sp = IMouseMove p -> elements_under t (v_body v) p U -> no_drag (steps ++ pre) ->
  exists left_, (forall n, n ∈ left_ <-> hovered (tree_of (sp_before sp)) n /\ n ∉ U) /\ NoDup left_ /\ NoDup U /\
  exists ls, Forall2 (fun n l => (hovered (tree_of (sp_before sp)) n /\ l = [(n, "onmousemove")]) \/
                                 (~ hovered (tree_of (sp_before sp)) n /\ l = [(n, "onmouseenter"); (n, "onmousemove")])) (rev U) ls /\
    calls sp = map (fun n => (n, "onmouseleave")) left_ ++ List.concat ls.
Proof. exact move_in_order. Qed.
Print Assumptions C54_move_inside_out.

(** ** Concrete runs *)
Definition on (event word : string) : ElementBinding := EBCallback event [CAKeyword word].
Definition at_ (z : Z) : vec2 := (f32_of_Z z, f32_of_Z z).
Definition run_events (page : Html) (evs : list (list InputEvent)) : res (View * list Output) :=
  run boxes page css_empty (map (fun e => (frame e, JNull)) evs).
Definition told (r : res (View * list Output)) : option (list (list json) * list bool) :=
  match r with Ok (_, os) => Some (map messages os, map is_input_captured os) | _ => None end.

(** 100 x 100 boxes inside each other *)
Definition drag_page : Html := document
  [elem "div" [on "ondrop" "Drop"; on "oninput" "Input"; on "onmouseenter" "Enter"; on "onmouseleave" "Leave"; on "onblur" "Blur"]
    [elem "p" [EBNone "draggable" "true"; on "onclick" "Click"; on "ondragend" "End"; on "ondragover" "Over"] []]].
Example drag_and_drop : told (run_events drag_page
   [[IMouseMove (at_ 50); IMouseButtonDown MBLeft; IMouseButtonUp MBLeft]; [IChar "x"]; [IMouseMove (at_ 150)]; [IMouseButtonDown MBLeft]; [IMouseButtonUp MBLeft]])
  = Some ([[str "Enter"; str "Drop"; str "End"]; [str "Input"]; [str "Leave"]; [str "Blur"]; []], [true; true; true; false; false]).
Proof. vm_compute. reflexivity. Qed.
(** the hypotheses of the theorems above are met by this run *)
Example drag_session : exists v steps, session_of boxes 20 drag_page css_empty
   (map (fun e => (frame e, JNull)) [[IMouseMove (at_ 50); IMouseButtonDown MBLeft; IMouseButtonUp MBLeft]; [IChar "x"]; [IMouseMove (at_ 150)]]) v steps.
Proof.
  assert (succeeds (run_events drag_page [[IMouseMove (at_ 50); IMouseButtonDown MBLeft; IMouseButtonUp MBLeft]; [IChar "x"]; [IMouseMove (at_ 150)]]) (fun _ => True)) as ([v os] & E & _) by witness.
  unfold run_events, run in E. apply ResFacts.bindR_Ok in E as (v0 & H0 & H). destruct (sessions_exist _ _ _ _ _ _ _ _ H0 H) as (steps & Hs). by exists v, steps.
Qed.

(** C23: a release over no drop target does not end the drag: the next move
    still drags. *)
Definition no_target_page : Html := document [elem "p" [EBNone "draggable" "true"; on "ondragover" "Over"; on "onmouseup" "Up"; on "onclick" "Click"] []].
Theorem C23_release_ends_drag_refuted : told (run_events no_target_page
   [[IMouseMove (at_ 50); IMouseButtonDown MBLeft]; [IMouseButtonUp MBLeft]; [IMouseMove (at_ 60)]; [IMouseButtonDown MBRight]; [IMouseButtonUp MBLeft]])
  = Some ([[]; [str "Over"; str "Up"]; [str "Over"]; [str "Over"]; [str "Over"; str "Up"]], [true; true; true; true; true]).
Proof. vm_compute. reflexivity. Qed.
Print Assumptions C23_release_ends_drag_refuted.

(** C24: an update that is not captured may have called any handler: the mouse
    came, clicked and left within one frame. *)
Definition click_page : Html := document [elem "p" [on "onclick" "Click"; on "onmousedown" "Down"] []].
Theorem C24_not_captured_means_quiet_refuted : told (run_events click_page
   [[IMouseMove (at_ 50); IMouseButtonDown MBLeft; IMouseButtonUp MBLeft; IMouseMove (at_ 150)]])
  = Some ([[str "Down"; str "Click"]], [false]).
Proof. vm_compute. reflexivity. Qed.
Print Assumptions C24_not_captured_means_quiet_refuted.
(** C22: the buttons need not agree: a right press and a left release are a click. *)
Theorem C22_click_needs_left_press_refuted : told (run_events click_page
   [[IMouseMove (at_ 50); IMouseButtonDown MBRight; IMouseButtonUp MBLeft]]) = Some ([[str "Down"; str "Click"]], [true]).
Proof. vm_compute. reflexivity. Qed.
Print Assumptions C22_click_needs_left_press_refuted.
(** C19: of two nested inputs the outer one gets the focus. *)
Definition nested_inputs : Html := document
  [elem "div" [on "onfocus" "Outer"; on "oninput" "OuterInput"] [elem "input" [on "onfocus" "Inner"; on "oninput" "InnerInput"; on "onblur" "InnerBlur"] []]].
Theorem C19_focus_goes_to_innermost_refuted : told (run_events nested_inputs
   [[IMouseMove (at_ 50); IMouseButtonDown MBLeft; IChar "x"]]) = Some ([[str "Inner"; str "InnerBlur"; str "Outer"; str "OuterInput"]], [true]).
Proof. vm_compute. reflexivity. Qed.
Print Assumptions C19_focus_goes_to_innermost_refuted.

(** C51: the press happened at (50, 50) and is reported at (70, 70), the last
    position of the frame. *)
Definition position_of (msg : json) : option json := pointer msg "/Down/position".
Definition where_page : Html := document [elem "p" [EBCallback "onmousedown" [CAKeyword "Down"; CAEvent]] []].
(** the reported positions equal [p] as JSON values *)
Definition positions_are (r : res (View * list Output)) (p : vec2) : bool :=
  match r with Ok (_, os) => match map position_of (flat_map messages os) with [Some j] => json_eq j (json_vec p) | _ => false end | _ => false end.
Theorem C51_event_position_refuted :
  let r := run_events where_page [[IMouseMove (at_ 50); IMouseButtonDown MBLeft; IMouseMove (at_ 70)]] in
  positions_are r (at_ 70) = true /\ positions_are r (at_ 50) = false.
Proof. split; vm_compute; reflexivity. Qed.
Print Assumptions C51_event_position_refuted.
(** an input field tells: entered (hover), focused and pressed (hover, focus,
    active), left (focus only) *)
Definition state_page : Html := document [elem "input" (map (fun h => EBCallback h [CAKeyword "E"; CAEvent]) ["onmouseenter"; "onfocus"; "onmousedown"; "oninput"; "onmouseleave"]) []].
Definition flags_of (msg : json) : list bool :=
  map (fun f => match pointer msg (String.append "/E/target/state/" f) with Some (JBool b) => b | _ => false end) ["hover"; "focus"; "active"].
Example C51_states : match run_events state_page [[IMouseMove (at_ 50); IMouseButtonDown MBLeft; IMouseButtonUp MBLeft; IChar "x"; IMouseMove (at_ 150)]] with
  | Ok (_, os) => map flags_of (flat_map messages os) | _ => [] end
  = [[true; false; false]; [true; true; true]; [true; true; true]; [true; true; false]; [false; true; false]].
Proof. vm_compute. reflexivity. Qed.

(** C53: an element that left the page keeps the focus and gets the keys. *)
Definition hidden_focus : Html := document [elem "input" [EBVisibility true (get ["show"]); on "oninput" "Typed"] []].
Definition show (b : bool) : json := JObj [("show", JBool b)].
Definition hidden_run : res (View * list Output) := run boxes hidden_focus css_empty
  [(frame [], show true); (frame [IMouseMove (at_ 50); IMouseButtonDown MBLeft; IMouseButtonUp MBLeft], show true); (frame [IChar "x"], show false)].
Theorem C53_keys_go_to_elements_on_the_page_refuted :
  told hidden_run = Some ([[]; []; [str "Typed"]], [true; true; true]) /\
  succeeds hidden_run (fun '(v, _) => attached (v_tree v) 1 = []).
Proof. split; [vm_compute; reflexivity|]. witness. Qed.
Print Assumptions C53_keys_go_to_elements_on_the_page_refuted.
