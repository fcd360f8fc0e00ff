(** * Vocabulary for input handling (C07, C17-C27, C51-C53). *)
From stdpp Require Import gmap.
From RecordUpdate Require Import RecordUpdate.
From Verif Require Import Str F32 Res Json Html Css Element Tree ViewModel Events View SpecLive SpecReact.

(** ** Elements *)
Definition flag (f : ElementState -> bool) (t : Tree) (n : NodeId) : Prop :=
  exists e, get_ctx t n = Some e /\ f (e_state e) = true.
Definition hovered : Tree -> NodeId -> Prop := flag st_hover.
Definition active : Tree -> NodeId -> Prop := flag st_active.
Definition focused : Tree -> NodeId -> Prop := flag st_focus.
Definition listens (t : Tree) (n : NodeId) (handler : string) : Prop :=
  exists e, get_ctx t n = Some e /\ is_Some (e_listeners e !! handler).
Definition is_draggable (t : Tree) (n : NodeId) : Prop :=
  exists e, get_ctx t n = Some e /\ e_attrs e !! "draggable" = Some "true".

(** ** The page *)
(** [document_order t n l]: [l] is [n] and everything attached below it, each
    parent before its children, children in order *)
Inductive document_order (t : Tree) : NodeId -> list NodeId -> Prop :=
| order_at n ls : Forall2 (document_order t) (attached t n) ls -> document_order t n (n :: List.concat ls).
Inductive on_page (t : Tree) (root : NodeId) : NodeId -> Prop :=
| page_root : on_page t root root
| page_child p c : on_page t root p -> c ∈ attached t p -> on_page t root c.

(** a coordinate is in the half-open interval that starts at [a] and is [w] wide *)
Definition in_span (x a w : f32) : Prop := fge (fsub x a) f0 = true /\ flt (fsub x a) w = true.
Definition in_box (p position size : vec2) : Prop :=
  in_span (fst p) (fst position) (fst size) /\ in_span (snd p) (snd position) (snd size).
(** the element can be touched by the mouse at [p] *)
Definition touched (t : Tree) (p : vec2) (n : NodeId) : Prop :=
  exists e, get_ctx t n = Some e /\ e_pointer_events e = PEAuto /\ e_visible e = true /\ in_box p (e_position e) (e_size e).
Global Instance touched_dec t p n : Decision (touched t p n).
Proof.
  unfold touched. destruct (get_ctx t n) as [e|]; [|right; by intros (? & ? & _)].
  destruct (decide (e_pointer_events e = PEAuto /\ e_visible e = true /\ in_box p (e_position e) (e_size e))) as [H|H].
  - left. by exists e.
  - right. by intros (? & [= <-] & ?).
Defined.
Definition under_mouse (t : Tree) (root : NodeId) (p : vec2) (n : NodeId) : Prop := on_page t root n /\ touched t p n.

(** ** What happened: the handled events with the moments around them *)
Definition moment : Type := Session * Tree.
Record Step := mkStep { sp_model : json; sp_before : moment; sp_event : InputEvent; sp_after : moment }.
Definition tree_of : moment -> Tree := snd.
(** the handlers offered to elements in a step, in order *)
Definition sent (sp : Step) : list Dispatch :=
  drop (List.length (ev_log (fst (sp_before sp)))) (ev_log (fst (sp_after sp))).
Definition call (d : Dispatch) : NodeId * string := (di_node d, di_handler d).
Definition calls (sp : Step) : list (NodeId * string) := map call (sent sp).

Inductive handled (fmt : f64 -> string) (depth : nat) (m : json) (tr : Transformers) (body : NodeId)
  : moment -> list InputEvent -> moment -> list Step -> Prop :=
| handled_nil st : handled fmt depth m tr body st [] st []
| handled_cons st ev st1 evs st' steps :
    handle_event fmt depth m tr body st ev = Ok st1 -> handled fmt depth m tr body st1 evs st' steps ->
    handled fmt depth m tr body st (ev :: evs) st' (mkStep m st ev st1 :: steps).

(** mouse positions among events *)
Definition moves (events : list InputEvent) : list vec2 :=
  omap (fun ev => match ev with IMouseMove p => Some p | _ => None end) events.
(** an update without a mouse move repeats the last one first *)
Definition seen_events (mouse : vec2) (events : list InputEvent) : list InputEvent :=
  match moves events with [] => IMouseMove mouse :: events | _ => events end.
Definition mouse_after (mouse : vec2) (events : list InputEvent) : vec2 := default mouse (list.last (moves events)).

(** [happened X fuel v hist v' steps]: the updates [hist] take [v] to [v'] and
    [steps] are all events handled on the way. *)
Inductive happened (X : Externals) (fuel : nat) : View -> list (Input * json) -> View -> list Step -> Prop :=
| happened_nil v : happened X fuel v [] v []
| happened_cons v i x hist m t ids s1 t1 now v1 o v' later :
    prepare X fuel v i x = Ok (m, t, ids) ->
    handled (x_fmt_f64 X) (tree_depth t) m (v_transformers v) (v_body v)
      (v_session v <| ev_mouse := mouse_after (ev_mouse (v_session v)) (in_events i) |> <| ev_output := output_new |>, t)
      (seen_events (ev_mouse (v_session v)) (in_events i)) (s1, t1) now ->
    update X fuel v i x = Ok (v1, o) -> v_tree v1 = t1 -> ev_log (v_session v1) = ev_log s1 ->
    happened X fuel v1 hist v' later ->
    happened X fuel v ((i, x) :: hist) v' (now ++ later).

(** where the mouse is after a history *)
Definition mouse_history (hist : list (Input * json)) : vec2 :=
  foldl (fun p e => mouse_after p (in_events (fst e))) vzero hist.

(** ** Legal traces: a trace is legal when the automaton accepts it *)
Definition accept {A} (delta : A -> Dispatch -> option A) : option A -> list Dispatch -> option A :=
  foldl (fun o d => a ← o; delta a d).
(** enter, moves, leave, enter, ... for one element; the state is "inside" *)
Definition hover_rule (n : NodeId) (inside : bool) (d : Dispatch) : option bool :=
  if decide (di_node d = n) then
    if decide (di_handler d = "onmouseenter") then if inside then None else Some true
    else if decide (di_handler d = "onmouseleave") then if inside then Some false else None
    else if decide (di_handler d = "onmousemove") then if inside then Some true else None
    else Some inside
  else Some inside.
(** focus, keys, blur, focus, ... ; the state is the focused element *)
Definition focus_rule (f : option NodeId) (d : Dispatch) : option (option NodeId) :=
  if decide (di_handler d = "onfocus") then match f with None => Some (Some (di_node d)) | Some _ => None end
  else if decide (di_handler d = "onblur" \/ di_handler d = "onkeydown" \/ di_handler d = "onkeyup" \/ di_handler d = "oninput") then
    if decide (f = Some (di_node d)) then Some (if decide (di_handler d = "onblur") then None else f) else None
  else Some f.
(** the drag: nothing, an element being dragged, or an element just dropped *)
Inductive drag_state := Idle | Dragging (source : NodeId) | Dropped (source : NodeId).
Definition drag_rule (g : drag_state) (d : Dispatch) : option drag_state :=
  match g with
  | Dropped source => if decide (call d = (source, "ondragend")) then Some Idle else None
  | Idle =>
      if decide (di_handler d = "ondragstart") then Some (Dragging (di_node d))
      else if decide (di_handler d ∈ ["ondragenter"; "ondragover"; "ondragleave"; "ondrop"; "ondragend"]) then None
      else Some Idle
  | Dragging source =>
      if decide (di_handler d = "ondragstart") then Some (Dragging (di_node d))
      else if decide (di_handler d = "ondrop") then Some (Dropped source)
      else if decide (di_handler d = "ondragend" \/ di_handler d = "onclick" \/ di_handler d = "oncontextmenu") then None
      else Some g
  end.
Definition drag_now (log : list Dispatch) : option drag_state := accept drag_rule (Some Idle) log.

(** ** Messages *)
(** what an argument of a handler stands for; [None]: nothing, it is left out *)
Inductive argument (m : json) (tr : Transformers) (event : json) : HandlerArgument -> option json -> Prop :=
| arg_keyword k : argument m tr event (HAKeyword k) (Some (JStr k))
| arg_event : argument m tr event HAEvent (Some event)
| arg_missing path pipe : pointer m path = None -> argument m tr event (HABinder path pipe) None
| arg_value path pipe w w' : pointer m path = Some w -> piped tr pipe w w' -> argument m tr event (HABinder path pipe) (Some w').

Definition message (key : string) (args : list json) : json :=
  match args with
  | [] => JStr key
  | [a] => JObj [(key, a)]
  | _ => JObj [(key, JArr args)]
  end.
Definition keep {A} (l : list (option A)) : list A := omap id l.
(** [says .. args event msg]: a handler declared with [args] answers [event] with [msg] *)
Inductive says (fmt : f64 -> string) (m : json) (tr : Transformers) (event : json) : list HandlerArgument -> json -> Prop :=
| says_nothing : says fmt m tr event [] (JStr "Undefined")
| says_key a args w ws : argument m tr event a (Some w) -> Forall2 (argument m tr event) args ws ->
    says fmt m tr event (a :: args) (message (eval_string fmt w) (keep ws))
| says_no_key a args ws : argument m tr event a None -> Forall2 (argument m tr event) args ws ->
    says fmt m tr event (a :: args) (message "Undefined" (keep ws)).
(** the messages of a list of handler calls: one for each call on an element
    with that handler, none for the others *)
Inductive answers (fmt : f64 -> string) (m : json) (tr : Transformers) (t : Tree) : list Dispatch -> list json -> Prop :=
| answers_nil : answers fmt m tr t [] []
| answers_silent d ds msgs : ~ listens t (di_node d) (di_handler d) -> answers fmt m tr t ds msgs -> answers fmt m tr t (d :: ds) msgs
| answers_one d ds e args msg msgs : get_ctx t (di_node d) = Some e -> e_listeners e !! di_handler d = Some args ->
    says fmt m tr (di_event d) args msg -> answers fmt m tr t ds msgs -> answers fmt m tr t (d :: ds) (msg :: msgs).

(** what the event given to a handler tells about its element and the mouse *)
Definition reports (t : Tree) (mouse : vec2) (d : Dispatch) : Prop :=
  exists e, get_ctx t (di_node d) = Some e /\
    pointer (di_event d) "/target/position" = Some (json_vec (e_position e)) /\
    pointer (di_event d) "/target/size" = Some (json_vec (e_size e)) /\
    (di_handler d ∈ ["onkeydown"; "onkeyup"; "oninput"] \/ pointer (di_event d) "/position" = Some (json_vec mouse)).

(** ** Sessions *)
(** a document is loaded and the updates [hist] are run; [steps] are the events handled on the way *)
Definition session_of (X : Externals) (fuel : nat) (doc : Html) (css : Css) (hist : list (Input * json)) (v : View) (steps : list Step) : Prop :=
  exists v0, from_document X fuel doc css = Ok v0 /\ happened X fuel v0 hist v steps.
(** one update of [v]: [t] is the tree before the events, after binding, styling and layout, [now] the events handled *)
Definition input_steps (X : Externals) (fuel : nat) (v : View) (i : Input) (x : json) (t : Tree) (now : list Step) : Prop :=
  exists m ids st, prepare X fuel v i x = Ok (m, t, ids) /\
    handled (x_fmt_f64 X) (tree_depth t) m (v_transformers v) (v_body v)
      (v_session v <| ev_mouse := mouse_after (ev_mouse (v_session v)) (in_events i) |> <| ev_output := output_new |>, t)
      (seen_events (ev_mouse (v_session v)) (in_events i)) st now.

Definition is_down (sp : Step) : Prop := exists b, sp_event sp = IMouseButtonDown b.
Definition is_up (sp : Step) : Prop := exists b, sp_event sp = IMouseButtonUp b.
(** the element was under the mouse at a press, and no button was released since *)
Definition pressed_since (steps : list Step) (n : NodeId) : Prop :=
  exists pre d post, steps = pre ++ d :: post /\ is_down d /\ hovered (tree_of (sp_before d)) n /\ Forall (fun sp => ~ is_up sp) post.
Definition trace (steps : list Step) : list Dispatch := flat_map sent steps.
Definition dragging (steps : list Step) (source : NodeId) : Prop := drag_now (trace steps) = Some (Dragging source).
Definition no_drag (steps : list Step) : Prop := drag_now (trace steps) = Some Idle.

(** the elements under the mouse, in document order *)
Definition elements_under (t : Tree) (root : NodeId) (p : vec2) (U : list NodeId) : Prop :=
  exists all, document_order t root all /\ U = filter (touched t p) all.
(** [first_of P l o]: the first member of [l] with [P], if there is one *)
Inductive first_of (P : NodeId -> Prop) : list NodeId -> option NodeId -> Prop :=
| first_none : first_of P [] None
| first_here n l : P n -> first_of P (n :: l) (Some n)
| first_later n l o : ~ P n -> first_of P l o -> first_of P (n :: l) o.
(** the shape of the mouse pointer: the last element of the list with a shape of its own decides *)
Definition shape (t : Tree) (n : NodeId) (s : Pointer) : Prop := exists e, get_ctx t n = Some e /\ e_pointer e = s.
(** the handlers an event can call *)
Definition handlers_of (ev : InputEvent) : list string :=
  match ev with
  | IMouseMove _ => ["onmouseenter"; "onmousemove"; "onmouseleave"; "ondragenter"; "ondragover"; "ondragleave"]
  | IMouseButtonDown _ => ["onmousedown"; "onfocus"; "onblur"; "ondragstart"]
  | IMouseButtonUp _ => ["onmouseup"; "onclick"; "oncontextmenu"; "ondrop"; "ondragend"]
  | IKeyDown _ => ["onkeydown"]
  | IKeyUp _ => ["onkeyup"]
  | IChar _ => ["oninput"]
  | IUnknown | IMouseWheel _ => []
  end.
(** key events: the handler, and the field of the event that tells the key *)
Definition key_event (ev : InputEvent) (h : string) (field : string) (value : string) : Prop :=
  (ev = IKeyDown value /\ h = "onkeydown" /\ field = "/key") \/
  (ev = IKeyUp value /\ h = "onkeyup" /\ field = "/key") \/
  (ev = IChar value /\ h = "oninput" /\ field = "/char").
(** no transformer fails *)
Definition transformers_total (tr : Transformers) : Prop := forall name f w, tr !! name = Some f -> exists w', f w = Ok w'.
(** what a release without a drag calls on an element *)
Definition release_of (b : MouseButton) (t : Tree) (n : NodeId) (l : list (NodeId * string)) : Prop :=
  match b with
  | MBLeft => (active t n /\ l = [(n, "onmouseup"); (n, "onclick")]) \/ (~ active t n /\ l = [(n, "onmouseup")])
  | MBRight => l = [(n, "onmouseup"); (n, "oncontextmenu")]
  end.
