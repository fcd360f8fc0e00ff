(** * Input events: src/view_model.rs:238-566, 702-706, src/input.rs, src/output.rs. *)
From stdpp Require Import gmap.
From RecordUpdate Require Import RecordUpdate.
From Verif Require Import Str F32 Res Json PropKey Html Css Element Tree ViewModel.

(** src/input.rs:51-55 *)
Inductive MouseButton : Set := MBLeft | MBRight.
Definition is_left (b : MouseButton) : bool := match b with MBLeft => true | _ => false end.
Definition is_right (b : MouseButton) : bool := match b with MBRight => true | _ => false end.

(** src/input.rs:63-89; only the serialised name matters, so a key is its name. *)
Definition Keys := string.

(** src/input.rs:39-49; a [char] is its UTF-8 string. *)
Inductive InputEvent :=
| IUnknown
| IMouseMove (p : vec2)
| IMouseButtonDown (b : MouseButton)
| IMouseButtonUp (b : MouseButton)
| IMouseWheel (w : vec2)
| IKeyDown (k : Keys)
| IKeyUp (k : Keys)
| IChar (c : string).

(** src/output.rs:5-10 *)
Record Output := mkOutput { is_input_captured : bool; out_pointer : Pointer; messages : list json }.
#[global] Instance eta_Output : Settable _ := settable! mkOutput <is_input_captured; out_pointer; messages>.
Definition output_new : Output := mkOutput false PAuto [].

(** Ghost record of one [emit] call: which element was offered which event.
    It is not in the source; it lets properties speak about handlers that are
    not declared on the element. *)
Record Dispatch := mkDispatch { di_node : NodeId; di_handler : string; di_event : json }.

(** src/view_model.rs:19-32 (input half), 782-790; [ev_log] is ghost. *)
Record Session := mkSession {
  ev_mouse : vec2;
  ev_under : list NodeId;
  ev_action : list NodeId;
  ev_output : Output;
  ev_drag : option NodeId;
  ev_focus : option NodeId;
  ev_log : list Dispatch
}.
#[global] Instance eta_Session : Settable _ :=
  settable! mkSession <ev_mouse; ev_under; ev_action; ev_output; ev_drag; ev_focus; ev_log>.
Definition session_new : Session := mkSession vzero [] [] output_new None None [].

(** serde_json's [f32] serialisation: non-finite floats become null. *)
Definition json_f32 (f : f32) : json :=
  if f32_finite f then JNum (NFloat (f64_of_f32 f)) else JNull.
Definition json_vec (v : vec2) : json := JArr [json_f32 (fst v); json_f32 (snd v)].

(** src/element.rs:313-319 with derived [Serialize] *)
Definition json_state (s : ElementState) : json :=
  JObj [("active", JBool (st_active s)); ("checked", JBool (st_checked s));
        ("focus", JBool (st_focus s)); ("hover", JBool (st_hover s))].
(** src/view_model.rs:549-566 *)
Definition json_target (e : Element) : json :=
  JObj [("position", json_vec (e_position e)); ("size", json_vec (e_size e)); ("state", json_state (e_state e))].
(** src/view_model.rs:506-547 *)
Definition mouse_event (mouse : vec2) (e : Element) : json :=
  JObj [("position", json_vec mouse); ("target", json_target e)].
Definition keyboard_event (k : Keys) (e : Element) : json :=
  JObj [("key", JStr k); ("target", json_target e)].
Definition text_event (c : string) (e : Element) : json :=
  JObj [("char", JStr c); ("target", json_target e)].

(** src/view_model.rs:702-706 *)
Definition hovers (p : vec2) (e : Element) : bool :=
  let x := fsub (fst p) (fst (e_position e)) in
  let y := fsub (snd p) (snd (e_position e)) in
  fge x f0 && flt x (fst (e_size e)) && fge y f0 && flt y (snd (e_size e)).

(** src/view_model.rs:435-438 *)
Definition hit (p : vec2) (e : Element) : bool :=
  bool_decide (e_pointer_events e = PEAuto) && e_visible e && hovers p e.

(** src/view_model.rs:429-446: the nodes pushed, in order. *)
Fixpoint calculate_mouse_hovers (depth : nat) (t : Tree) (node : NodeId) (p : vec2) {struct depth}
  : res (list NodeId) :=
  match depth with
  | O => Hang
  | S depth =>
      do! e <- get_element t node;
      do! cs <- children t node;
      do! l <- mapR (fun c => calculate_mouse_hovers depth t c p) cs;
      Ok ((if hit p e then [node] else []) ++ List.concat l)
  end.

Section events.
  Context (fmt_f64 : f64 -> string).
  Context (depth : nat).
  (** the bound model and transformers do not change during input handling *)
  Context (model : json) (tr : Transformers).
  Context (body : NodeId).

  (** src/view_model.rs:452-488: one argument; [None] = logged and skipped *)
  Definition eval_argument (event : json) (a : HandlerArgument) : res (option json) :=
    match a with
    | HAKeyword k => Ok (Some (JStr k))
    | HAEvent => Ok (Some event)
    | HABinder path pipe =>
        match pointer model path with
        | None => Ok None
        | Some v => do! v <- run_pipe tr pipe v; Ok (Some v)
        end
    end.

  (** src/view_model.rs:449-491: key and arguments of the message *)
  Fixpoint eval_arguments (event : json) (index : nat) (args : list HandlerArgument) (key : string) (acc : list json)
    : res (string * list json) :=
    match args with
    | [] => Ok (key, acc)
    | a :: args' =>
        do! v <- eval_argument event a;
        match v with
        | None => eval_arguments event (S index) args' key acc
        | Some v =>
            match index with
            | O => eval_arguments event (S index) args' (eval_string fmt_f64 v) acc
            | S _ => eval_arguments event (S index) args' key (acc ++ [v])
            end
        end
    end.

  (** src/view_model.rs:492-501 *)
  Definition make_message (key : string) (args : list json) : json :=
    match args with
    | [] => JStr key
    | [a] => JObj [(key, a)]
    | _ => JObj [(key, JArr args)]
    end.

  (** src/view_model.rs:448-503, with the ghost log entry *)
  Definition emit (node : NodeId) (e : Element) (handler : string) (event : json) (s : Session) : res Session :=
    let s := s <| ev_log ::= fun l => l ++ [mkDispatch node handler event] |> in
    match e_listeners e !! handler with
    | None => Ok s
    | Some args =>
        do! (key, l) <- eval_arguments event 0 args "Undefined" [];
        Ok (s <| ev_output; messages ::= fun m => m ++ [make_message key l] |>)
    end.

  Definition emit_mouse (node : NodeId) (e : Element) (handler : string) (s : Session) : res Session :=
    emit node e handler (mouse_event (ev_mouse s) e) s.

  (** the session and the tree evolve together *)
  Definition ST : Type := Session * Tree.

  Definition set_state (f : ElementState -> ElementState) (e : Element) : Element := e <| e_state ::= f |>.

  Definition when_drag (s : Session) (f : Session -> res Session) : res Session :=
    match ev_drag s with Some _ => f s | None => Ok s end.

  (** src/view_model.rs:288-299: an element the mouse left *)
  Definition leave_node (st : ST) (node : NodeId) : res ST :=
    let '(s, t) := st in
    if memb node (ev_under s) then Ok (s, t)
    else
      do! e <- get_element t node;
      let e := set_state (fun x => x <| st_hover := false |>) e in
      do! s <- emit_mouse node e "onmouseleave" s;
      do! s <- when_drag s (emit_mouse node e "ondragleave");
      Ok (s, put_element node e t).

  (** src/view_model.rs:301-320: an element under the mouse *)
  Definition move_node (previous : list NodeId) (st : ST) (node : NodeId) : res ST :=
    let '(s, t) := st in
    do! (s, t) <-
      (if memb node previous then Ok (s, t)
       else
         do! e <- get_element t node;
         let e := set_state (fun x => x <| st_hover := true |>) e in
         do! s <- emit_mouse node e "onmouseenter" s;
         do! s <- when_drag s (emit_mouse node e "ondragenter");
         Ok (s, put_element node e t));
    do! e <- get_element t node;
    do! s <- emit_mouse node e "onmousemove" s;
    do! s <- when_drag s (emit_mouse node e "ondragover");
    Ok (s, t).

  (** src/view_model.rs:286-321 *)
  Definition on_move (p : vec2) (st : ST) : res ST :=
    let '(s, t) := st in
    let previous := ev_under s in
    do! under <- calculate_mouse_hovers depth t body p;
    let s := s <| ev_under := under |> in
    do! st <- foldR leave_node (s, t) (rev previous);
    foldR (move_node previous) st (rev under).

  (** src/view_model.rs:341-350, 323-331: take the focus from [focus] *)
  Definition blur (focus : NodeId) (st : ST) : res ST :=
    let '(s, t) := st in
    let s := s <| ev_focus := None |> in
    do! e <- get_element t focus;
    let e := set_state (fun x => x <| st_focus := false |>) e in
    do! s <- emit_mouse focus e "onblur" s;
    Ok (s, put_element focus e t).

  (** src/view_model.rs:333-366: one element under the mouse at a button press *)
  Definition press_node (button : MouseButton) (st : ST) (node : NodeId) : res ST :=
    let '(s, t) := st in
    do! e <- get_element t node;
    let e := set_state (fun x => x <| st_active := true |>) e in
    let t := put_element node e t in
    let s := s <| ev_action ::= fun l => l ++ [node] |> in
    do! (s, t) <-
      match e_listeners e !! "oninput" with
      | None => Ok (s, t)
      | Some _ =>
          do! (s, t) <-
            match ev_focus s with
            | Some focus => if Nat.eqb focus node then Ok (s, t) else blur focus (s, t)
            | None => Ok (s, t)
            end;
          match ev_focus s with
          | Some focus =>
              if Nat.eqb focus node then Ok (s, t)
              else (* unreachable: the old focus was dropped above *) Ok (s, t)
          | None =>
              do! e <- get_element t node;
              let e := set_state (fun x => x <| st_focus := true |>) e in
              do! s <- emit_mouse node e "onfocus" (s <| ev_focus := Some node |>);
              Ok (s, put_element node e t)
          end
      end;
    do! e <- get_element t node;
    do! s <- emit_mouse node e "onmousedown" s;
    if is_left button && draggable e then
      do! s <- emit_mouse node e "ondragstart" s;
      Ok (s <| ev_drag := Some node |>, t)
    else Ok (s, t).

  (** src/view_model.rs:322-367 *)
  Definition on_down (button : MouseButton) (st : ST) : res ST :=
    let '(s, t) := st in
    do! (s, t) <-
      match ev_focus s with
      | Some focus => if memb focus (ev_under s) then Ok (s, t) else blur focus (s, t)
      | None => Ok (s, t)
      end;
    foldR (press_node button) (s, t) (rev (ev_under s)).

  (** src/view_model.rs:370-394: one element under the mouse at a release *)
  Definition release_node (button : MouseButton) (st : ST) (node : NodeId) : res ST :=
    let '(s, t) := st in
    do! e <- get_element t node;
    do! s <- emit_mouse node e "onmouseup" s;
    match ev_drag s with
    | Some source =>
        match e_listeners e !! "ondrop" with
        | None => Ok (s, t)
        | Some _ =>
            do! s <- emit_mouse node e "ondrop" s;
            let s := s <| ev_drag := None |> in
            do! e <- get_element t source;
            do! s <- emit_mouse source e "ondragend" s;
            Ok (s, t)
        end
    | None =>
        do! s <- (if is_left button && st_active (e_state e) then emit_mouse node e "onclick" s else Ok s);
        do! s <- (if is_right button then emit_mouse node e "oncontextmenu" s else Ok s);
        Ok (s, t)
    end.

  (** src/view_model.rs:395-398 *)
  Definition deactivate_node (t : Tree) (node : NodeId) : res Tree :=
    do! e <- get_element t node;
    Ok (put_element node (set_state (fun x => x <| st_active := false |>) e) t).

  (** src/view_model.rs:368-399 *)
  Definition on_up (button : MouseButton) (st : ST) : res ST :=
    do! (s, t) <- foldR (release_node button) st (rev (ev_under (fst st)));
    do! t <- foldR deactivate_node t (ev_action s);
    Ok (s <| ev_action := [] |>, t).

  (** src/view_model.rs:401-421: keyboard events go to the focus *)
  Definition on_key (handler : string) (event : Element -> json) (st : ST) : res ST :=
    let '(s, t) := st in
    match ev_focus s with
    | None => Ok (s, t)
    | Some node =>
        do! e <- get_element t node;
        do! s <- emit node e handler (event e) s;
        Ok (s, t)
    end.

  (** src/view_model.rs:278-427 *)
  Definition handle_event (st : ST) (ev : InputEvent) : res ST :=
    match ev with
    | IUnknown => Ok st
    | IMouseMove p => on_move p st
    | IMouseButtonDown b => on_down b st
    | IMouseButtonUp b => on_up b st
    | IMouseWheel _ => Ok st
    | IKeyDown k => on_key "onkeydown" (keyboard_event k) st
    | IKeyUp k => on_key "onkeyup" (keyboard_event k) st
    | IChar c => on_key "oninput" (text_event c) st
    end.
  Definition handle_elements_input : ST -> list InputEvent -> res ST := foldR handle_event.

  (** src/view_model.rs:246-255 *)
  Fixpoint last_move (events : list InputEvent) (acc : option vec2) : option vec2 :=
    match events with
    | [] => acc
    | IMouseMove p :: l => last_move l (Some p)
    | _ :: l => last_move l acc
    end.

  (** src/view_model.rs:264-271 *)
  Definition choose_pointer (t : Tree) (under : list NodeId) (p : Pointer) : Pointer :=
    foldl (fun p n => match get_ctx t n with
                      | Some e => match e_pointer e with PAuto => p | q => q end
                      | None => p
                      end) p under.

  (** src/view_model.rs:238-276 *)
  Definition handle_output (events : list InputEvent) (st : ST) : res (ST * Output) :=
    let '(s, t) := st in
    let '(s, events) :=
      match last_move events None with
      | Some p => (s <| ev_mouse := p |>, events)
      | None => (s, IMouseMove (ev_mouse s) :: events)
      end in
    let s := s <| ev_output := output_new |> in
    do! (s, t) <- handle_elements_input (s, t) events;
    let o := ev_output s in
    let o := o <| out_pointer := choose_pointer t (ev_under s) (out_pointer o) |> in
    let captured :=
      negb (Nat.eqb (List.length (ev_under s)) 0)
      || (match ev_drag s with Some _ => true | None => false end)
      || (match ev_focus s with Some _ => true | None => false end)
      || negb (Nat.eqb (List.length (ev_action s)) 0) in
    let o := o <| is_input_captured := captured |> in
    (* take(&mut self.output) leaves the default *)
    Ok ((s <| ev_output := output_new |>, t), o).
End events.
