(** * Styling the tree: [Cascade::apply_styles] (src/styles/mod.rs:62-127),
      [View::apply_styles] (src/view.rs:357-437), scrolling and final positions
      (src/styles/scrolling.rs, src/view.rs:147-178). *)
From stdpp Require Import gmap.
From RecordUpdate Require Import RecordUpdate.
From Verif Require Import Str F32 Res PropKey Css Element Tree Matching Cascade Initial Animation Apply Render.

Section cascade.
  (** Bounds for the loops that may not end (see [compute_definition], [wrap_time]). *)
  Context (fuel : nat).
  Context (debug : bool).
  Context (css : Css).
  (** Iteration order of [HashMap<PropertyDescriptor, ComputedValue>]. *)
  Context (order : ComputedStyle -> list (Descriptor * ComputedValue)).
  (** [input.time.as_secs_f32()] *)
  Context (time : f32).

  (** src/styles/mod.rs:77-91: the rules of the element *)
  Definition cascade_rules (node : NodeId) (t : Tree) (styles : list ElementStyle) (st : Variables * ComputedStyle)
    : res (Variables * ComputedStyle) :=
    foldR (fun st es =>
      match es with
      | EStatic s => compute_declaration_block fuel (s_declaration s) st
      | EDynamic s =>
          do! b <- match_style debug view_pseudo s node t;
          if b : bool then compute_declaration_block fuel (s_declaration s) st else Ok st
      end) st styles.

  (** src/styles/mod.rs:96-110 *)
  Definition play_animators (vars : Variables) (st : list Animator * ComputedStyle)
    : res (list Animator * ComputedStyle) :=
    foldR (fun '(done, s) a =>
      match css_animations css !! a_name a with
      | None => Ok (done ++ [a], s)
      | Some an =>
          do! tracks <- compute_animation_tracks fuel vars an s;
          do! (a, s) <- animator_play fuel time tracks a s;
          Ok (done ++ [a], s)
      end) ([], snd st) (fst st).

  (** src/styles/mod.rs:112-114 *)
  Definition play_transitions (l : list Transition) (s : ComputedStyle) : res (list Transition * ComputedStyle) :=
    foldR (fun '(done, s) tn =>
      do! (tn, s) <- transition_play fuel time tn s;
      Ok (done ++ [tn], s)) ([], s) l.

  (** src/styles/mod.rs:62-127 *)
  Definition cascade_apply_styles (sizes : Sizes) (vars : Variables) (node : NodeId) (t : Tree) (parent : Element)
      (layout : TStyle) (e : Element) : res (TStyle * Element * Variables) :=
    let e := reset_element_style e in
    let e := inherit parent e in
    do! (vars, s) <- cascade_rules node t (e_styles e) (vars, ∅);
    do! (vars, s) <- compute_declaration_block fuel (e_style e) (vars, s);
    do! (animators, s) <- play_animators vars (e_animators e, s);
    do! (transitions, s) <- play_transitions (e_transitions e) s;
    let e := e <| e_animators := animators |> <| e_transitions := transitions |> in
    let (layout, e) := apply_all sizes (order s) (layout, e) in
    do! transitions <- mapR (init_after_style_applied s) (e_transitions e);
    Ok (layout, e <| e_transitions := transitions |>, vars).

  (** src/view.rs:357-437.  Recursion over the attached children on fuel [depth]. *)
  Fixpoint apply_styles (depth : nat) (node : NodeId) (sizes : Sizes) (vars : Variables) (t : Tree) {struct depth}
    : res Tree :=
    match depth with
    | O => Hang
    | S depth =>
        do! p <- parent t node;
        do! pe <- ok_or (p ← p; get_ctx t p) (EParentNotFound node);
        do! layout <- style t node;
        do! e <- get_element t node;
        match e_text e with
        | Some _ => Ok (put_element node (inherit pe e) t)
        | None =>
            do! (layout, e, vars) <- cascade_apply_styles sizes vars node t pe layout e;
            do! t <- set_style node layout (put_element node e t);
            if String.eqb (e_tag e) "img" || is_void (e_tag e) then Ok t
            else
              do! cs <- children t node;
              let sizes := sizes <| parent_font_size := f_size (e_font e) |> <| parent_color := e_color e |> in
              foldR (fun t c => apply_styles depth c sizes vars t) t cs
        end
    end.
End cascade.

(** src/styles/scrolling.rs:12-32 *)
Definition scrolling_ensure (layout : Layout) (current : option Scrolling) : option Scrolling :=
  let '(cw, ch) := lo_content layout in
  let '(w, h) := lo_size layout in
  let '(x, y) := match current with Some c => (sc_x c, sc_y c) | None => (f0, f0) end in
  if fgt cw w || fgt ch h then
    let scroll_x := fsub cw w in
    let scroll_y := fsub ch h in
    Some (mkScrolling (fmin x scroll_x) (fmin y scroll_y) scroll_x scroll_y)
  else None.

(** src/styles/scrolling.rs:34-44 *)
Definition scrolling_offset (wheel : vec2) (s : Scrolling) : Scrolling :=
  let '(x, y) := wheel in
  let sx := if feq x f0 then sc_x s
            else fmax (fmin (fadd (sc_x s) (fmul (fsignum x) f50)) (sc_scroll_x s)) f0 in
  let sy := if feq y f0 then sc_y s
            else fmax (fmin (fsub (sc_y s) (fmul (fsignum y) f50)) (sc_scroll_y s)) f0 in
  mkScrolling sx sy (sc_scroll_x s) (sc_scroll_y s).

Definition vadd (a b : vec2) : vec2 := (fadd (fst a) (fst b), fadd (snd a) (snd b)).

(** src/view.rs:147-178 for one element *)
Definition place_element (layout : Layout) (opacity : f32) (clipping : option Layout) (e : Element) : Element :=
  e <| e_opacity := fmul opacity (e_self_opacity e) |>
    <| e_position := lo_location layout |>
    <| e_size := lo_size layout |>
    <| e_content_size := lo_content layout |>
    <| e_scrolling := scrolling_ensure layout (e_scrolling e) |>
    <| e_clipping := clipping |>.

(** src/view.rs:147-178, over the attached children on fuel. *)
Fixpoint compute_final_positions (depth : nat) (node : NodeId) (location : vec2) (opacity : f32)
    (clipping : option Layout) (t : Tree) {struct depth} : res Tree :=
  match depth with
  | O => Hang
  | S depth =>
      do! layout <- final_layout t node;
      let layout := mkLayout (vadd (lo_location layout) location) (lo_size layout) (lo_content layout) in
      do! e <- get_element t node;
      let e := place_element layout opacity clipping e in
      let '(clipping, location) :=
        match e_scrolling e with
        | Some s => (Some layout, (fsub (fst (lo_location layout)) (sc_x s), fsub (snd (lo_location layout)) (sc_y s)))
        | None => (clipping, lo_location layout)
        end in
      let t := put_element node e t in
      do! cs <- children t node;
      foldR (fun t c => compute_final_positions depth c location (e_opacity e) clipping t) t cs
  end.
