(** * The view: src/view.rs:18-145. *)
From stdpp Require Import gmap.
From RecordUpdate Require Import RecordUpdate.
From Verif Require Import Str F32 Res Json PropKey Html Css Element Tree ViewModel Render Update Matching
  Cascade Initial Animation Apply Styling Events.

(** src/view.rs:18-28 with the fields of [ViewModel] (src/view_model.rs:19-32);
    fonts, resources and metrics are not modelled. *)
Record View := mkView {
  v_bindings : Bindings;
  v_model : json;
  v_defaults : Defaults;
  v_transformers : Transformers;
  v_session : Session;
  v_tree : Tree;
  v_root : NodeId;
  v_body : NodeId;
  v_css : Css;
  v_ids : gmap string NodeId
}.
#[global] Instance eta_View : Settable _ :=
  settable! mkView <v_bindings; v_model; v_defaults; v_transformers; v_session; v_tree; v_root; v_body; v_css; v_ids>.

(** src/input.rs:4-8; time as seconds *)
Record Input := mkInput { in_time : f32; in_viewport : vec2; in_events : list InputEvent }.

(** Everything the view calls that is not in /repo or not modelled. *)
Record Externals := mkExternals {
  x_fmt_f64 : f64 -> string;                                   (* Display of a float *)
  x_translate : string -> string;                              (* RendererTranslator *)
  x_read_inline_css : string -> option (list Declaration);     (* src/css/reader.rs:29-35 *)
  x_order : ComputedStyle -> list (Descriptor * ComputedValue);(* HashMap iteration order *)
  x_layout : Tree -> NodeId -> Layout;                         (* taffy's layout algorithm *)
  x_transformers : Transformers;                               (* default and application transformers *)
  x_debug : bool                                               (* overflow checks on *)
}.

(** src/view.rs:44-73: the templates and the body of a document.  [find_body]
    stops at the first "body" child, [break]. *)
Definition template_id (h : Html) : option string :=
  foldl (fun id b => match b with
                     | EBNone key value => if String.eqb key "id" then Some value else id
                     | _ => id
                     end) None (h_bindings h).
Fixpoint scan_document (children : list Html) (templates : gmap string Html) : gmap string Html * Html :=
  match children with
  | [] => (templates, html_empty)
  | c :: cs =>
      if String.eqb (h_tag c) "template" then
        let templates :=
          match template_id c, h_children c with
          | Some id, [t] => <[("#" +:+ id) := t]> templates
          | _, _ => templates
          end in
        scan_document cs templates
      else if String.eqb (h_tag c) "body" then (templates, c)
      else scan_document cs templates
  end.

Section view.
  Context (X : Externals).
  (** bound for the recursions that may not end *)
  Context (fuel : nat).

  (** Recursions over the element tree follow child links; ids grow from parent
      to child, so the number of nodes bounds the depth. *)
  Definition tree_depth (t : Tree) : nat := S (t_next t).

  (** src/view.rs:30-94 after parsing: [doc] is the parsed document. *)
  Definition from_document (doc : Html) (css : Css) : res View :=
    let '(templates, body) := scan_document (h_children doc) ∅ in
    do! (r, root, body) <- render (x_translate X) (x_read_inline_css X) templates fuel body renderer_new;
    do! defaults <- memorize_array_default "" (r_schema r) ∅;
    do! t <- calculate_elements_stylesheet (tree_depth (r_tree r)) (x_debug X) (css_styles css) body (r_tree r);
    do! (t, ids) <- apply_default_bindings_state (x_read_inline_css X) (r_bindings r) (t, r_static_id r);
    Ok (mkView (r_bindings r) (r_schema r) defaults (x_transformers X) session_new t root body css ids).

  (** src/view.rs:117-127: the viewport is written only when both sizes differ. *)
  Definition dim_eqb (a : Dimension) (f : f32) : bool :=
    match a with DimLength g => feq g f | _ => false end.
  Definition set_viewport (root : NodeId) (viewport : vec2) (t : Tree) : res Tree :=
    do! l <- style t root;
    if negb (dim_eqb (sz_width (ts_size l)) (fst viewport)) && negb (dim_eqb (sz_height (ts_size l)) (snd viewport))
    then set_style root (l <| ts_size := mkSize (DimLength (fst viewport)) (DimLength (snd viewport)) |>) t
    else Ok t.

  (** the layout run writes the final layout of every node *)
  Definition run_layout (t : Tree) : Tree :=
    t <| t_nodes ::= map_imap (fun n x => Some (x <| n_layout := x_layout X t n |>)) |>.

  (** src/view_model.rs:71-84 *)
  Definition view_bind (v : View) (value : json) : res (json * list Reaction) :=
    do! (m, _, rs) <- bind_value (x_fmt_f64 X) (v_bindings v) (v_transformers v) (v_defaults v) (v_model v) value "" "";
    Ok (m, rs).

  (** src/view.rs:110-144, everything before the input events: bind the data,
      apply the reactions, style, lay out and position the elements. *)
  Definition prepare (v : View) (input : Input) (value : json) : res (json * Tree * gmap string NodeId) :=
    do! (m, rs) <- view_bind v value;
    do! (t, ids) <- update_trees (x_read_inline_css X) (v_tree v, v_ids v) rs;
    do! t <- set_viewport (v_root v) (in_viewport input) t;
    let sizes := mkSizes f16 f16 rgba0 (fst (in_viewport input)) (snd (in_viewport input)) in
    do! t <- apply_styles fuel (x_debug X) (v_css v) (x_order X) (in_time input) (tree_depth t) (v_body v) sizes ∅ t;
    let t := run_layout t in
    do! t <- compute_final_positions (tree_depth t) (v_body v) vzero f1 None t;
    Ok (m, t, ids).

  (** src/view.rs:110-145 *)
  Definition update (v : View) (input : Input) (value : json) : res (View * Output) :=
    do! (m, t, ids) <- prepare v input value;
    do! ((s, t), o) <- handle_output (x_fmt_f64 X) (tree_depth t) m (v_transformers v) (v_body v) (in_events input) (v_session v, t);
    Ok (v <| v_model := m |> <| v_session := s |> <| v_tree := t |> <| v_ids := ids |>, o).

  (** src/view.rs:440-444 *)
  Definition get_element_by_id (v : View) (id : string) : option Element :=
    n ← v_ids v !! id; get_ctx (v_tree v) n.

  (** a run: any number of updates *)
  Fixpoint updates (v : View) (inputs : list (Input * json)) : res (View * list Output) :=
    match inputs with
    | [] => Ok (v, [])
    | (i, x) :: rest =>
        do! (v, o) <- update v i x;
        do! (v, os) <- updates v rest;
        Ok (v, o :: os)
    end.
End view.
