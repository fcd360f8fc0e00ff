(** * Rendering a template to the element tree: src/rendering.rs and
      [render_img] of src/controls/img.rs. *)
From stdpp Require Import gmap.
From RecordUpdate Require Import RecordUpdate.
From Verif Require Import Str F32 Res Json PropKey Html Css Element Tree ViewModel.

(** src/rendering.rs:11-19; templates and translator do not change while
    rendering and are parameters. *)
Record Renderer := mkRenderer {
  r_tree : Tree;
  r_bindings : Bindings;
  r_locals : gmap string string;
  r_schema : json;
  r_static_id : gmap string NodeId
}.
#[global] Instance eta_Renderer : Settable _ :=
  settable! mkRenderer <r_tree; r_bindings; r_locals; r_schema; r_static_id>.

(** src/rendering.rs:22-37 *)
Definition renderer_new : Renderer := mkRenderer tree_new [] ∅ schema_new ∅.

(** [self.bindings.entry(path).or_default().push(binding)] *)
Definition push_binding (path : string) (b : Binding) (bs : Bindings) : Bindings :=
  obj_insert path (match obj_get path bs with Some l => l | None => [] end ++ [b]) bs.

(** [self.schema.field(binder, locals)] on the renderer *)
Definition r_field (b : Binder) (r : Renderer) : res (Renderer * string) :=
  do! (s, p) <- schema_field (r_schema r) b (r_locals r);
  Ok (r <| r_schema := s |>, p).
Definition r_index (b : Binder) (i : nat) (r : Renderer) : res (Renderer * string) :=
  do! (s, p) <- schema_index (r_schema r) b i (r_locals r);
  Ok (r <| r_schema := s |>, p).
(** field + push, as every binding kind does *)
Definition r_bind (b : Binder) (params : BindingParams) (r : Renderer) : res Renderer :=
  do! (r, p) <- r_field b r;
  Ok (r <| r_bindings ::= push_binding p (mkBinding params (b_pipe b)) |>).

(** the void tags of src/rendering.rs:196-214 other than "img"; also src/view.rs:411-430 *)
Definition void_tags : list string :=
  ["input"; "area"; "base"; "br"; "col"; "command"; "embed"; "hr"; "keygen"; "link"; "meta";
   "param"; "source"; "track"; "wbr"].
Definition is_void (tag : string) : bool := existsb (String.eqb tag) void_tags.

Section render.
  (** src/rendering.rs:293-295 (trait object) *)
  Context (translate : string -> string).
  (** src/css/reader.rs:29-35; [None] when the text does not parse. *)
  Context (read_inline_css : string -> option (list Declaration)).
  Context (templates : gmap string Html).

  (** Spans of a text or attribute: each [Binder] span registers its binding
      and shows the placeholder (src/rendering.rs:59-77 and 139-157). *)
  Fixpoint render_spans (tr : string -> string) (mk : nat -> BindingParams) (i : nat)
      (spans : TextBinding) (r : Renderer) : res (Renderer * list string) :=
    match spans with
    | [] => Ok (r, [])
    | TSString s :: spans' =>
        do! (r, l) <- render_spans tr mk (S i) spans' r;
        Ok (r, tr s :: l)
    | TSBinder b :: spans' =>
        do! r <- r_bind b (mk i) r;
        do! (r, l) <- render_spans tr mk (S i) spans' r;
        Ok (r, binder_to_string b :: l)
    end.

  (** src/rendering.rs:56-82 *)
  Definition render_text (text : TextBinding) (r : Renderer) : res (Renderer * NodeId) :=
    let (t, node) := new_leaf default_layout (r_tree r) in
    let r := r <| r_tree := t |> in
    do! (r, spans) <- render_spans translate (BText node) 0 text r;
    let element := create_element node <| e_text := Some spans |> in
    do! t <- set_ctx node element (r_tree r);
    Ok (r <| r_tree := t |>, node).

  (** src/rendering.rs:84-100 *)
  Definition bg_layout : TStyle :=
    default_layout <| ts_size := mkSize (DimPercent f1) (DimPercent f1) |>
                   <| ts_min_size := mkSize (DimPercent f1) (DimPercent f1) |>.
  Definition render_bg_image (src : string) (r : Renderer) : res (Renderer * NodeId) :=
    let (t, node) := new_leaf bg_layout (r_tree r) in
    let element := create_element node
      <| e_backgrounds ::= update_at 0 background_default
           (fun b => b <| bg_image := Some src |> <| bg_is_src := true |>) |> in
    do! t <- set_ctx node element t;
    Ok (r <| r_tree := t |>, node).

  (** src/controls/img.rs:9-14 *)
  Definition render_img (img : Element) (r : Renderer) : res (Renderer * NodeId) :=
    render_bg_image (match e_attrs img !! "src" with Some s => s | None => "" end) r.

  (** src/rendering.rs:173-181: callback arguments *)
  Fixpoint render_args (args : list CallbackArgument) (r : Renderer)
    : res (Renderer * list HandlerArgument) :=
    match args with
    | [] => Ok (r, [])
    | CAKeyword k :: args' =>
        do! (r, l) <- render_args args' r; Ok (r, HAKeyword k :: l)
    | CAEvent :: args' =>
        do! (r, l) <- render_args args' r; Ok (r, HAEvent :: l)
    | CABinder b :: args' =>
        do! (r, path) <- r_field b r;
        do! (r, l) <- render_args args' r; Ok (r, HABinder path (b_pipe b) :: l)
    end.

  (** src/rendering.rs:107-190: one element binding *)
  Definition render_binding (node : NodeId) (st : Renderer * Element) (b : ElementBinding)
    : res (Renderer * Element) :=
    let '(r, element) := st in
    match b with
    | EBNone key value =>
        let element :=
          if String.eqb key "style"
          then match read_inline_css value with
               | Some s => element <| e_style := s |>
               | None => element
               end
          else element in
        let r := if String.eqb key "id" then r <| r_static_id ::= <[value := node]> |> else r in
        Ok (r, element <| e_attrs ::= <[key := value]> |>)
    | EBTag key binder =>
        do! r <- r_bind binder (BTag node key) r;
        Ok (r, element <| e_hints ::= fun h => h <| dynamic_attrs ::= fun s => {[key]} ∪ s |> |>)
    | EBAttribute key text =>
        match as_simple_text text with
        | Some value => Ok (r, element <| e_attrs ::= <[key := value]> |>)
        | None =>
            do! (r, spans) <- render_spans (fun s => s) (BAttribute node key) 0 text r;
            Ok (r, element
              <| e_hints ::= fun h =>
                   let h := h <| dynamic_attrs ::= fun s => {[key]} ∪ s |> in
                   let h := if String.eqb key "class" then h <| has_dynamic_classes := true |> else h in
                   if String.eqb key "id" then h <| has_dynamic_id := true |> else h |>
              <| e_attrs ::= <[key := text_to_string spans]> |>
              <| e_attrs_bindings ::= <[key := spans]> |>)
        end
    | EBCallback event args =>
        do! (r, handler) <- render_args args r;
        Ok (r, element <| e_listeners ::= <[event := handler]> |>)
    | EBAlias _ _ | EBRepeat _ _ _ | EBVisibility _ _ => Ok (r, element)
    end.

  (** src/rendering.rs:229-238: [overridden.insert(name, locals.insert(name, path))] *)
  Definition bind_alias (st : Renderer * gmap string (option string)) (a : string * Binder)
    : res (Renderer * gmap string (option string)) :=
    let '(r, overridden) := st in
    let '(name, binder) := a in
    do! (r, path) <- r_field binder r;
    let overridden := <[name := r_locals r !! name]> overridden in
    Ok (r <| r_locals ::= <[name := path]> |>, overridden).

  (** src/rendering.rs:277-283: put overridden names back (each key once, so the
      hash order is irrelevant). *)
  Definition restore_one (k : string) (v : option string) (l : gmap string string) : gmap string string :=
    match v with
    | Some v => <[k := v]> l
    | None => delete k l
    end.
  Definition restore (overridden : gmap string (option string)) (r : Renderer) : Renderer :=
    r <| r_locals ::= fun l => map_fold restore_one l overridden |>.

  (** src/rendering.rs:214-225: template links; link bindings come first. *)
  Definition expand_child (child : Html) : res Html :=
    match as_template_link child with
    | Some (id, bindings) =>
        match templates !! id with
        | None => Err (ETemplateNotFound id)
        | Some t => Ok (mkHtml (h_tag t) (bindings ++ h_bindings t) (h_text t) (h_children t))
        end
    | None => Ok child
    end.

  (** src/rendering.rs:48-54, 102-298.  Templates may refer to templates, so
      the recursion is on fuel; [Hang] means rendering does not end. *)
  Fixpoint render_node (fuel : nat) (template : Html) (r : Renderer) {struct fuel}
    : res (Renderer * NodeId) :=
    match fuel with
    | O => Hang
    | S fuel =>
      match h_text template with
      | Some text => render_text text r
      | None =>
        let (t, node) := new_leaf default_layout (r_tree r) in
        let r := r <| r_tree := t |> in
        let element := create_element node <| e_tag := h_tag template |> in
        do! (r, element) <- foldR (render_binding node) (r, element) (h_bindings template);
        do! (r, children) <-
          (if String.eqb (e_tag element) "img" then
             do! (r, c) <- render_img element r; Ok (r, [c])
           else if is_void (e_tag element) then Ok (r, [])
           else
             foldR (fun '(r, children) child =>
               do! child <- expand_child child;
               do! (r, overridden) <- foldR bind_alias (r, ∅) (aliases (h_bindings child));
               do! (r, children) <-
                 match as_visibility child with
                 | Some (visible, binder) =>
                     do! (r, path) <- r_field binder r;
                     do! (r, c) <- render_node fuel child r;
                     let b := mkBinding (BVisibility node c visible) (b_pipe binder) in
                     Ok (r <| r_bindings ::= push_binding path b |>, children ++ [c])
                 | None =>
                     match as_repeat child with
                     | Some (name, count, binder) =>
                         do! (r, array) <- r_field binder r;
                         let start := List.length children in
                         let b := mkBinding (BRepeat node start count) (b_pipe binder) in
                         let r := r <| r_bindings ::= push_binding array b |> in
                         let old := r_locals r !! name in
                         let r := r <| r_locals ::= delete name |> in
                         do! (r, children) <-
                           foldR (fun '(r, children) n =>
                             do! (r, path) <- r_index binder n r;
                             let r := r <| r_locals ::= <[name := path]> |> in
                             do! (r, c) <- render_node fuel child r;
                             Ok (r, children ++ [c])) (r, children) (seq 0 count);
                         Ok (r <| r_locals ::= restore_one name old |>, children)
                     | None =>
                         do! (r, c) <- render_node fuel child r;
                         Ok (r, children ++ [c])
                     end
                 end;
               Ok (restore overridden r, children)) (r, []) (h_children template));
        let element := element <| e_children := children |> in
        do! t <- set_ctx node element (r_tree r);
        do! t <- set_children node children t;
        Ok (r <| r_tree := t |>, node)
      end
    end.

  (** src/rendering.rs:39-46 *)
  Definition render (fuel : nat) (body : Html) (r : Renderer) : res (Renderer * NodeId * NodeId) :=
    let (t, root) := new_leaf default_layout (r_tree r) in
    do! t <- set_ctx root (create_element root) t;
    let r := r <| r_tree := t |> in
    do! (r, body) <- render_node fuel body r;
    do! t <- add_child root body (r_tree r);
    Ok (r <| r_tree := t |>, root, body).
End render.
