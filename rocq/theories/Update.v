(** * Applying reactions to the tree: [View::update_tree] (src/view.rs:180-301)
      and [update_img_src] of src/controls/img.rs. *)
From stdpp Require Import gmap.
From RecordUpdate Require Import RecordUpdate.
From Verif Require Import Str F32 Res Json PropKey Html Css Element Tree ViewModel.

(** the search loop of src/view.rs:213-225: [index] counts down from
    min(current.len(), definition_index) until the sibling before the slot
    precedes the node in the definition. *)
Fixpoint insertion_index (definition current : list NodeId) (definition_index index : nat)
  : res nat :=
  match index with
  | O => Ok O
  | S i =>
      (* index -= 1; current[index] *)
      do! sibling <- unwrap (current !! i);
      do! sibling_index <- ok_or (position sibling definition) (EChildNotFound sibling);
      if (sibling_index <? definition_index)%nat then Ok (S i)
      else insertion_index definition current definition_index i
  end.

(** src/view.rs:195-243 *)
Definition reattach (p node : NodeId) (visible : bool) (t : Tree) : res Tree :=
  do! pe <- get_element t p;
  let definition := e_children pe in
  do! definition_index <- ok_or (position node definition) (EChildNotFound node);
  do! current <- children t p;
  let current_index := position node current in
  if visible then
    match current_index with
    | Some _ => Ok t
    | None =>
        do! index <- insertion_index definition current definition_index
                       (Nat.min (List.length current) definition_index);
        insert_child_at_index p index node t
    end
  else
    match current_index with
    | Some i => remove_child_at_index p i t
    | None => Ok t
    end.

(** a slice [&v[a..b]]: panics unless a <= b <= len *)
Definition slice {A} (a b : nat) (l : list A) : res (list A) :=
  if (a <=? b)%nat && (b <=? List.length l)%nat then Ok (take (b - a) (drop a l)) else Panic.

(** src/view.rs:244-267 *)
Definition repeat_children (p : NodeId) (start cursor end_ : nat) (t : Tree) : res Tree :=
  do! pe <- get_element t p;
  let cs := e_children pe in
  do! visible <- children t p;
  do! shown <- slice start cursor cs;
  do! hidden <- slice cursor end_ cs;
  do! t <- foldR (fun t n => if memb n visible then Ok t else add_child p n t) t shown;
  foldR (fun t n => if memb n visible then remove_child p n t else Ok t) t hidden.

(** src/controls/img.rs:18-30 *)
Definition update_img_src (img : NodeId) (src : string) (t : Tree) : res Tree :=
  do! c <- child_at_index t img 0;
  do! e <- get_element t c;
  let e := e <| e_backgrounds ::= update_at 0 background_default
                  (fun b => b <| bg_image := Some src |> <| bg_is_src := true |>) |> in
  mark_dirty c (put_element c e t).

Section update.
  Context (read_inline_css : string -> option (list Declaration)).

  (** The part of the view [update_tree] touches: the tree and the id table. *)
  Definition TreeIds : Type := Tree * gmap string NodeId.

  (** src/view.rs:180-301 *)
  Definition update_tree (st : TreeIds) (reaction : Reaction) : res TreeIds :=
    let '(t, ids) := st in
    match reaction with
    | RType node span text =>
        match get_ctx t node with
        | Some e =>
            match e_text e with
            | Some spans =>
                do! t <- mark_dirty node (put_element node (e <| e_text := Some (text_set span text spans) |>) t);
                Ok (t, ids)
            | None => Err EElementTextContentNotFound
            end
        | None => Err EElementTextContentNotFound
        end
    | RReattach p node visible =>
        do! t <- reattach p node visible t; Ok (t, ids)
    | RRepeat p start cursor end_ =>
        do! t <- repeat_children p start cursor end_ t; Ok (t, ids)
    | RTag node key tag =>
        do! e <- get_element t node;
        let e := if tag : bool then e <| e_attrs ::= <[key := key]> |> else e <| e_attrs ::= delete key |> in
        Ok (put_element node e t, ids)
    | RBind node key span text =>
        do! e <- get_element t node;
        do! spans <- ok_or (e_attrs_bindings e !! key) (EAttributeBindingNotFound key);
        let spans := text_set span text spans in
        let value := text_to_string spans in
        let e := e <| e_attrs_bindings ::= <[key := spans]> |> <| e_attrs ::= <[key := value]> |> in
        let e := if String.eqb key "style"
                 then match read_inline_css value with
                      | Some s => e <| e_style := s |>
                      | None => e
                      end
                 else e in
        let ids := if String.eqb key "id" then <[value := node]> ids else ids in
        let t := put_element node e t in
        if String.eqb (e_tag e) "img" && String.eqb key "src"
        then do! t <- update_img_src node value t; Ok (t, ids)
        else Ok (t, ids)
    end.

  Definition update_trees : TreeIds -> list Reaction -> res TreeIds := foldR update_tree.

  (** src/view.rs:303-325: [apply_default_bindings_state] *)
  Definition default_reactions (bs : Bindings) : list Reaction :=
    flat_map (fun e => omap (fun b => match bd_params b with
                                      | BVisibility p n _ => Some (RReattach p n false)
                                      | _ => None
                                      end) (snd e)) bs.
  Definition apply_default_bindings_state (bs : Bindings) (st : TreeIds) : res TreeIds :=
    update_trees st (default_reactions bs).
End update.
