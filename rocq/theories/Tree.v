(** * The element tree: the part of taffy 0.6's [TaffyTree<Element>] bumaga uses.

    Trusted contract of the taffy crate (not in /repo): nodes live in an arena
    indexed by [NodeId]; each node has an optional parent, an ordered child
    list, a style, a context (the element) and the layout of the last layout
    run.  Node ids are handed out in increasing order and never freed (bumaga
    never removes a node).  Accessing an id that was never created panics
    (slot map indexing). *)
From stdpp Require Import gmap.
From RecordUpdate Require Import RecordUpdate.
From Verif Require Import Str F32 Res PropKey Css Element.

Record Node := mkNode {
  n_parent : option NodeId;
  n_children : list NodeId;
  n_style : TStyle;
  n_ctx : option Element;
  n_layout : Layout
}.
#[global] Instance eta_Node : Settable _ := settable! mkNode <n_parent; n_children; n_style; n_ctx; n_layout>.

Record Tree := mkTree { t_nodes : gmap NodeId Node; t_next : NodeId }.
#[global] Instance eta_Tree : Settable _ := settable! mkTree <t_nodes; t_next>.

Definition tree_new : Tree := mkTree ∅ 0.
Definition layout_zero : Layout := mkLayout vzero vzero vzero.

(** slot map indexing *)
Definition get_node (t : Tree) (n : NodeId) : res Node := unwrap (t_nodes t !! n).
Definition put_node (t : Tree) (n : NodeId) (x : Node) : Tree := t <| t_nodes ::= <[n := x]> |>.

(** [TaffyTree::new_leaf] *)
Definition new_leaf (style : TStyle) (t : Tree) : Tree * NodeId :=
  let n := t_next t in
  (mkTree (<[n := mkNode None [] style None layout_zero]> (t_nodes t)) (S n), n).

(** [TaffyTree::set_node_context(node, Some(element))] *)
Definition set_ctx (n : NodeId) (e : Element) (t : Tree) : res Tree :=
  do! x <- get_node t n; Ok (put_node t n (x <| n_ctx := Some e |>)).

(** src/tree.rs:13-22 *)
Definition get_ctx (t : Tree) (n : NodeId) : option Element := t_nodes t !! n ≫= n_ctx.
Definition get_element (t : Tree) (n : NodeId) : res Element :=
  ok_or (get_ctx t n) (EElementNotFound n).

(** mutation through [get_element_mut]: read, change, write back. *)
Definition put_element (n : NodeId) (e : Element) (t : Tree) : Tree :=
  t <| t_nodes ::= alter (fun x => x <| n_ctx := Some e |>) n |>.

(** [TaffyTree::children], [parent], [style], [get_final_layout] *)
Definition children (t : Tree) (n : NodeId) : res (list NodeId) :=
  do! x <- get_node t n; Ok (n_children x).
Definition parent (t : Tree) (n : NodeId) : res (option NodeId) :=
  do! x <- get_node t n; Ok (n_parent x).
Definition style (t : Tree) (n : NodeId) : res TStyle :=
  do! x <- get_node t n; Ok (n_style x).
Definition final_layout (t : Tree) (n : NodeId) : res Layout :=
  do! x <- get_node t n; Ok (n_layout x).
Definition set_style (n : NodeId) (s : TStyle) (t : Tree) : res Tree :=
  do! x <- get_node t n; Ok (put_node t n (x <| n_style := s |>)).

(** [TaffyTree::mark_dirty] only invalidates the layout cache. *)
Definition mark_dirty (n : NodeId) (t : Tree) : res Tree :=
  do! _ <- get_node t n; Ok t.

Definition set_parent (n : NodeId) (p : option NodeId) (t : Tree) : res Tree :=
  do! x <- get_node t n; Ok (put_node t n (x <| n_parent := p |>)).
Definition put_children (n : NodeId) (cs : list NodeId) (t : Tree) : res Tree :=
  do! x <- get_node t n; Ok (put_node t n (x <| n_children := cs |>)).

(** [TaffyTree::add_child] *)
Definition add_child (p c : NodeId) (t : Tree) : res Tree :=
  do! t <- set_parent c (Some p) t;
  do! cs <- children t p;
  put_children p (cs ++ [c]) t.

(** [TaffyTree::insert_child_at_index] *)
Definition insert_child_at_index (p : NodeId) (i : nat) (c : NodeId) (t : Tree) : res Tree :=
  do! cs <- children t p;
  if (List.length cs <? i)%nat then Err ELayout
  else
    do! t <- set_parent c (Some p) t;
    put_children p (take i cs ++ c :: drop i cs) t.

(** [TaffyTree::remove_child_at_index] *)
Definition remove_child_at_index (p : NodeId) (i : nat) (t : Tree) : res Tree :=
  do! cs <- children t p;
  match cs !! i with
  | None => Err ELayout
  | Some c =>
      do! t <- put_children p (take i cs ++ drop (S i) cs) t;
      set_parent c None t
  end.

(** [TaffyTree::remove_child]: [position(..).unwrap()] *)
Definition remove_child (p c : NodeId) (t : Tree) : res Tree :=
  do! cs <- children t p;
  do! i <- unwrap (position c cs);
  remove_child_at_index p i t.

(** [TaffyTree::child_at_index] *)
Definition child_at_index (t : Tree) (p : NodeId) (i : nat) : res NodeId :=
  do! cs <- children t p;
  match cs !! i with Some c => Ok c | None => Err ELayout end.

(** [TaffyTree::set_children] *)
Definition set_children (p : NodeId) (cs : list NodeId) (t : Tree) : res Tree :=
  do! old <- children t p;
  do! t <- foldR (fun t c => set_parent c None t) t old;
  do! t <- foldR (fun t c =>
             do! prev <- parent t c;
             do! t <- match prev with
                      | Some q => remove_child q c t
                      | None => Ok t
                      end;
             set_parent c (Some p) t) t cs;
  put_children p cs t.
