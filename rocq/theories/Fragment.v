(** * Reading the page: [View::body] and [Fragment], src/view.rs:446-490. *)
From stdpp Require Import gmap.
From Verif Require Import Str F32 Res Json PropKey Html Css Element Tree ViewModel View.

(** A fragment is an element and the tree it belongs to (src/view.rs:458-462); here only the element
    is kept, the tree is passed.  src/view.rs:446-455: [expect] panics without an element. *)
Definition view_body (v : View) : res Element := unwrap (get_ctx (v_tree v) (v_body v)).

(** src/view.rs:464-484.  An [Err] of taffy's [children] gives no children; taffy 0.5's
    [children] indexes a slot map and panics for a node that does not exist ([children] of Tree.v).
    [unwrap] panics for a child without an element. *)
Definition fragment_children (t : Tree) (e : Element) : res (list Element) :=
  match children t (e_node e) with
  | Ok cs => mapR (fun c => unwrap (get_ctx t c)) cs
  | Err _ => Ok []
  | Panic => Panic
  | Hang => Hang
  end.
