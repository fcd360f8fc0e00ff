(** * What a rendered template looks like in the element tree (C14-C16). *)
From stdpp Require Import gmap.
From RecordUpdate Require Import RecordUpdate.
From Verif Require Import Str F32 Res PropKey Html Css Element Tree ViewModel Render SpecRender.

Definition span_shown (s : rspan) : string := match s with RStr s => s | RGet _ _ s => s end.

Definition handler_of (a : rarg) : HandlerArgument :=
  match a with RKeyword k => HAKeyword k | REvent => HAEvent | RValue p q => HABinder p q end.

Definition add_ids (M : gmap string NodeId) (l : list (string * nat)) : gmap string NodeId :=
  foldl (fun M e => <[fst e := snd e]> M) M l.
Definition own_ids (n : nat) (binds : list rbind) : list (string * nat) :=
  omap (fun b => match b with RStatic k v => if String.eqb k "id" then Some (v, n) else None | _ => None end) binds.

Definition apply_rbind (read : string -> option (list Declaration)) (e : Element) (b : rbind) : Element :=
  match b with
  | RStatic key value =>
      let e := if String.eqb key "style"
               then match read value with Some s => e <| e_style := s |> | None => e end else e in
      e <| e_attrs ::= <[key := value]> |>
  | RPlain key value => e <| e_attrs ::= <[key := value]> |>
  | RFlag key _ _ => e <| e_hints ::= fun h => h <| dynamic_attrs ::= fun s => {[key]} ∪ s |> |>
  | RAttr key spans =>
      e <| e_hints ::= fun h =>
             let h := h <| dynamic_attrs ::= fun s => {[key]} ∪ s |> in
             let h := if String.eqb key "class" then h <| has_dynamic_classes := true |> else h in
             if String.eqb key "id" then h <| has_dynamic_id := true |> else h |>
        <| e_attrs ::= <[key := text_to_string (map span_shown spans)]> |>
        <| e_attrs_bindings ::= <[key := map span_shown spans]> |>
  | RHandler event args => e <| e_listeners ::= <[event := map handler_of args]> |>
  end.

(** ** What stands in the tree *)
Section stands.
  Context (read : string -> option (list Declaration)).

  Definition kids_of (r : rnode) : list rnode := match r with RElem _ _ kids _ => kids | _ => [] end.
  Definition style_for (r : rnode) : TStyle := match r with RImage _ => bg_layout | _ => default_layout end.
  Definition elem_of (n : nat) (r : rnode) : Element :=
    match r with
    | RText spans => create_element n <| e_text := Some (map span_shown spans) |>
    | RImage src => create_element n <| e_backgrounds ::= update_at 0 background_default
           (fun b => b <| bg_image := Some src |> <| bg_is_src := true |>) |>
    | RElem tag binds kids _ =>
        foldl (apply_rbind read) (create_element n <| e_tag := tag |>) binds <| e_children := place (S n) kids |>
    end.

  Fixpoint stands (t : Tree) (par : option nat) (n : nat) (r : rnode) {struct r} : Prop :=
    t_nodes t !! n = Some (mkNode par (place (S n) (kids_of r)) (style_for r) (Some (elem_of n r)) layout_zero) /\
    match r with
    | RElem _ _ kids _ =>
        (fix go (m : nat) (l : list rnode) : Prop :=
           match l with [] => True | k :: l => stands t (Some n) m k /\ go (m + rsize k) l end) (S n) kids
    | _ => True
    end.
  Fixpoint stand_all (t : Tree) (par : option nat) (m : nat) (l : list rnode) : Prop :=
    match l with [] => True | k :: l => stands t par m k /\ stand_all t par (m + rsize k) l end.
End stands.

(** ** Well-formed trees and bindings *)
(** every node has an element that knows its id and (but for the document root)
    its children, in the order of the template; children are newer than their
    parent and link back to it; only the document root has no parent; an image
    has one child, its picture *)
Definition tree_ok (t : Tree) (root : NodeId) : Prop :=
  forall n, n < t_next t -> exists x e,
    t_nodes t !! n = Some x /\ n_ctx x = Some e /\ e_node e = n /\
    (n <> root -> e_children e = n_children x) /\ NoDup (n_children x) /\
    (forall c, c ∈ n_children x -> n < c < t_next t) /\
    (forall c, c ∈ n_children x <-> exists y, t_nodes t !! c = Some y /\ n_parent y = Some n) /\
    (n_parent x = None <-> n = root) /\
    (e_tag e = "img" -> List.length (n_children x) = 1).

(** a binding refers to existing nodes of the right kind *)
Definition binding_ok (t : Tree) (b : Binding) : Prop :=
  match bd_params b with
  | BText n span => exists e spans, get_ctx t n = Some e /\ e_text e = Some spans /\ span < List.length spans
  | BAttribute n key span => exists e, get_ctx t n = Some e /\ is_Some (e_attrs_bindings e !! key)
  | BTag n _ => is_Some (get_ctx t n)
  | BVisibility p n _ => exists e, get_ctx t p = Some e /\ n ∈ e_children e /\ e_tag e <> "img"
  | BRepeat p start size => exists e, get_ctx t p = Some e /\ start + size <= List.length (e_children e) /\ e_tag e <> "img"
  end.

(** the bindings of a renderer or view as (pointer, binding) entries *)
Definition flat (bs : Bindings) : list (string * Binding) :=
  flat_map (fun e => map (pair (fst e)) (snd e)) bs.

(** node ids are not used before they are given out *)
Definition beyond (t : Tree) : Prop := forall m, t_next t <= m -> t_nodes t !! m = None.
