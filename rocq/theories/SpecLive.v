(** * Vocabulary for the element tree of a running view (C05, C08-C13, C47-C50). *)
From stdpp Require Import gmap.
From Verif Require Import Str Res Json Element Tree ViewModel SpecTree.

(** the children attached to a node now, in order *)
Definition attached (t : Tree) (n : NodeId) : list NodeId :=
  match t_nodes t !! n with Some x => n_children x | None => [] end.
(** the children its template defines, in document order *)
Definition defined (t : Tree) (n : NodeId) : list NodeId :=
  match get_ctx t n with Some e => e_children e | None => [] end.
Definition parent_of (t : Tree) (n : NodeId) : option NodeId := t_nodes t !! n ≫= n_parent.

(** [l] lists some of the members of [def], in the order of [def] *)
Definition in_order (l def : list NodeId) : Prop := sublist l def.

(** what is shown *)
Definition text_span (t : Tree) (n : NodeId) (i : nat) : option string :=
  e ← get_ctx t n; spans ← e_text e; spans !! i.
Definition attr_spans (t : Tree) (n : NodeId) (key : string) : option (list string) :=
  e ← get_ctx t n; e_attrs_bindings e !! key.
Definition attr (t : Tree) (n : NodeId) (key : string) : option string :=
  e ← get_ctx t n; e_attrs e !! key.

(** A tree in which everything hangs together: a node exists for every id given
    out, with its element; the attached children of a node are some of its
    defined ones (the document root defines none but has the body), each once,
    and link back to it; children are newer than their parent; no node is
    defined twice; an image always has its picture. *)
Record live (t : Tree) (root : NodeId) : Prop := {
  live_beyond : forall n, t_next t <= n -> t_nodes t !! n = None;
  live_node : forall n, n < t_next t -> exists e, get_ctx t n = Some e /\ e_node e = n /\
     (e_tag e = "img" -> attached t n = defined t n /\ List.length (defined t n) = 1);
  live_once : forall n, NoDup (attached t n) /\ NoDup (defined t n);
  live_defined : forall n c, n <> root -> c ∈ attached t n -> c ∈ defined t n;
  live_newer : forall n c, c ∈ attached t n \/ c ∈ defined t n -> n < c < t_next t;
  live_parent : forall n c, c ∈ attached t n <-> parent_of t c = Some n;
  live_place : forall n m c, c ∈ defined t n -> c ∈ defined t m -> n = m;
  live_root : defined t root = [] /\ forall n c, c ∈ defined t n -> c ∉ attached t root
}.

(** a reaction that refers to existing nodes of the right kind *)
Definition reaction_ok (t : Tree) (r : Reaction) : Prop :=
  match r with
  | RType n _ _ => exists e, get_ctx t n = Some e /\ is_Some (e_text e)
  | RReattach p n _ => exists e, get_ctx t p = Some e /\ n ∈ e_children e /\ e_tag e <> "img"
  | RRepeat p start cursor end_ =>
      exists e, get_ctx t p = Some e /\ start <= cursor <= end_ /\ end_ <= List.length (e_children e) /\ e_tag e <> "img"
  | RTag n _ _ => is_Some (get_ctx t n)
  | RBind n key _ _ => exists e, get_ctx t n = Some e /\ is_Some (e_attrs_bindings e !! key)
  end.

(** what a template fixes for good about an element *)
Definition definition_of (e : Element) :=
  (e_node e, e_children e, e_tag e, List.length <$> e_text e, List.length <$> e_attrs_bindings e, e_listeners e, e_hints e).
Definition same_definitions (t t' : Tree) : Prop :=
  t_next t = t_next t' /\ forall n, definition_of <$> get_ctx t n = definition_of <$> get_ctx t' n.

(** members [a, b) of a list *)
Definition block (a b : nat) (l : list NodeId) : list NodeId := take (b - a) (drop a l).

(** ** What one reaction does, slot by slot *)
Definition text_after (r : Reaction) (n : NodeId) (i : nat) (old : option string) : option string :=
  match r with
  | RType m j x => if decide (n = m /\ i = j) then (fun _ => x) <$> old else old
  | _ => old
  end.
Definition attr_spans_after (r : Reaction) (n : NodeId) (key : string) (old : option (list string)) : option (list string) :=
  match r with
  | RBind m k j x => if decide (n = m /\ key = k) then (fun spans => <[j := x]> spans) <$> old else old
  | _ => old
  end.
Definition attr_after (r : Reaction) (n : NodeId) (key : string) (spans : option (list string)) (old : option string) : option string :=
  match r with
  | RTag m k b => if decide (n = m /\ key = k) then if b : bool then Some k else None else old
  | RBind m k j x => if decide (n = m /\ key = k) then join "" <$> spans else old
  | _ => old
  end.
Definition attached_after (t t' : Tree) (r : Reaction) : Prop :=
  match r with
  | RReattach p c visible =>
      (forall d, d ∈ attached t' p <-> if decide (d = c) then visible = true else d ∈ attached t p) /\
      (forall q, q <> p -> attached t' q = attached t q) /\
      (in_order (attached t p) (defined t p) -> in_order (attached t' p) (defined t' p))
  | RRepeat p start cursor end_ =>
      attached t' p = filter (fun d => d ∉ block cursor end_ (defined t p)) (attached t p) ++
                      filter (fun d => d ∉ attached t p) (block start cursor (defined t p)) /\
      (forall q, q <> p -> attached t' q = attached t q)
  | _ => forall q, attached t' q = attached t q
  end.
Record effect (t t' : Tree) (r : Reaction) : Prop := {
  eff_text : forall n i, text_span t' n i = text_after r n i (text_span t n i);
  eff_attr_spans : forall n k, attr_spans t' n k = attr_spans_after r n k (attr_spans t n k);
  eff_attr : forall n k, attr t' n k = attr_after r n k (attr_spans t' n k) (attr t n k);
  eff_attached : attached_after t t' r
}.
(** the id table after a reaction *)
Definition ids_after (r : Reaction) (t' : Tree) (ids : gmap string NodeId) : gmap string NodeId :=
  match r with
  | RBind n key _ _ => if decide (key = "id") then match attr t' n "id" with Some v => <[v := n]> ids | None => ids end else ids
  | _ => ids
  end.

(** ** Slots: the things on the page a binding writes *)
Inductive slot :=
| SText (n : NodeId) (i : nat)               (* a piece of text *)
| SAttr (n : NodeId) (key : string) (i : nat)(* a piece of an attribute *)
| STag (n : NodeId) (key : string)           (* an on/off attribute *)
| SChild (p c : NodeId)                      (* is [c] among the children of [p] *)
| SRange (p : NodeId) (start size : nat).    (* how many of a block of children are there *)
Inductive written := WText (s : string) | WFlag (b : bool) | WCount (k : nat).
Global Instance slot_eq_dec : EqDecision slot.
Proof. solve_decision. Defined.

Definition slot_of (b : BindingParams) : slot :=
  match b with
  | BText n i => SText n i
  | BAttribute n k i => SAttr n k i
  | BTag n k => STag n k
  | BVisibility p c _ => SChild p c
  | BRepeat p s z => SRange p s z
  end.
Definition writes (r : Reaction) : slot * written :=
  match r with
  | RType n i x => (SText n i, WText x)
  | RBind n k i x => (SAttr n k i, WText x)
  | RTag n k b => (STag n k, WFlag b)
  | RReattach p c b => (SChild p c, WFlag b)
  | RRepeat p s c z => (SRange p s (z - s), WCount (c - s))
  end.
(** the last thing a list of reactions writes to a slot *)
Fixpoint last_written (l : slot) (rs : list Reaction) : option written :=
  match rs with
  | [] => None
  | r :: rs =>
      match last_written l rs with
      | Some w => Some w
      | None => if decide (fst (writes r) = l) then Some (snd (writes r)) else None
      end
  end.
(** what the page shows in a slot *)
Definition shows (t : Tree) (l : slot) (w : written) : Prop :=
  match l, w with
  | SText n i, WText s => text_span t n i = Some s
  | SAttr n k i, WText s => exists spans, attr_spans t n k = Some spans /\ (i < List.length spans -> spans !! i = Some s)
  | STag n k, WFlag b => attr t n k = if b then Some k else None
  | SChild p c, WFlag b => c ∈ attached t p <-> b = true
  | SRange p s z, WCount k => forall j c, j < z -> defined t p !! (s + j) = Some c -> (c ∈ attached t p <-> j < k)
  | _, _ => False
  end.
(** a slot another binding may write as a side effect *)
Definition disturbs (t : Tree) (l m : slot) : Prop :=
  match l, m with
  | STag n k, SAttr n' k' _ => n = n' /\ k = k'
  | SChild p c, SRange p' s z => p = p' /\ c ∈ block s (s + z) (defined t p)
  | SRange p s z, SChild p' c => p = p' /\ c ∈ block s (s + z) (defined t p)
  | SRange p s z, SRange p' s' z' => p = p' /\ (s, z) <> (s', z') /\ exists c, c ∈ block s (s + z) (defined t p) /\ c ∈ block s' (s' + z') (defined t p)
  | _, _ => False
  end.
(** no two bindings write the same slot *)
Definition alone (t : Tree) (bs : Bindings) (p : string) (b : Binding) : Prop :=
  forall p' b', In (p', b') (flat bs) ->
    (slot_of (bd_params b') = slot_of (bd_params b) -> p' = p /\ b' = b) /\
    ~ disturbs t (slot_of (bd_params b)) (slot_of (bd_params b')).

(** an attribute with bound pieces has the pieces put together as its value *)
Definition joined (t : Tree) (n : NodeId) (key : string) : Prop :=
  forall spans, attr_spans t n key = Some spans -> attr t n key = Some (join "" spans).
