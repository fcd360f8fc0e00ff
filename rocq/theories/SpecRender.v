(** * Meaning of a template (C12, C14-C16): the tree of nodes it stands for,
      with every name resolved.

    Names are resolved in an environment that is passed down the template, as
    for lexical scoping in any language; there is no mutable table of names to
    save and restore. *)
From stdpp Require Import gmap.
From Verif Require Import Str Html Element ViewModel.

(** A piece of text: a constant, or the value at a pointer (after the
    transformers of its pipe), standing at first for [shown]. *)
Inductive rspan :=
| RStr (s : string)
| RGet (path : string) (pipe : list string) (shown : string).

Inductive rarg := RKeyword (k : string) | REvent | RValue (path : string) (pipe : list string).

Inductive rbind :=
| RStatic (key value : string)
| RPlain (key value : string)
| RFlag (key : string) (path : string) (pipe : list string)
| RAttr (key : string) (spans : list rspan)
| RHandler (event : string) (args : list rarg).

(** A name given to a pointer, kid [i] of a node shown on a condition, or kids
    [start, start + count) showing the items of a list. *)
Inductive mark :=
| MName (path : string)
| MCond (i : nat) (visible : bool) (path : string) (pipe : list string)
| MLoop (start count : nat) (path : string) (pipe : list string).

Inductive rnode :=
| RText (spans : list rspan)
| RImage (src : string)
| RElem (tag : string) (binds : list rbind) (kids : list rnode) (marks : list mark).

(** ** Names *)
Notation env := (gmap string string) (only parsing).

(** [a.b.c] is the pointer of [a] if [a] is a local name, "/a" otherwise,
    followed by "/b/c" *)
Definition slashed (keys : list string) : string :=
  foldr (fun k s => "/" +:+ k +:+ s) "" keys.
Definition resolve (E : env) (b : Binder) : option string :=
  match b_path b with
  | [] => None
  | head :: tail => Some (match E !! head with Some p => p | None => "/" +:+ head end +:+ slashed tail)
  end.

(** aliases are sequential definitions *)
Fixpoint resolve_aliases (E : env) (l : list (string * Binder)) : option (env * list string) :=
  match l with
  | [] => Some (E, [])
  | (name, b) :: l =>
      p ← resolve E b;
      '(E, ps) ← resolve_aliases (<[name := p]> E) l;
      Some (E, p :: ps)
  end.

(** ** Text and attributes *)
Definition resolve_span (translate : string -> string) (E : env) (s : TextSpan) : option rspan :=
  match s with
  | TSString s => Some (RStr (translate s))
  | TSBinder b => p ← resolve E b; Some (RGet p (b_pipe b) (binder_to_string b))
  end.
Definition resolve_arg (E : env) (a : CallbackArgument) : option rarg :=
  match a with
  | CAKeyword k => Some (RKeyword k)
  | CAEvent => Some REvent
  | CABinder b => p ← resolve E b; Some (RValue p (b_pipe b))
  end.
(** [None]: the binding gives nothing to the element itself *)
Definition resolve_binding (E : env) (b : ElementBinding) : option (option rbind) :=
  match b with
  | EBNone key value => Some (Some (RStatic key value))
  | EBTag key b => p ← resolve E b; Some (Some (RFlag key p (b_pipe b)))
  | EBAttribute key text =>
      match as_simple_text text with
      | Some value => Some (Some (RPlain key value))
      | None => spans ← mapM (resolve_span (fun s => s) E) text; Some (Some (RAttr key spans))
      end
  | EBCallback event args => args ← mapM (resolve_arg E) args; Some (Some (RHandler event args))
  | EBAlias _ _ | EBRepeat _ _ _ | EBVisibility _ _ => Some None
  end.
Definition resolve_bindings (E : env) (l : list ElementBinding) : option (list rbind) :=
  l ← mapM (resolve_binding E) l; Some (omap id l).

(** value of the last static attribute [key] *)
Definition static_attr (key : string) (binds : list rbind) : option string :=
  foldl (fun v b => match b with
                    | RStatic k x | RPlain k x => if String.eqb k key then Some x else v
                    | RAttr k spans =>
                        if String.eqb k key
                        then Some (join "" (map (fun s => match s with RStr s => s | RGet _ _ s => s end) spans))
                        else v
                    | _ => v
                    end) None binds.

(** ** Nodes *)
(** elements that have no children *)
Definition childless : list string :=
  ["input"; "area"; "base"; "br"; "col"; "command"; "embed"; "hr"; "keygen"; "link"; "meta";
   "param"; "source"; "track"; "wbr"].

Definition shift (k : nat) (m : mark) : mark :=
  match m with
  | MName p => MName p
  | MCond i v p q => MCond (k + i) v p q
  | MLoop s c p q => MLoop (k + s) c p q
  end.
(** concatenation of the groups of kids the child templates give *)
Fixpoint gather (k : nat) (l : list (list rnode * list mark)) : list rnode * list mark :=
  match l with
  | [] => ([], [])
  | (kids, marks) :: l =>
      let '(kids', marks') := gather (k + List.length kids) l in
      (kids ++ kids', map (shift k) marks ++ marks')
  end.

Section meaning.
  Context (translate : string -> string) (templates : gmap string Html).

  (** a link element with an [href] stands for the template it names, with the
      bindings of the link put before the template's own *)
  Definition linked (child : Html) : option Html :=
    match as_template_link child with
    | Some (id, bindings) =>
        t ← templates !! id;
        Some (mkHtml (h_tag t) (bindings ++ h_bindings t) (h_text t) (h_children t))
    | None => Some child
    end.

  (** [None] when the template is not finite, links to a missing template or
      has an empty path; [fuel] bounds the depth. *)
  Fixpoint meaning (fuel : nat) (E : env) (h : Html) : option rnode :=
    match fuel with
    | O => None
    | S fuel =>
      match h_text h with
      | Some text => spans ← mapM (resolve_span translate E) text; Some (RText spans)
      | None =>
          binds ← resolve_bindings E (h_bindings h);
          if String.eqb (h_tag h) "img" then
            Some (RElem (h_tag h) binds [RImage (default "" (static_attr "src" binds))] [])
          else if existsb (String.eqb (h_tag h)) childless then Some (RElem (h_tag h) binds [] [])
          else
            groups ← mapM (fun child =>
              child ← linked child;
              '(E, names) ← resolve_aliases E (aliases (h_bindings child));
              match as_visibility child with
              | Some (visible, b) =>
                  p ← resolve E b;
                  k ← meaning fuel E child;
                  Some ([k], map MName names ++ [MCond 0 visible p (b_pipe b)])
              | None =>
                  match as_repeat child with
                  | Some (name, count, b) =>
                      p ← resolve E b;
                      (* item [i] is the name's meaning in copy [i] *)
                      kids ← mapM (fun i => meaning fuel (<[name := p +:+ "/" +:+ fmt_nat i]> E) child) (seq 0 count);
                      Some (kids, map MName names ++ [MLoop 0 count p (b_pipe b)])
                  | None => k ← meaning fuel E child; Some ([k], map MName names)
                  end
              end) (h_children h);
            let '(kids, marks) := gather 0 groups in
            Some (RElem (h_tag h) binds kids marks)
      end
    end.
End meaning.

(** ** Templates the theorems cover: the aliases of an element have different
    names, and a repeat does not use its own name in the list it repeats. *)
Definition alias_names (h : Html) : list string := map fst (aliases (h_bindings h)).
Definition own_name (h : Html) : bool :=
  match as_repeat h with
  | Some (name, _, b) => match b_path b with head :: _ => String.eqb head name | [] => false end
  | None => false
  end.
Definition clean_element (h : Html) : Prop := NoDup (alias_names h) /\ own_name h = false.
(** the elements below [h], links followed *)
Inductive inside (templates : gmap string Html) : Html -> Html -> Prop :=
| inside_child h c c' : In c (h_children h) -> linked templates c = Some c' -> inside templates h c'
| inside_below h c c' d : In c (h_children h) -> linked templates c = Some c' -> inside templates c' d -> inside templates h d.
Definition clean (templates : gmap string Html) (h : Html) : Prop :=
  forall h', inside templates h h' -> clean_element h'.

(** ** Numbering: nodes are created in document order *)
Fixpoint rsize (r : rnode) : nat :=
  match r with
  | RText _ | RImage _ => 1
  | RElem _ _ kids _ => S ((fix go (l : list rnode) : nat := match l with [] => 0 | k :: l => rsize k + go l end) kids)
  end.
Fixpoint place (n : nat) (kids : list rnode) : list nat :=
  match kids with
  | [] => []
  | k :: kids => n :: place (n + rsize k) kids
  end.

(** ** Everything the template names *)
Definition span_paths (l : list rspan) : list string :=
  omap (fun s => match s with RGet p _ _ => Some p | RStr _ => None end) l.
Definition arg_paths (l : list rarg) : list string :=
  omap (fun a => match a with RValue p _ => Some p | _ => None end) l.
Definition bind_paths (b : rbind) : list string :=
  match b with
  | RStatic _ _ | RPlain _ _ => []
  | RFlag _ p _ => [p]
  | RAttr _ spans => span_paths spans
  | RHandler _ args => arg_paths args
  end.
Definition mark_paths (m : mark) : list string :=
  match m with
  | MName p | MCond _ _ p _ => [p]
  | MLoop _ count p _ => p :: map (fun i => p +:+ "/" +:+ fmt_nat i) (seq 0 count)
  end.
Fixpoint pointers (r : rnode) : list string :=
  match r with
  | RText spans => span_paths spans
  | RImage _ => []
  | RElem _ binds kids marks => flat_map bind_paths binds ++ flat_map mark_paths marks ++ flat_map pointers kids
  end.

(** ** The bindings of the nodes, node [n] first *)
Fixpoint span_bindings (mk : nat -> BindingParams) (i : nat) (l : list rspan) : list (string * Binding) :=
  match l with
  | [] => []
  | RStr _ :: l => span_bindings mk (S i) l
  | RGet p q _ :: l => (p, mkBinding (mk i) q) :: span_bindings mk (S i) l
  end.
Definition bind_bindings (n : nat) (b : rbind) : list (string * Binding) :=
  match b with
  | RFlag key p q => [(p, mkBinding (BTag n key) q)]
  | RAttr key spans => span_bindings (BAttribute n key) 0 spans
  | _ => []
  end.
Definition mark_bindings (n : nat) (ids : list nat) (m : mark) : list (string * Binding) :=
  match m with
  | MName _ => []
  | MCond i v p q => match ids !! i with Some c => [(p, mkBinding (BVisibility n c v) q)] | None => [] end
  | MLoop start count p q => [(p, mkBinding (BRepeat n start count) q)]
  end.
Fixpoint bindings_of (n : nat) (r : rnode) : list (string * Binding) :=
  match r with
  | RText spans => span_bindings (BText n) 0 spans
  | RImage _ => []
  | RElem _ binds kids marks =>
      flat_map (bind_bindings n) binds ++ flat_map (mark_bindings n (place (S n) kids)) marks ++
      (fix go (m : nat) (l : list rnode) : list (string * Binding) :=
         match l with [] => [] | k :: l => bindings_of m k ++ go (m + rsize k) l end) (S n) kids
  end.

(** the [id] attributes *)
Fixpoint ids_of (n : nat) (r : rnode) : list (string * nat) :=
  match r with
  | RText _ | RImage _ => []
  | RElem _ binds kids _ =>
      omap (fun b => match b with RStatic k v => if String.eqb k "id" then Some (v, n) else None | _ => None end) binds ++
      (fix go (m : nat) (l : list rnode) : list (string * nat) :=
         match l with [] => [] | k :: l => ids_of m k ++ go (m + rsize k) l end) (S n) kids
  end.
