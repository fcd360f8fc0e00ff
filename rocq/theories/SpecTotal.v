(** * Pages that load (C75): every link names a template, no template stands
      inside itself, and every name is a name.

    [SpecDocument.document_templates] says which templates a document has and
    which element is its body. *)
From stdpp Require Import gmap.
From Verif Require Import Str Res Html Css.

(** [d] is written inside [h] *)
Inductive below : Html -> Html -> Prop :=
| below_child h c : c ∈ h_children h -> below h c
| below_deep h c d : c ∈ h_children h -> below c d -> below h d.

(** <link href="#name">; of several [href] the last counts *)
Definition links_to (h : Html) (name : string) : Prop :=
  h_tag h = "link" /\ exists a b, h_bindings h = a ++ EBNone "href" name :: b /\ forall v, EBNone "href" v ∉ b.
(** a link to the template [name] is written inside [h] *)
Definition mentions (h : Html) (name : string) : Prop := exists d, below h d /\ links_to d name.
(** ... inside the template [name'] *)
Definition uses (templates : gmap string Html) (name' name : string) : Prop :=
  exists t, templates !! name' = Some t /\ mentions t name.
(** the template is needed to show the body *)
Definition needed (templates : gmap string Html) (body : Html) (name : string) : Prop :=
  exists first, mentions body first /\ rtc (uses templates) first name.

(** the names an element asks the data for, { name.key.key } *)
Definition asks (b : ElementBinding) (x : Binder) : Prop :=
  match b with
  | EBNone _ _ => False
  | EBAlias _ y | EBTag _ y | EBRepeat _ _ y | EBVisibility _ y => x = y
  | EBAttribute _ text => TSBinder x ∈ text
  | EBCallback _ args => CABinder x ∈ args
  end.
Definition named (h : Html) : Prop :=
  (forall b x, b ∈ h_bindings h -> asks b x -> b_path x <> []) /\
  (forall text x, h_text h = Some text -> TSBinder x ∈ text -> b_path x <> []).
Definition all_named (h : Html) : Prop := named h /\ forall d, below h d -> named d.

(** every link names a template, and no template stands inside itself *)
Record finite_document (templates : gmap string Html) (body : Html) : Prop := {
  fd_links : forall name, needed templates body name -> is_Some (templates !! name);
  fd_finite : forall name, needed templates body name -> ~ tc (uses templates) name name
}.

(** a style sheet without the combinator '+' *)
Definition no_plus_sheet (css : Css) : Prop :=
  forall s sel, s ∈ css_styles css -> sel ∈ s_selectors s -> SCombinator "+" ∉ sel.

(** neither an error nor a crash; [Hang] says that a bound on the loops was
    too low (see SpecEnds.v) *)
Definition never_fails {A} (r : res A) : Prop :=
  match r with Ok _ | Hang => True | Err _ | Panic => False end.
