(** * What a document stands for: its body and its templates (C55, C60). *)
From stdpp Require Import gmap.
From RecordUpdate Require Import RecordUpdate.
From Verif Require Import Str Html Css Element Tree ViewModel SpecRender SpecTree SpecLive.

(** the value of the attribute [id] of an element: the last one *)
Definition has_id (h : Html) (id : string) : Prop :=
  exists a b, h_bindings h = a ++ EBNone "id" id :: b /\ forall v, EBNone "id" v ∉ b.
(** [c] is <template id="id">h</template>, with the one child [h] *)
Definition is_template (c : Html) (id : string) (h : Html) : Prop :=
  h_tag c = "template" /\ has_id c id /\ h_children c = [h].
(** among the elements [l], the last template of that name *)
Definition template_in (l : list Html) (id : string) (h : Html) : Prop :=
  exists a c b, l = a ++ c :: b /\ is_template c id h /\ forall c' h', c' ∈ b -> ~ is_template c' id h'.
(** what stands before the body, and the body: the first element of that name, or
    an empty element if there is none *)
Definition split_at_body (l before : list Html) (body : Html) : Prop :=
  (forall c, c ∈ before -> h_tag c <> "body") /\
  ((exists after, l = before ++ body :: after /\ h_tag body = "body") \/ (l = before /\ body = mkHtml "" [] None [])).
(** the templates that links may name: the ones before the body, by "#id" *)
Definition document_templates (doc : Html) (templates : gmap string Html) (body : Html) : Prop :=
  exists before, split_at_body (h_children doc) before body /\
    forall name h, templates !! name = Some h <-> exists id, name = "#" +:+ id /\ template_in before id h.

(** ** Styles in a document (C55) *)
(** an attribute style="@..." that holds a value of the data *)
Definition style_bound (h : Html) : Prop := forall text, EBAttribute "style" text ∈ h_bindings h -> exists b, TSBinder b ∈ text.
Definition styles_bound (templates : gmap string Html) (body : Html) : Prop :=
  style_bound body /\ forall h, inside templates body h -> style_bound h.

(** ** The loaded page (C60) *)
(** what stands at [n] and below it in the page is what the template says, apart
    from the rules of the style sheet that each element has been given *)
Section carries.
  Context (read : string -> option (list Declaration)) (t : Tree).
  Fixpoint carries (n : nat) (r : rnode) : Prop :=
    (exists rules, get_ctx t n = Some (elem_of read n r <| e_styles := rules |>)) /\
    match r with
    | RElem _ _ kids _ =>
        (fix go (m : nat) (l : list rnode) : Prop := match l with [] => True | k :: l => carries m k /\ go (m + rsize k) l end) (S n) kids
    | _ => True
    end.
End carries.
(** a condition of the template decides whether [q] shows its child [c] *)
Definition conditional (bs : Bindings) (q c : NodeId) : Prop := exists p b vis, In (p, b) (flat bs) /\ bd_params b = BVisibility q c vis.
