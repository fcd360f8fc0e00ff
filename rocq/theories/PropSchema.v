(** * Property C06: the model a template builds has every position it names.

    Vocabulary: SpecSchema.v (tokens, plain and consistent pointers),
    SpecRender.v ([meaning], [pointers]: everything a template names). *)
From stdpp Require Import gmap.
From RecordUpdate Require Import RecordUpdate.
From Verif Require Import Str F32 Res Json PropKey Html Css Element Tree ViewModel Render Update Matching
  Cascade Initial Animation Apply Styling Events View SpecRender SpecSchema SchemaFacts Samples PropRender.

(** C06.  Whatever the order of the definitions, and whatever was there before,
    every pointer resolves afterwards. *)
Theorem C06_defined_pointers_resolve : forall ps v p,
  Forall (fun q => plain_pointer q = true) ps -> consistent ps -> p ∈ ps ->
  is_Some (pointer (foldl define_value v ps) p).
Proof. exact schema_resolves. Qed.
Print Assumptions C06_defined_pointers_resolve.

(** C06.  In a loaded view every pointer the template names resolves. *)
Theorem C06_template_pointers_resolve : forall X fuel doc css v templates body rn p,
  from_document X fuel doc css = Ok v -> scan_document (h_children doc) ∅ = (templates, body) -> clean templates body ->
  meaning (x_translate X) templates fuel ∅ body = Some rn ->
  Forall (fun q => plain_pointer q = true) (pointers rn) -> consistent (pointers rn) ->
  p ∈ pointers rn -> is_Some (pointer (v_model v) p).
Proof. exact document_resolves. Qed.
Print Assumptions C06_template_pointers_resolve.

(** Plain indexes are needed: [{ a.01 }] defines item 1 of a list, but the
    pointer "/a/01" resolves nowhere. *)
Theorem C06_leading_zero_refuted : pointer (define_value schema_new "/a/01") "/a/01" = None.
Proof. vm_compute. reflexivity. Qed.
Print Assumptions C06_leading_zero_refuted.
(** So is consistency: a field defined on a list erases the list. *)
Theorem C06_inconsistent_refuted : pointer (define_value (define_value schema_new "/a/0") "/a/b") "/a/0" = None.
Proof. vm_compute. reflexivity. Qed.
Print Assumptions C06_inconsistent_refuted.

(** The hypotheses are met by the page of PropRender.v. *)
Definition agree_bool (p q : list string) : bool :=
  (fix go (p q : list string) : bool :=
     match p, q with
     | a :: p, b :: q => Bool.eqb (indexes a) (indexes b) && (negb (String.eqb a b) || go p q)
     | _, _ => true
     end) p q.
Lemma agree_bool_ok p : forall q, agree_bool p q = true -> agree_on p q.
Proof.
  induction p as [|a p IH]; intros [|b q] H [|c pre] a' b' x y Hp Hq; try done.
  - cbn in H. apply andb_prop in H as [H _]. injection Hp as -> _. injection Hq as -> _. by apply Bool.eqb_prop.
  - cbn in H. apply andb_prop in H as [_ H]. injection Hp as -> ->. injection Hq as -> ->. rewrite String.eqb_refl in H. cbn in H.
    by apply (IH _ H pre _ _ x y).
Qed.
Example rich_pointers_ok : match meaning (fun s => s) rich_templates 20 ∅ rich_body with
  | Some rn => forallb plain_pointer (pointers rn) &&
      forallb (fun p => forallb (fun q => agree_bool (tokens p) (tokens q)) (pointers rn)) (pointers rn) &&
      bool_decide ("/rows/1/cells/2/name" ∈ pointers rn)
  | None => false
  end = true.
Proof. vm_compute. reflexivity. Qed.
