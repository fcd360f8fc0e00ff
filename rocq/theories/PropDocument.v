(** * Documents and inline styles: C55, C60.

    Vocabulary: SpecDocument.v ([document_templates], [carries],
    [styles_bound]), SpecRender.v ([meaning]), SpecPage.v ([follows]). *)
From Coq Require Import ZArith Lia.
From stdpp Require Import gmap.
From RecordUpdate Require Import RecordUpdate.
From Verif Require Import Str F32 Res Json PropKey Html Css Element Tree ViewModel Render Update Matching
  Cascade Initial Animation Apply Styling Events View SpecLive SpecLog SpecView SpecRender SpecTree SpecSelect SpecPage SpecDocument
  DocumentFacts Samples PropSelect StyleSamples.

(** ** C60 *)
(** A document that loads shows its body (the first child of that name, nothing
    if there is none) with links replaced by the templates before the body, the
    last one of each name; names are scoped lexically; nothing else of the
    document matters.  Every element of the page is what the template says, with
    the rules of the sheet added, and a child is on the page unless a condition
    decides about it. *)
Theorem C60_page_is_the_body : forall X fuel doc css v0 templates body,
  from_document X fuel doc css = Ok v0 -> document_templates doc templates body -> clean templates body ->
  exists rn, SpecRender.meaning (x_translate X) templates fuel ∅ body = Some rn /\ flat (v_bindings v0) ≡ₚ bindings_of 1 rn /\
    v_root v0 = 0 /\ v_body v0 = 1 /\ attached (v_tree v0) 0 = [1] /\ carries (x_read_inline_css X) (v_tree v0) 1 rn /\
    forall q c, q <> 0 -> (c ∈ attached (v_tree v0) q <-> c ∈ defined (v_tree v0) q /\ ~ conditional (v_bindings v0) q c).
Proof. exact loaded_page. Qed.
Print Assumptions C60_page_is_the_body.
(** every document has its templates and body, and only one of each *)
Theorem C60_templates_exist : forall doc, exists templates body, document_templates doc templates body /\
  forall templates' body', document_templates doc templates' body' -> templates' = templates /\ body' = body.
Proof.
  intros doc. destruct (scan_document (h_children doc) ∅) as [templates body] eqn:E. exists templates, body. apply document_scanned in E.
  split; [exact E|]. intros templates' body' H. exact (document_fun _ _ _ _ _ E H).
Qed.
Print Assumptions C60_templates_exist.

(** A document with two templates of one name before the body, one after it, and
    a second body: the link stands for the last one before the first body. *)
Definition template (id t : string) : Html := elem "template" [EBNone "id" id] [elem "p" [] [text [TSString t]]].
Definition two_templates : Html :=
  elem "" [] [template "t" "first"; template "t" "second"; elem "body" [] [elem "link" [EBNone "href" "#t"; EBNone "class" "x"] []];
              template "t" "third"; elem "body" [] []].
Definition two_body : Html := elem "body" [] [elem "link" [EBNone "href" "#t"; EBNone "class" "x"] []].
Example two_templates_show :
  succeeds (from_document world 20 two_templates css_empty)
    (fun v => map (fun n => e_text <$> get_ctx (v_tree v) n) [1; 2; 3; 4] = [Some None; Some None; Some (Some ["second"]); None] /\
              attr (v_tree v) 2 "class" = Some "x").
Proof. witness. Qed.
Definition second_template : Html := elem "p" [] [text [TSString "second"]].
Lemma two_templates_scanned : document_templates two_templates {["#t" := second_template]} two_body.
Proof.
  assert (E : scan_document (h_children two_templates) ∅ = ({["#t" := second_template]}, two_body)).
  { transitivity (<["#t" := second_template]> (<["#t" := elem "p" [] [text [TSString "first"]]]> (∅ : gmap string Html)), two_body); [reflexivity|].
    f_equal. exact (insert_insert (∅ : gmap string Html) "#t" _ _). }
  exact (document_scanned _ _ _ E).
Qed.
Lemma two_templates_clean : clean {["#t" := second_template]} two_body.
Proof.
  assert (Hone : forall c c', In c (h_children two_body) -> linked {["#t" := second_template]} c = Some c' ->
    c' = mkHtml "p" [EBNone "class" "x"] None [text [TSString "second"]]).
  { intros c c' [<-|[]] H. vm_compute in H. by injection H as <-. }
  assert (Hce : forall h, aliases (h_bindings h) = [] -> as_repeat h = None -> clean_element h).
  { intros h Ha Hr. split; [unfold alias_names; rewrite Ha; constructor|unfold own_name; by rewrite Hr]. }
  intros h' H. inversion H as [h c c' H1 H2|h c c' d H1 H2 H3]; subst.
  - apply (Hone _ _ H1) in H2 as ->. apply Hce; reflexivity.
  - apply (Hone _ _ H1) in H2 as ->. inversion H3 as [h c0 c1 G1 G2|h c0 c1 d G1 G2 G3]; subst.
    + destruct G1 as [<-|[]]. vm_compute in G2. injection G2 as <-. apply Hce; reflexivity.
    + destruct G1 as [<-|[]]. vm_compute in G2. injection G2 as <-. inversion G3 as [h c2 c3 K1|h c2 c3 d' K1]; subst; destruct K1.
Qed.

(** ** C55 *)
(** After any history, the inline style of an element is what the reader of
    declarations makes of its attribute [style], whenever it can read it; for
    elements whose attribute is bound, from the first time it is written on.
    Missing, because false: [@style] with a constant (see below), [?style], and a
    bound attribute before its first value. *)
Theorem C55_inline_style_follows_partial : forall X fuel doc css v0 templates body hist v log n,
  from_document X fuel doc css = Ok v0 -> document_templates doc templates body -> clean templates body ->
  styles_bound templates body -> reacted X fuel v0 hist v log ->
  (forall p b, In (p, b) (flat (v_bindings v0)) -> bd_params b <> BTag n "style") ->
  ((forall p b i, In (p, b) (flat (v_bindings v0)) -> bd_params b <> BAttribute n "style" i) \/ (exists i x, In (RBind n "style" i x) log)) ->
  follows (x_read_inline_css X) n (v_tree v).
Proof. exact style_follows. Qed.
Print Assumptions C55_inline_style_follows_partial.

(** a reader that knows three styles *)
Definition styles : Externals :=
  mkExternals (fun _ => "float") (fun s => s)
    (fun s => if String.eqb s "color: red" then Some (paint red) else if String.eqb s "color: blue" then Some (paint blue) else if String.eqb s "" then Some [] else None)
    (fun s => map_to_list s) (fun _ _ => layout_zero) ∅ false.
Definition style_page : Html := document [elem "p" [EBAttribute "style" [TSString "color: "; TSBinder (get ["c"])]] []; elem "b" [EBNone "style" "color: red"] []].
Definition ink (c : string) : Input * json := (frame [], JObj [("c", str c)]).
Example style_follows_data :
  succeeds (run styles style_page css_empty [ink "blue"]) (fun r => map (shown_color (fst r)) [2; 3] = [Some blue; Some red]) /\
  succeeds (run styles style_page css_empty [ink "blue"; ink "red"]) (fun r => map (shown_color (fst r)) [2; 3] = [Some red; Some red]) /\
  (* a value that cannot be read leaves the last one that could *)
  succeeds (run styles style_page css_empty [ink "blue"; ink "pink"]) (fun r => map (shown_color (fst r)) [2; 3] = [Some blue; Some red]).
Proof. split; [|split]; witness. Qed.
Definition style_body : Html := elem "body" [] [elem "p" [EBAttribute "style" [TSString "color: "; TSBinder (get ["c"])]] []; elem "b" [EBNone "style" "color: red"] []].
Example style_page_meets : document_templates style_page ∅ style_body /\ clean ∅ style_body /\ styles_bound ∅ style_body.
Proof.
  assert (Hch : forall c c', In c (h_children style_body) -> linked ∅ c = Some c' -> c' = c /\ h_children c = []).
  { intros c c' [<-|[<-|[]]] H; vm_compute in H; injection H as <-; done. }
  assert (Hin : forall h, inside ∅ style_body h -> In h (h_children style_body)).
  { intros h H. inversion H as [h0 c c' H1 H2|h0 c c' d H1 H2 H3]; subst; destruct (Hch _ _ H1 H2) as [-> Hk]; [done|].
    inversion H3 as [h0 c0 c1 G1 G2|h0 c0 c1 d G1 G2 G3]; subst; rewrite Hk in G1; destruct G1. }
  split; [|split].
  - assert (E : scan_document (h_children style_page) ∅ = (∅, style_body)) by reflexivity. exact (document_scanned _ _ _ E).
  - intros h H. apply Hin in H. destruct H as [<-|[<-|[]]]; (split; [constructor|done]).
  - split; [intros text H; by apply elem_of_nil in H|]. intros h H. apply Hin in H. destruct H as [<-|[<-|[]]]; intros text Ht; apply elem_of_list_singleton in Ht; [|discriminate Ht].
    injection Ht as ->. exists (get ["c"]). apply elem_of_list_further, elem_of_list_here.
Qed.
(** C55 is false: [@style="color: red"] shows black... *)
Theorem C55_constant_binding_refuted :
  succeeds (run styles (document [elem "p" [EBAttribute "style" [TSString "color: red"]] []]) css_empty [(frame [], JObj [])])
    (fun r => attr (v_tree (fst r)) 2 "style" = Some "color: red" /\ x_read_inline_css styles "color: red" = Some (paint red) /\ shown_color (fst r) 2 = Some black).
Proof. witness. Qed.
(** ...and [?style] takes the attribute away but not the style *)
Theorem C55_flag_refuted :
  succeeds (run styles (document [elem "p" [EBNone "style" "color: red"; EBTag "style" (get ["on"])] []]) css_empty
      [(frame [], JObj [("on", JBool true)]); (frame [], JObj [("on", JBool false)])])
    (fun r => attr (v_tree (fst r)) 2 "style" = None /\ shown_color (fst r) 2 = Some red).
Proof. witness. Qed.
