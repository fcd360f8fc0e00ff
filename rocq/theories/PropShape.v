(** * Property C77: the data a template takes.

    Vocabulary: SpecRender.v ([meaning]: the element tree a template stands for,
    [pointers]: the names it uses, as "/rows/0/title"; [clean]), SpecSchema.v
    ([plain_pointer]), SpecShape.v ([takes]), SpecBind.v ([shape], [fits]),
    SpecTotal.v ([finite_document], [never_fails]), SpecDocument.v. *)
From Coq Require Import ZArith Lia.
From stdpp Require Import gmap.
From RecordUpdate Require Import RecordUpdate.
From Verif Require Import Str F32 Res Json PropKey Html Css Element Tree ViewModel Render Update Matching
  Cascade Initial Animation Apply Styling Events View ReadCss ReadHtml Load SpecBind SpecReact SpecView SpecRender SpecSchema SpecEvents SpecPage SpecStyle SpecEnds SpecDocument SpecTotal SpecShape
  DocumentFacts LoadTotal ReadNamed StyleView StyleRest EndsPage EndsMore UpdateTotal RenderMore ShapeFacts Samples PropBind PropRender PropEnds PropTotal.
Notation shape := SpecBind.shape.

(** C77.  When the names a template uses are the places of a shape of data, the
    page starts with exactly the data of that shape, every scalar null: no name
    is lost, none is added, and a repeated list has as many items as the loop. *)
Theorem C77_template_shape : forall X fuel doc css v templates body n rn sh,
  from_document X fuel doc css = Ok v -> document_templates doc templates body -> clean templates body ->
  SpecRender.meaning (x_translate X) templates n ∅ body = Some rn ->
  Forall (fun q => plain_pointer q = true) (pointers rn) -> wf_shape sh = true -> solid_fields sh = true -> takes (pointers rn) sh ->
  v_model v = initial_model sh.
Proof. exact template_shape. Qed.
Print Assumptions C77_template_shape.

(** C77.  So two texts make a page that never fails: it loads, and no session
    with data of the shape of its template returns an error or crashes. *)
Theorem C77_texts_never_fail : forall X html css doc sheet templates body n rn sh,
  read_html html = Ok doc -> read_css css = Ok sheet ->
  document_templates doc templates body -> finite_document templates body -> clean templates body ->
  SpecRender.meaning (x_translate X) templates n ∅ body = Some rn ->
  Forall (fun q => plain_pointer q = true) (pointers rn) -> wf_shape sh = true -> solid_fields sh = true -> takes (pointers rn) sh ->
  transformers_total (x_transformers X) -> x_debug X = false \/ no_plus_sheet sheet ->
  exists N v0, (forall fuel, N <= fuel -> from_html X fuel html css = Ok v0) /\
    forall fuel hist, Forall (fun e => fits sh (snd e) = true) hist -> never_fails (updates (reading X) fuel v0 hist).
Proof.
  intros X html css doc sheet templates body n rn sh Hh Hc Hd Hf Hcl Hm Hpl Hw Hs Ht Htr Hp.
  destruct (load_total (reading X) sheet doc templates body Hd (read_html_named _ _ Hh) Hf Hp) as (N & v & H).
  exists N, v. split; [intros fuel Hle; unfold from_html; rewrite Hh, Hc; exact (H fuel Hle)|].
  intros fuel hist Hh'. apply (history_sane (reading X) N fuel doc sheet v sh hist (H N (le_n N))); [|exact Hw|exact Htr|exact Hp|exact Hh'].
  exact (template_shape (reading X) N doc sheet v templates body n rn sh (H N (le_n N)) Hd Hcl Hm Hpl Hw Hs Ht).
Qed.
Print Assumptions C77_texts_never_fail.

(** C77.  Without animations and transitions every such session succeeds. *)
Theorem C77_quiet_pages_run : forall X doc css templates body n rn sh rank,
  document_templates doc templates body -> all_named doc -> finite_document templates body -> clean templates body ->
  SpecRender.meaning (x_translate X) templates n ∅ body = Some rn ->
  Forall (fun q => plain_pointer q = true) (pointers rn) -> wf_shape sh = true -> solid_fields sh = true -> takes (pointers rn) sh ->
  transformers_total (x_transformers X) -> x_debug X = false \/ no_plus_sheet css -> (forall s, x_order X s ≡ₚ map_to_list s) ->
  ranked rank css -> quiet_css css ->
  exists N v0, (forall fuel, N <= fuel -> from_document X fuel doc css = Ok v0) /\
    forall hist, Forall (fun e => fits sh (snd e) = true) hist ->
      inline_along (ranked_declaration rank) X v0 hist -> inline_along quiet_declaration X v0 hist ->
      exists M v os, forall fuel, M <= fuel -> updates X fuel v0 hist = Ok (v, os).
Proof.
  intros X doc css templates body n rn sh rank Hd Hn Hf Hcl Hm Hpl Hw Hs Ht Htr Hp Ho Hr Hq.
  destruct (load_total X css doc templates body Hd Hn Hf Hp) as (N & v & H). exists N, v. split; [exact H|]. intros hist Hh Hi1 Hi2.
  pose proof (H N (le_n N)) as H0. apply (C76_quiet_pages_run X N doc css v sh hist rank H0); [|exact Hw|exact Htr|exact Hp|exact Ho|exact Hh|exact Hr|exact Hi1|exact Hq|exact Hi2].
  exact (template_shape X N doc css v templates body n rn sh H0 Hd Hcl Hm Hpl Hw Hs Ht).
Qed.
Print Assumptions C77_quiet_pages_run.

(** The hypotheses are met: the page of C46 with a condition, a list in a list
    of records, a template and an alias, and the page of C75. *)
Definition rich_shape : shape :=
  SRecord [("caption", SLeaf); ("rows", SList 2 (SRecord [("cells", SList 3 (SRecord [("name", SLeaf)]))])); ("shown", SLeaf); ("title", SLeaf)].
Example rich_taken :
  match SpecRender.meaning (fun s => s) rich_templates 10 ∅ rich_body with
  | Some rn => forallb plain_pointer (pointers rn) && wf_shape rich_shape && solid_fields rich_shape && is_taken (pointers rn) rich_shape
  | None => false
  end = true.
Proof. vm_compute. reflexivity. Qed.
Definition nested_shape : shape :=
  SRecord [("corner", SRecord [("name", SLeaf)]); ("rows", SList 2 (SRecord [("cells", SList 3 (SRecord [("name", SLeaf)]))]))].
Example nested_taken :
  match SpecRender.meaning (fun s => s) nested_templates 10 ∅ nested_body with
  | Some rn => forallb plain_pointer (pointers rn) && wf_shape nested_shape && solid_fields nested_shape && is_taken (pointers rn) nested_shape
  | None => false
  end = true.
Proof. vm_compute. reflexivity. Qed.
Example nested_clean : clean nested_templates nested_body.
Proof. apply (clean_upto_clean _ 10). vm_compute. reflexivity. Qed.
Example nested_runs : exists N v0, (forall fuel, N <= fuel -> from_document world fuel nested_page css_empty = Ok v0) /\
  forall hist, Forall (fun e => fits nested_shape (snd e) = true) hist -> exists M v os, forall fuel, M <= fuel -> updates world fuel v0 hist = Ok (v, os).
Proof.
  pose proof nested_taken as H. destruct (SpecRender.meaning (fun s => s) nested_templates 10 ∅ nested_body) as [rn|] eqn:Hm; [|discriminate H].
  apply andb_prop in H as [H H4]. apply andb_prop in H as [H H3]. apply andb_prop in H as [H1 H2].
  destruct (C77_quiet_pages_run world nested_page css_empty nested_templates nested_body 10 rn nested_shape (fun _ => 0)
    nested_document nested_named nested_finite nested_clean Hm) as (N & v0 & H0 & H5).
  - apply List.Forall_forall. rewrite forallb_forall in H1. exact H1.
  - exact H2.
  - exact H3.
  - apply is_taken_ok. exact H4.
  - intros name f w Hf; assert (E : Some f = None) by (etransitivity; [symmetry; exact Hf|exact (lookup_empty name)]); discriminate E.
  - left. reflexivity.
  - reflexivity.
  - intros s Hs; destruct (not_elem_of_nil s Hs).
  - intros s Hs; destruct (not_elem_of_nil s Hs).
  - exists N, v0. split; [exact H0|]. intros hist Hh.
    apply (H5 hist Hh); apply (along_read world N _ _ v0 [] v0 [] _ _ (H0 N (le_n N)) eq_refl); intros s ds [=].
Qed.
(** Data for it: the first record has fewer cells, the second a missing list. *)
Example nested_fits : fits nested_shape (JObj [("corner", JObj [("name", JStr "x")]); ("rows", JArr [JObj [("cells", JArr [JObj [("name", JStr "a")]])]; JObj [("cells", JArr [])]])]) = true.
Proof. reflexivity. Qed.

(** Texts. *)
Definition list_text : string :=
  "<html><template id=""cell""><li>{cell.name}</li></template><body><p>{title}</p><ul><link href=""#cell"" *cell=""3 {items}""></ul></body></html>".
Definition list_sheet_text : string := "p { color: #ff0000; width: 10px; } li:hover { animation: spin 2s infinite; }".
Definition texts_doc : Html := match read_html list_text with Ok h => h | _ => elem "" [] [] end.
Definition texts_templates : gmap string Html := fst (scan_document (h_children texts_doc) ∅).
Definition texts_body : Html := snd (scan_document (h_children texts_doc) ∅).
Example texts_read : read_html list_text = Ok texts_doc.
Proof. vm_compute. reflexivity. Qed.
Example sheet_read : succeeds (read_css list_sheet_text) (fun sheet => List.length (css_styles sheet) = 2).
Proof. witness. Qed.
Example texts_document : document_templates texts_doc texts_templates texts_body.
Proof. apply document_scanned. apply surjective_pairing. Qed.
Example texts_finite : finite_document texts_templates texts_body.
Proof. apply (finite_checked (fun _ => 0)). vm_compute. reflexivity. Qed.
Example texts_clean : clean texts_templates texts_body.
Proof. apply (clean_upto_clean _ 10). vm_compute. reflexivity. Qed.
Example texts_taken :
  match SpecRender.meaning (fun s => s) texts_templates 10 ∅ texts_body with
  | Some rn => forallb plain_pointer (pointers rn) && wf_shape list_shape && solid_fields list_shape && is_taken (pointers rn) list_shape
  | None => false
  end = true.
Proof. vm_compute. reflexivity. Qed.
Example texts_never_fail : exists N v0, (forall fuel, N <= fuel -> from_html world fuel list_text list_sheet_text = Ok v0) /\
  forall fuel hist, Forall (fun e => fits list_shape (snd e) = true) hist -> never_fails (updates (reading world) fuel v0 hist).
Proof.
  pose proof texts_taken as H. destruct (SpecRender.meaning (fun s => s) texts_templates 10 ∅ texts_body) as [rn|] eqn:Hm; [|discriminate H].
  apply andb_prop in H as [H H4]. apply andb_prop in H as [H H3]. apply andb_prop in H as [H1 H2]. destruct sheet_read as (sheet & Hs & _).
  apply (C77_texts_never_fail world list_text list_sheet_text texts_doc sheet texts_templates texts_body 10 rn list_shape texts_read Hs
    texts_document texts_finite texts_clean Hm).
  - apply List.Forall_forall. rewrite forallb_forall in H1. exact H1.
  - exact H2.
  - exact H3.
  - apply is_taken_ok. exact H4.
  - intros name f w Hf; assert (E : Some f = None) by (etransitivity; [symmetry; exact Hf|exact (lookup_empty name)]); discriminate E.
  - left. reflexivity.
Qed.
