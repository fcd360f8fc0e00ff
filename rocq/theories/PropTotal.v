(** * Properties C75, C76: loading and updating succeed.

    Vocabulary: SpecTotal.v ([finite_document]: every link names a template and
    no template stands inside itself; [never_fails]), SpecBind.v ([shape], [fits]),
    SpecEvents.v ([transformers_total]), SpecEnds.v, SpecDocument.v ([document_templates]: the
    templates and the body of a document). *)
From Coq Require Import ZArith Lia.
From stdpp Require Import gmap.
From RecordUpdate Require Import RecordUpdate.
From Verif Require Import Str F32 Res Json PropKey Html Css Element Tree ViewModel Render Update Matching
  Cascade Initial Animation Apply Styling Events View ReadCss ReadHtml Load SpecBind SpecReact SpecView SpecEvents SpecPage SpecStyle SpecEnds SpecDocument SpecTotal
  DocumentFacts LoadTotal ReadNamed StyleView StyleRest EndsPage EndsMore UpdateTotal Samples PropBind PropRender PropEnds.

(** C75.  A document whose links can be followed to an end loads, whatever the
    style sheet: rendering, the default data, the rules of each element and the
    first state of the conditions never fail, and the view does not depend on
    the recursion bound.  (In a debug build a rule with '+' may crash: C30.) *)
Theorem C75_loading_succeeds : forall X css doc templates body,
  document_templates doc templates body -> all_named doc -> finite_document templates body ->
  x_debug X = false \/ no_plus_sheet css ->
  exists N v, forall fuel, N <= fuel -> from_document X fuel doc css = Ok v.
Proof. exact load_total. Qed.
Print Assumptions C75_loading_succeeds.

(** C75.  A name that has been read from a text is never empty. *)
Theorem C75_read_names : forall text h, read_html text = Ok h -> all_named h.
Proof. exact read_html_named. Qed.
Print Assumptions C75_read_names.

(** C75.  So two texts that can be read make a page. *)
Theorem C75_texts_load : forall X html css doc sheet templates body,
  read_html html = Ok doc -> read_css css = Ok sheet ->
  document_templates doc templates body -> finite_document templates body ->
  x_debug X = false \/ no_plus_sheet sheet ->
  exists N v, forall fuel, N <= fuel -> from_html X fuel html css = Ok v.
Proof.
  intros X html css doc sheet templates body Hh Hc Hd Hf Hp.
  destruct (load_total (reading X) sheet doc templates body Hd (read_html_named _ _ Hh) Hf Hp) as (N & v & H).
  exists N, v. intros fuel Hle. unfold from_html. rewrite Hh, Hc. exact (H fuel Hle).
Qed.
Print Assumptions C75_texts_load.

(** The hypotheses are met: a page that repeats a template which shows another. *)
Definition nested_page : Html :=
  elem "" [] [elem "template" [EBNone "id" "cell"] [elem "td" [] [text [TSBinder (get ["cell"; "name"])]]];
              elem "template" [EBNone "id" "row"] [elem "tr" [] [elem "link" [EBNone "href" "#cell"; EBRepeat "cell" 3 (get ["row"; "cells"])] []]];
              elem "body" [] [elem "link" [EBNone "href" "#row"; EBRepeat "row" 2 (get ["rows"])] [];
                              elem "link" [EBNone "href" "#cell"; EBAlias "cell" (get ["corner"])] []]].
Definition nested_templates : gmap string Html := fst (scan_document (h_children nested_page) ∅).
Definition nested_body : Html := snd (scan_document (h_children nested_page) ∅).
Example nested_document : document_templates nested_page nested_templates nested_body.
Proof. apply document_scanned. apply surjective_pairing. Qed.
Example nested_finite : finite_document nested_templates nested_body.
Proof. apply (finite_checked (fun name => if String.eqb name "#row" then 1 else 0)). vm_compute. reflexivity. Qed.
Example nested_named : all_named nested_page.
Proof.
  repeat (apply all_named_kids; [split; cbn [h_bindings h_text elem text document nested_page]|cbn [h_children elem text nested_page]; intros c Hc;
    repeat (apply elem_of_cons in Hc as [->|Hc]); [..|by apply elem_of_nil in Hc]]);
  try done; try (intros b x Hb; repeat (apply elem_of_cons in Hb as [->|Hb]); [..|by apply elem_of_nil in Hb]; cbn; intros; subst; done);
  try (intros b x Hb; by apply elem_of_nil in Hb);
  try (intros t x [= <-] Hx; repeat (apply elem_of_cons in Hx as [[= ->]|Hx]); [..|by apply elem_of_nil in Hx]; done).
Qed.
Example nested_loads : exists N v, forall fuel, N <= fuel -> from_document world fuel nested_page css_empty = Ok v.
Proof. apply (C75_loading_succeeds world css_empty nested_page _ _ nested_document nested_named nested_finite). by left. Qed.

(** A link to a template that is not there is reported, and a template inside
    itself is never rendered (C46). *)
Definition missing_page : Html := elem "" [] [elem "body" [] [elem "link" [EBNone "href" "#none"] []]].
Example missing_reported : forall fuel, from_document world (S fuel) missing_page css_empty = Err (ETemplateNotFound "#none").
Proof. intros fuel. reflexivity. Qed.

(** ** Updates *)
(** C76.  On every page, a session whose data fit the template never fails:
    no update returns an error or crashes, whatever the events, the times, the
    style sheet, its animations and transitions.  (Data that do not fit may
    crash: C04.  In a debug build so may a rule with '+': C30.) *)
Theorem C76_updates_never_fail : forall X fuel fuel' doc css v0 sh hist,
  from_document X fuel doc css = Ok v0 -> v_model v0 = initial_model sh -> wf_shape sh = true ->
  transformers_total (x_transformers X) -> x_debug X = false \/ no_plus_sheet css ->
  Forall (fun e => fits sh (snd e) = true) hist ->
  never_fails (updates X fuel' v0 hist).
Proof. exact history_sane. Qed.
Print Assumptions C76_updates_never_fail.
(** C76.  So an update that ends (C39) succeeds. *)
Theorem C76_update_succeeds : forall X fuel doc css v0 sh hist v os i x rank,
  from_document X fuel doc css = Ok v0 -> v_model v0 = initial_model sh -> wf_shape sh = true ->
  transformers_total (x_transformers X) -> x_debug X = false \/ no_plus_sheet css ->
  Forall (fun e => fits sh (snd e) = true) hist -> updates X fuel v0 hist = Ok (v, os) -> fits sh x = true ->
  tame_timers (in_time i) (v_tree v) -> ranked rank css -> inline_along (ranked_declaration rank) X v [(i, x)] ->
  exists N v' o, forall fuel, N <= fuel -> update X fuel v i x = Ok (v', o).
Proof.
  intros X fuel doc css v0 sh hist v os i x rank H0 Hm Hw Ht Hp Hf H Hx Htm Hr Hi. destruct (loaded_able _ _ _ _ _ _ H0 Hm Hw) as (t0 & Hab).
  assert (Hav : able X css sh t0 v). { clear -Hab Hf H. revert v0 os Hab Hf H. induction hist as [|[i x] hist IH]; intros v0 os Hab Hf H; cbn [updates] in H; [by injection H as -> _|].
    apply ResFacts.bindR_Ok in H as ([v1 o] & Hu & H). apply ResFacts.bindR_Ok in H as ([v2 os'] & H' & [= -> _]). apply list.Forall_cons in Hf as [Hx Hf]. eapply IH; [|exact Hf|exact H']. by eapply update_able. }
  destruct (sane_ends (fun fuel => update X fuel v i x)) as (N & [v' o] & HN).
  - intros fuel'. eapply update_sane; [exact Hav|exact Ht|exact Hp|exact Hx].
  - eapply update_ends; [exact (ab_page _ _ _ _ _ Hav)|by apply total_halting|exact Hr|exact Hi|exact Htm].
  - by exists N, v', o.
Qed.
Print Assumptions C76_update_succeeds.
(** C76.  On a page without animations and transitions every session succeeds. *)
Theorem C76_quiet_pages_run : forall X fuel doc css v0 sh hist rank,
  from_document X fuel doc css = Ok v0 -> v_model v0 = initial_model sh -> wf_shape sh = true ->
  transformers_total (x_transformers X) -> x_debug X = false \/ no_plus_sheet css -> (forall s, x_order X s ≡ₚ map_to_list s) ->
  Forall (fun e => fits sh (snd e) = true) hist ->
  ranked rank css -> inline_along (ranked_declaration rank) X v0 hist -> quiet_css css -> inline_along quiet_declaration X v0 hist ->
  exists N v os, forall fuel, N <= fuel -> updates X fuel v0 hist = Ok (v, os).
Proof.
  intros X fuel doc css v0 sh hist rank H0 Hm Hw Ht Hp Ho Hf Hr Hri Hq Hqi.
  destruct (sane_ends (fun fuel => updates X fuel v0 hist)) as (N & [v os] & HN).
  - intros fuel'. by eapply history_sane.
  - destruct (loaded_inv _ _ _ _ _ H0) as (t0 & Hpi). eapply quiet_from; [by apply total_halting|done..|exact Hpi|by eapply loaded_rest].
  - by exists N, v, os.
Qed.
Print Assumptions C76_quiet_pages_run.

(** The hypotheses are met: the page of PropBind.v (C01), a title and a list, and
    a page in which an animation runs. *)
Example list_session : exists v0, from_document world 20 list_page css_empty = Ok v0 /\ v_model v0 = initial_model list_shape /\ wf_shape list_shape = true /\
  transformers_total (x_transformers world) /\ x_debug world = false /\ (forall s, x_order world s ≡ₚ map_to_list s) /\ ranked (fun _ => 0) css_empty /\ quiet_css css_empty /\
  forall hist, inline_along (ranked_declaration (fun _ => 0)) world v0 hist /\ inline_along quiet_declaration world v0 hist.
Proof.
  destruct list_page_loads as (v0 & H0 & H1 & H2). exists v0. split; [exact H0|]. split; [exact H1|]. split; [exact H2|].
  split; [intros name f w Hf; assert (E : Some f = None) by (etransitivity; [symmetry; exact Hf|exact (lookup_empty name)]); discriminate E|].
  split; [reflexivity|]. split; [reflexivity|]. split; [intros s Hs; destruct (not_elem_of_nil s Hs)|]. split; [intros s Hs; destruct (not_elem_of_nil s Hs)|].
  intros hist. split; apply (along_read world 20 _ _ v0 [] v0 [] _ _ H0 eq_refl); intros s ds [=].
Qed.
Example list_runs : exists v0 N v os, from_document world 20 list_page css_empty = Ok v0 /\ forall fuel, N <= fuel -> updates world fuel v0 list_history = Ok (v, os).
Proof.
  destruct list_session as (v0 & H0 & H1 & H2 & H3 & H4 & H5 & H6 & H7 & H8). destruct (H8 list_history) as [H9 H10].
  destruct (C76_quiet_pages_run world 20 list_page css_empty v0 list_shape list_history (fun _ => 0) H0 H1 H2 H3 (or_introl H4) H5) as (N & v & os & H).
  - eapply List.Forall_impl; [|exact list_history_fits]. intros e [He _]. exact He.
  - exact H6.
  - exact H9.
  - exact H7.
  - exact H10.
  - exists v0, N, v, os. split; [exact H0|exact H].
Qed.
Definition animated_page : Html := document [elem "p" [] [text [TSBinder (get ["title"])]]].
Definition animated_shape : SpecBind.shape := SRecord [("title", SLeaf)].
Example animated_loads : succeeds (from_document world 20 animated_page (spin_css 2 0)) (fun v0 => v_model v0 = initial_model animated_shape /\ wf_shape animated_shape = true).
Proof. witness. Qed.
Example animated_never_fails : exists v0, from_document world 20 animated_page (spin_css 2 0) = Ok v0 /\
  forall fuel times, never_fails (updates world fuel v0 (map (fun t => (mkInput t (f100, f100) [], JObj [("title", JStr "a")])) times)).
Proof.
  destruct animated_loads as (v0 & H0 & H1 & H2). exists v0. split; [exact H0|]. intros fuel times.
  apply (C76_updates_never_fail world 20 fuel animated_page (spin_css 2 0) v0 animated_shape _ H0 H1 H2).
  - intros name f w Hf; assert (E : Some f = None) by (etransitivity; [symmetry; exact Hf|exact (lookup_empty name)]); discriminate E.
  - left. reflexivity.
  - induction times as [|t times IH]; constructor; [reflexivity|exact IH].
Qed.
