(** * From the texts of a page to what it shows (C67). *)
From Coq Require Import ZArith Lia.
From stdpp Require Import gmap.
From RecordUpdate Require Import RecordUpdate.
From Verif Require Import Str F32 Res ResFacts Json PropKey Html Css Element Tree ViewModel Render Update Matching
  Cascade Initial Animation Apply Styling Events View SpecLive SpecLog SpecView SpecRender SpecTree SpecSelect SpecStyle SpecShow SpecPage SpecCss SpecValues SpecDocument
  SpecText SpecSheet SpecTemplate SpecSeen ReadCss ReadHtml Load
  RenderTree RenderNode RenderProps RenderAny RenderMore LiveFacts LiveUpdate LiveView LiveHistory LiveOrder FrameFacts SelectFacts SelectLive SelectFresh CascadeFacts StyleView StylePage StyleRest DocumentFacts ValueFacts ReadSheet ReadTemplate Samples.

Lemma prepared_keep X fuel (I : Tree -> Prop) v i x m t ids : sound v -> prepare X fuel v i x = Ok (m, t, ids) -> (forall t t', same_content t t' -> I t -> I t') ->
  (forall r, from_bindings (v_bindings v) [r] -> keeps (x_read_inline_css X) I r) -> I (v_tree v) -> I t.
Proof.
  intros Hs Hp Hc Hk Hi. destruct (prepared_way _ _ _ _ _ _ _ _ Hp) as (t1 & Hw & Hc1). apply (Hc _ _ Hc1). exact (along_keep _ _ _ _ _ Hw Hs Hc Hk Hi).
Qed.
Lemma follows_prepared X fuel doc css v0 templates body hist v log i x m rs t ids n :
  from_document X fuel doc css = Ok v0 -> document_templates doc templates body -> clean templates body -> styles_bound templates body ->
  reacted X fuel v0 hist v log -> view_bind X v x = Ok (m, rs) -> prepare X fuel v i x = Ok (m, t, ids) -> style_settled v0 n (log ++ rs) ->
  follows (x_read_inline_css X) n t.
Proof.
  intros H0 Hdoc Hcl Hsb Hre Hvb Hp [Hno Hor]. destruct (reacted_updates _ _ _ _ _ _ Hre) as [os Hos].
  destruct (kept_history _ _ _ _ _ _ _ _ H0 Hos) as (rn & t0 & _ & _ & _ & _ & _ & _ & Hbs & Hs).
  assert (Hkeep : follows (x_read_inline_css X) n (v_tree v) -> follows (x_read_inline_css X) n t).
  { intros Hf. eapply (prepared_keep _ _ (follows (x_read_inline_css X) n)); [exact Hs|exact Hp|intros t1 t2; apply follows_content| |exact Hf].
    intros r Hr. apply keeps_follows. rewrite Hbs in Hr. by eapply no_flag_reaction. }
  destruct Hor as [Hna|(j & w & Hin)]; [apply Hkeep; eapply style_follows; [exact H0|exact Hdoc|exact Hcl|exact Hsb|exact Hre|exact Hno|by left]|].
  apply in_app_or in Hin as [Hin|Hin]; [apply Hkeep; eapply follows_reacted; [exact H0|exact Hre|exact Hno|by exists j, w]|].
  pose proof Hp as Hp'. unfold prepare in Hp'. apply bindR_Ok in Hp' as ([m1 rs1] & Hvb' & Hp'). assert (Ok (m, rs) = Ok (m1, rs1)) as [= <- <-] by (etransitivity; [symmetry; exact Hvb|exact Hvb']).
  apply bindR_Ok in Hp' as ([ta ids1] & Hu & Hp').
  assert (Hc : same_content ta t).
  { apply bindR_Ok in Hp' as (t1 & H1 & H). cbv zeta in H. apply bindR_Ok in H as (t2 & H2 & H). apply bindR_Ok in H as (t3 & H3 & H). injection H as <- <-.
    eapply same_trans; [exact (set_viewport_same _ _ _ _ H1)|]. eapply same_trans; [exact (apply_styles_same _ _ _ _ _ _ _ _ _ _ _ H2)|].
    eapply same_trans; [exact (run_layout_same X _)|]. exact (final_positions_same _ _ _ _ _ _ _ H3). }
  apply (follows_content _ _ _ _ Hc). pose proof (so_live _ Hs) as Hl. rewrite (so_root _ Hs) in Hl.
  eapply follows_written; [|exact Hl|exact (view_bind_reactions_ok _ _ _ _ _ Hs Hvb)|exact Hu|by exists j, w].
  intros r Hr. apply (no_flag_reaction _ _ Hno). intros r' [->|[]]. rewrite <- Hbs. by apply (view_bind_from _ _ _ _ _ Hvb).
Qed.

(** what a value shows is shown by a longhand *)
Lemma meaning_longhand s k w x : SpecShow.meaning s k w = Some x -> longhand k = true.
Proof. destruct k; try done. Qed.

Theorem written_seen X fuel doc css v0 templates body hist v log i value m rs t ids n style pre k w post x :
  from_document (reading X) fuel doc css = Ok v0 -> document_templates doc templates body -> clean templates body -> styles_bound templates body ->
  reacted (reading X) fuel v0 hist v log -> view_bind (reading X) v value = Ok (m, rs) -> prepare (reading X) fuel v i value = Ok (m, t, ids) -> style_settled v0 n (log ++ rs) ->
  tidy_css css -> tidy_inline t -> (forall s, x_order X s ≡ₚ map_to_list s) -> plain_element css v t n ->
  attr t n "style" = Some style -> declarations_text (pre ++ DeclProperty (mkProperty k [[DExplicit w]]) :: post) style ->
  (forall p vs, DeclProperty p ∈ post -> last_given (expand (p_key p) vs) k = None) ->
  SpecShow.meaning (sizes_at (in_viewport i) t (v_body v) n) k w = Some x -> shows_at t n k 0 = Some x.
Proof.
  intros H0 Hdoc Hcl Hsb Hre Hvb Hp Hst Htc Hti Ho (Hse & Har & Hpl & Hrs) Ha Hd Hpost Hx.
  pose proof (follows_prepared _ _ _ _ _ _ _ _ _ _ _ _ _ _ _ _ n H0 Hdoc Hcl Hsb Hre Hvb Hp Hst) as Hf.
  destruct (reacted_updates _ _ _ _ _ _ Hre) as [os Hos].
  destruct (cascade_page _ _ _ _ _ _ _ _ _ _ _ _ _ n H0 Hos Hp Htc Hti Ho Hse Har Hpl Hrs) as (ds & vars & q & parent & (rules & e & _ & He & ->) & _ & _ & _ & pe & _ & Hk).
  assert (Hin : inline t n = Some (pre ++ DeclProperty (mkProperty k [[DExplicit w]]) :: post)).
  { apply (Hf style _ Ha). cbn [reading x_read_inline_css]. unfold inline_reader. by rewrite (inline_read _ _ Hd). }
  clear Hf. unfold inline in Hin. rewrite He in Hin. cbn in Hin. injection Hin as Hin.
  destruct (Hk k 0 (or_intror eq_refl)) as (Hw & _ & _). clear Hk. rewrite (Hw w), Hx; [done|]. clear Hw.
  exists (rules ++ pre), (DeclProperty (mkProperty k [[DExplicit w]])), post. split; [rewrite Hin; by rewrite <- app_assoc|]. split.
  - eexists _, [DExplicit w], [w]. split; [reflexivity|]. split; [reflexivity|]. split; [apply (mean_cons _ _ _ [w] []); constructor|].
    cbn [p_key]. rewrite (expand_longhand k w (meaning_longhand _ _ _ _ Hx)). cbn [last_given]. by rewrite decide_True.
  - intros pre' d' post' v' E (p & sh & vs & -> & _ & _ & Hl). assert (DeclProperty p ∈ post) as Hp'. { rewrite E. apply elem_of_app. right. apply elem_of_list_here. }
    rewrite (Hpost p vs Hp') in Hl. discriminate Hl.
Qed.
(** the nodes of a page that has been loaded *)
Lemma loaded_nodes X fuel doc css v0 templates body rn : from_document X fuel doc css = Ok v0 -> document_templates doc templates body -> clean templates body ->
  SpecRender.meaning (x_translate X) templates fuel ∅ body = Some rn ->
  forall n e, get_ctx (v_tree v0) n = Some e -> n < 1 + rsize rn /\ (n = 0 -> e_style e = [] /\ e_text e = None).
Proof.
  intros H0 Hdoc Hcl Hm. unfold from_document in H0. destruct (scan_document _ _) as [templates' body'] eqn:Hscan.
  apply document_scanned in Hscan. destruct (document_fun _ _ _ _ _ Hdoc Hscan) as [-> ->].
  apply bindR_Ok in H0 as ([[r root] b] & Hr & H). apply bindR_Ok in H as (d & Hd & H). apply bindR_Ok in H as (t & Ht & H).
  apply bindR_Ok in H as ([t' ids] & Ha & H). injection H as <-. cbn [v_bindings v_tree v_ids v_css v_body v_root] in *.
  pose proof (render_agree (x_read_inline_css X) (x_translate X) templates fuel body Hcl) as Hag. rewrite Hr, Hm in Hag.
  destruct Hag as (-> & -> & Hre & _ & _ & Hso' & Hfl & _).
  pose proof (render_any _ _ _ _ _ _ _ _ Hr) as (rn' & ps & Hmk & _ & _ & Hre' & _ & _ & Hfl' & _).
  pose proof (stylesheet_shown _ _ _ _ _ _ Ht) as Hsh. destruct (rendered_live _ _ _ Hmk Hre') as (Hl & Hat & H1).
  pose proof (shown_live _ _ _ Hsh Hl) as Hlt.
  assert (Hok : Forall (reaction_ok t) (default_reactions (r_bindings r))).
  { apply default_reactions_ok. intros p b Hb. eapply binding_ok_def; [by apply shown_def|]. eapply stands_bindings_ok; [apply (re_stands _ _ _ Hre')|done|].
    apply elem_of_list_In. rewrite <- Hfl'. by apply elem_of_list_In. }
  destruct (hide_all (x_read_inline_css X) _ t (r_static_id r) t' ids Hlt Hok) as [A1 A2]; [|exact Ha|].
  { intros x Hx. apply default_reactions_in in Hx as (p & b & q & c & v & _ & _ & ->). by exists q, c. }
  assert (Hlt1 : 1 < t_next (r_tree r)) by (rewrite (re_next _ _ _ Hre); pose proof (rsize_pos rn); lia).
  destruct (calculate_spec _ _ _ _ _ Hl _ _ _ Hlt1 Ht (shown_refl _)) as (_ & C2 & _).
  intros n e He. rewrite A1 in He. split.
  - destruct (decide (n < 1 + rsize rn)) as [|Hge]; [done|]. exfalso. pose proof (shown_ctx _ _ n Hsh) as Hc. rewrite He in Hc.
    unfold get_ctx in Hc. rewrite (re_beyond _ _ _ Hre n) in Hc; [done|]. rewrite (re_next _ _ _ Hre). lia.
  - intros ->. rewrite C2 in He; [|intros Ha0; apply (above_le _ _ _ _ Hl) in Ha0; lia]. unfold get_ctx in He. rewrite (re_root _ _ _ Hre) in He. injection He as <-. by split.
Qed.
(** a page without bindings never changes its content *)
Lemma unbound_content X fuel doc css v0 hist v os : from_document X fuel doc css = Ok v0 -> flat (v_bindings v0) = [] -> updates X fuel v0 hist = Ok (v, os) ->
  same_content (v_tree v0) (v_tree v) /\ forall i x m t ids, prepare X fuel v i x = Ok (m, t, ids) -> same_content (v_tree v0) t.
Proof.
  intros H0 Hb H.
  assert (Hk : forall r, from_bindings (v_bindings v0) [r] -> keeps (x_read_inline_css X) (same_content (v_tree v0)) r).
  { intros r Hr. destruct (Hr r (or_introl eq_refl)) as (p & b & Hin & _). rewrite Hb in Hin. destruct Hin. }
  assert (Hv : same_content (v_tree v0) (v_tree v)).
  { apply (history_keep _ _ _ _ _ _ _ _ (same_content (v_tree v0)) H0 H); [intros t t' Hc Hi; by eapply same_trans|exact Hk|apply same_refl]. }
  split; [exact Hv|]. intros i x m t ids Hp. destruct (kept_history _ _ _ _ _ _ _ _ H0 H) as (rn & t0 & _ & _ & _ & _ & _ & _ & Hbs & Hs).
  eapply (prepared_keep _ _ (same_content (v_tree v0))); [exact Hs|exact Hp|intros t1 t2 Hc Hi; by eapply same_trans|by rewrite Hbs|exact Hv].
Qed.
Lemma from_html_read X fuel html css h c : read_html html = Ok h -> read_css css = Ok c -> from_html X fuel html css = from_document (reading X) fuel h c.
Proof. intros Hh Hc. unfold from_html. rewrite Hh. cbn [bindR]. by rewrite Hc. Qed.
