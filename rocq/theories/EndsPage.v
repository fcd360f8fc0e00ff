(** * Updates that end (C39). *)
From Coq Require Import ZArith Lia.
From stdpp Require Import gmap.
From RecordUpdate Require Import RecordUpdate.
From Verif Require Import Str StrFacts F32 Res ResFacts Json PropKey Html Css Element Tree ViewModel Render Update Matching
  Cascade Initial Animation Apply Styling Events View
  SpecLive SpecLog SpecView SpecRender SpecTree SpecEvents FrameFacts EventFacts EventFrame EventPage EventProps
  RenderTree RenderNode RenderProps RenderAny RenderMore LiveFacts LiveUpdate LiveView LiveHistory LiveOrder
  SpecSelect SelectFacts SelectLive SelectFresh SpecStyle SpecShow SpecPage ApplyFacts ShowFacts CascadeFacts AnimationFacts StyleTrace StyleView StylePage StyleRest StyleMore
  SpecAnim SpecEnds EndsTimer EndsFacts.

Definition timers_ok (time : f32) (e : Element) : Prop :=
  Forall (few_laps time) (e_animators e) /\ Forall (fun tn => few_laps time (t_animator tn) /\ has_range tn) (e_transitions e).
(** every declaration an element carries is of a kind *)
Definition carries (P : Declaration -> Prop) (e : Element) : Prop :=
  Forall (fun es => Forall P (s_declaration (rule_style es))) (e_styles e) /\ Forall P (e_style e).
Definition tree_carries (P : Declaration -> Prop) (t : Tree) : Prop := forall n e, n <> 0 -> get_ctx t n = Some e -> carries P e.
Lemma carries_content P t t' : same_content t t' -> tree_carries P t -> tree_carries P t'.
Proof.
  intros H Hq n e' Hn He'. destruct (same_ctx _ _ _ _ (same_sym _ _ H) He') as (e & He & Hc). unfold content in Hc. injection Hc as H1 H2 H3 H4 H5 H6 H7 H8 H9 H10.
  destruct (Hq n e Hn He) as [Q1 Q2]. split; congruence.
Qed.
Lemma sorted_carries (P : Declaration -> Prop) debug t0 sheet n e : (forall s, s ∈ sheet -> Forall P (s_declaration s)) -> Forall (fun es => Forall P (s_declaration (rule_style es))) (sorted_out debug t0 sheet n e).
Proof.
  intros H. apply list.Forall_forall. intros es Hin. unfold sorted_out in Hin. apply elem_of_list_omap in Hin as (s & Hs & Hc).
  replace (rule_style es) with s; [by apply H|]. unfold classify in Hc.
  repeat match type of Hc with context [if ?b then _ else _] => destruct b | context [match ?x with _ => _ end] => destruct x end; try done; by injection Hc as <-.
Qed.
Lemma kept_carries (P : Declaration -> Prop) debug sheet bs t0 t : (forall s, s ∈ sheet -> Forall P (s_declaration s)) -> inline_all P t ->
  kept debug sheet bs t0 t -> tree_carries P t.
Proof.
  intros Hs Hric Hk n e Hn He. split.
  - rewrite (k_rules _ _ _ _ _ Hk n e Hn He). by apply sorted_carries.
  - apply (Hric n). unfold inline. by rewrite He.
Qed.

Section page.
  Context (debug : bool) (css : Css) (order : ComputedStyle -> list (Descriptor * ComputedValue)) (time : f32) (rank : string -> nat).

  Lemma cascade_ends sizes vars n t pe layout e : carries (ranked_declaration rank) e -> timers_ok time e -> ranked_vars rank vars ->
    ends (fun fuel => cascade_apply_styles fuel debug css order time sizes vars n t pe layout e).
  Proof.
    intros [C1 C2] [T1 T2] Hv. unfold cascade_apply_styles. cbv zeta. set (e0 := inherit pe (reset_element_style e)).
    assert (E1 : e_styles e0 = e_styles e) by reflexivity. assert (E2 : e_style e0 = e_style e) by reflexivity.
    assert (E3 : e_animators e0 = e_animators e) by reflexivity. assert (E4 : e_transitions e0 = e_transitions e) by reflexivity.
    rewrite E1, E2, E3, E4. clearbody e0.
    match goal with |- ends (fun fuel => bindR (cascade_rules fuel _ _ _ _ ?s0) (fun y => @?g y fuel)) =>
      apply (ends_bind (fun fuel => cascade_rules fuel debug n t (e_styles e) s0) g) end.
    { by apply (rules_end rank). }
    intros [vars1 s1] (fuel1 & H1). pose proof (rules_ranked rank _ _ _ _ _ (_, _) (_, _) C1 Hv H1) as V1. cbn [fst] in V1.
    match goal with |- ends (fun fuel => bindR (compute_declaration_block fuel _ ?s0) (fun y => @?g y fuel)) =>
      apply (ends_bind (fun fuel => compute_declaration_block fuel (e_style e) s0) g) end.
    { by apply (block_ends rank). }
    intros [vars2 s2] (fuel2 & H2). pose proof (block_ranked rank _ _ (_, _) (_, _) C2 V1 H2) as V2. cbn [fst] in V2.
    match goal with |- ends (fun fuel => bindR (play_animators fuel _ _ _ _) (fun y => @?g y fuel)) =>
      apply (ends_bind (fun fuel => play_animators fuel css time vars2 (e_animators e, s2)) g) end.
    { by apply (animators_end rank). }
    intros [an s3] _.
    match goal with |- ends (fun fuel => bindR (play_transitions fuel _ _ _) (fun y => @?g y fuel)) =>
      apply (ends_bind (fun fuel => play_transitions fuel time (e_transitions e) s3) g) end.
    { by apply transitions_end. }
    intros [tn s4] _. apply ends_const. destruct (apply_all _ _ _) as [l1 e1]. apply halts_bind; [apply halts_map; intros a _; apply init_after_halts|]. intros ts _. apply halts_ok.
  Qed.
  Lemma cascade_ranked fuel sizes vars n t pe layout e l' e' vars' : carries (ranked_declaration rank) e -> ranked_vars rank vars ->
    cascade_apply_styles fuel debug css order time sizes vars n t pe layout e = Ok (l', e', vars') -> ranked_vars rank vars'.
  Proof.
    intros [C1 C2] Hv H. rewrite cascade_computes in H. apply bindR_Ok in H as ([[[an tr] s] vars0] & Hc & H).
    destruct (apply_all _ _ _) as [l1 e1]. apply bindR_Ok in H as (ts & _ & [= _ _ <-]).
    unfold computes in Hc. apply bindR_Ok in Hc as ([vars1 s1] & H1 & Hc). apply bindR_Ok in Hc as ([vars2 s2] & H2 & Hc).
    apply bindR_Ok in Hc as ([an1 s4] & H3 & Hc). apply bindR_Ok in Hc as ([tr1 s5] & H4 & [= _ _ _ <-]).
    pose proof (rules_ranked rank _ _ _ _ _ (vars, ∅) (vars1, s1) C1 Hv H1) as V1. cbn [fst] in V1. exact (block_ranked rank _ _ (vars1, s1) (vars2, s2) C2 V1 H2).
  Qed.

  Lemma styles_end : forall depth n sizes vars t, live t 0 -> n <> 0 -> n < t_next t -> t_next t <= n + depth ->
    tree_carries (ranked_declaration rank) t -> ranked_vars rank vars -> (forall m e, at_or_above t n m -> get_ctx t m = Some e -> timers_ok time e) ->
    ends (fun fuel => apply_styles fuel debug css order time depth n sizes vars t).
  Proof.
    induction depth as [|depth IH]; intros n sizes vars t Hl Hn Hlt Hd Hc Hv Ht; [lia|]. cbn [apply_styles].
    match goal with |- ends (fun fuel => bindR ?m (fun y => @?g y fuel)) => apply (ends_bind (fun _ => m) g) end.
    { apply ends_const. halting. } intros p (_ & Hp).
    match goal with |- ends (fun fuel => bindR ?m (fun y => @?g y fuel)) => apply (ends_bind (fun _ => m) g) end.
    { apply ends_const. halting. } intros pe (_ & Hpe).
    match goal with |- ends (fun fuel => bindR ?m (fun y => @?g y fuel)) => apply (ends_bind (fun _ => m) g) end.
    { apply ends_const. halting. } intros layout (_ & Hlay).
    match goal with |- ends (fun fuel => bindR ?m (fun y => @?g y fuel)) => apply (ends_bind (fun _ => m) g) end.
    { apply ends_const. halting. } intros e (_ & He). apply get_element_ctx in He.
    destruct (e_text e); [apply ends_const, halts_ok|].
    match goal with |- ends (fun fuel => bindR (cascade_apply_styles fuel _ _ _ _ _ _ _ _ _ _ _) (fun y => @?g y fuel)) =>
      apply (ends_bind (fun fuel => cascade_apply_styles fuel debug css order time sizes vars n t pe layout e) g) end.
    { apply cascade_ends; [by apply (Hc n)|apply (Ht n); [reflexivity|exact He]|exact Hv]. }
    intros [[l' e'] vars'] (fuel & Hcas). pose proof (cascade_ranked _ _ _ _ _ _ _ _ _ _ _ (Hc n e Hn He) Hv Hcas) as Hv'.
    match goal with |- ends (fun fuel => bindR ?m (fun y => @?g y fuel)) => apply (ends_bind (fun _ => m) g) end.
    { apply ends_const. halting. } intros t1 (_ & Hs).
    destruct (_ || _); [apply ends_const, halts_ok|].
    match goal with |- ends (fun fuel => bindR ?m (fun y => @?g y fuel)) => apply (ends_bind (fun _ => m) g) end.
    { apply ends_const. halting. } intros cs (_ & Hcs). apply children_spec in Hcs. subst cs.
    assert (Hal1 : alike t t1).
    { split.
      - eapply same_trans; [eapply put_element_same; [exact He|exact (cascade_apply_content _ _ _ _ _ _ _ _ _ _ _ _ _ Hcas)]|by eapply set_style_same].
      - eapply ss_trans; [eapply ss_put; [exact He|by eapply cascade_state]|by eapply set_style_ss]. }
    rewrite (shown_attached _ _ _ (content_shown _ _ (proj1 Hal1))).
    destruct (ctx_node _ _ _ He) as [x Hx].
    destruct (set_style_nodes _ _ _ _ _ Hs (put_nodes_eq _ _ _ _ Hx)) as [Hn1 Ho1].
    assert (Ho : forall m, n <> m -> t_nodes t1 !! m = t_nodes t !! m). { intros m Hm. by rewrite Ho1, put_nodes_ne. } clear Ho1.
    set (sizes' := sizes <| parent_font_size := f_size (e_font e') |> <| parent_color := e_color e' |>).
    assert (Hfold : forall cs a, cs ⊆ attached t n -> NoDup cs -> alike t a ->
      (forall c m, c ∈ cs -> at_or_above t c m -> t_nodes a !! m = t_nodes t !! m) ->
      ends (fun fuel => foldR (fun t c => apply_styles fuel debug css order time depth c sizes' vars' t) a cs)).
    { clear Hs Hal1 Hn1 Ho t1. induction cs as [|c cs IHc]; intros a Hin Hnd Ha Hb; cbn [foldR]; [apply ends_const, halts_ok|].
      apply list.NoDup_cons in Hnd as [Hnc Hnd]. pose proof (shown_live _ _ _ (content_shown _ _ (proj1 Ha)) Hl) as Hla.
      assert (Hca : c ∈ attached t n) by (apply Hin, elem_of_list_here). destruct (live_newer _ _ Hl n c ltac:(by left)) as [Hnew Hold].
      assert (Hab : forall u, alike t u -> forall x y, at_or_above u x y -> at_or_above t x y). { intros u [Hu _] x' y'. by apply above_content. }
      match goal with |- ends (fun fuel => bindR (apply_styles fuel _ _ _ _ _ _ _ _ _) (fun y => @?g y fuel)) =>
        apply (ends_bind (fun fuel => apply_styles fuel debug css order time depth c sizes' vars' a) g) end.
      - assert (Hnx : t_next a = t_next t) by (symmetry; exact (proj1 (proj1 Ha))). apply IH; [exact Hla|lia|lia|lia|eapply carries_content; [exact (proj1 Ha)|exact Hc]|exact Hv'|].
        intros m em Hm Hem. apply (Hab _ Ha) in Hm. apply (Ht m).
        + eapply rtc_l; [|exact Hm]. by apply (live_parent _ _ Hl).
        + unfold get_ctx in *. rewrite <- (Hb c m); [exact Hem|apply elem_of_list_here|exact Hm].
      - intros b (fuel' & Hb1). destruct (styles_trace _ _ _ _ _ _ _ _ _ _ _ Hla Hb1) as (_ & IH2 & IH3). apply IHc.
        + intros d Hd'. apply Hin. by apply elem_of_list_further.
        + exact Hnd.
        + eapply alike_trans; [exact Ha|exact IH3].
        + intros d m Hd' Hm. rewrite IH2; [apply (Hb d m); [by apply elem_of_list_further|done]|]. intros Hcm. apply (Hab _ Ha) in Hcm.
          apply Hnc. replace c with d; [done|]. eapply (above_disjoint _ _ n); [exact Hl|apply Hin; by apply elem_of_list_further|exact Hca|exact Hm|exact Hcm]. }
    apply Hfold; [done|exact (proj1 (live_once _ _ Hl n))|exact Hal1|].
    intros c m Hc' Hm. apply Ho. intros <-. apply (above_le _ _ _ _ Hl) in Hm. destruct (live_newer _ _ Hl n c ltac:(by left)). lia.
  Qed.
End page.

Lemma positions_halt : forall depth n loc op clip t, live t 0 -> n < t_next t -> t_next t <= n + depth -> halts (compute_final_positions depth n loc op clip t).
Proof.
  induction depth as [|depth IH]; intros n loc op clip t Hl Hlt Hd; [lia|]. cbn [compute_final_positions].
  apply halts_bind; [halting|]. intros lay _. apply halts_bind; [halting|]. intros e He. apply get_element_ctx in He. cbv zeta.
  match goal with |- context [match ?m with (_, _) => _ end] => destruct m as [clip' loc'] end.
  apply halts_bind; [halting|]. intros cs Hcs. apply children_spec in Hcs. subst cs.
  match goal with |- halts (foldR _ (put_element n ?e1 t) _) => assert (Hsame : same_content t (put_element n e1 t)) by (eapply put_element_same; [exact He|reflexivity]); revert Hsame; generalize (put_element n e1 t) end.
  intros t1 H1. rewrite (shown_attached _ _ _ (content_shown _ _ H1)).
  assert (Hf : forall cs a, cs ⊆ attached t n -> same_content t a -> halts (foldR (fun t c => compute_final_positions depth c loc' (e_opacity (place_element (mkLayout (vadd (lo_location lay) loc) (lo_size lay) (lo_content lay)) op clip e)) clip' t) a cs)).
  { induction cs as [|c cs IHc]; intros a Hin Ha; cbn [foldR]; [apply halts_ok|].
    assert (Hca : c ∈ attached t n) by (apply Hin, elem_of_list_here). destruct (live_newer _ _ Hl n c ltac:(by left)) as [Hnew Hold].
    assert (Hnx : t_next a = t_next t) by (symmetry; exact (proj1 Ha)). apply halts_bind.
    - apply IH; [exact (shown_live _ _ _ (content_shown _ _ Ha) Hl)|lia|lia].
    - intros b Hb. apply IHc; [intros d Hd'; apply Hin; by apply elem_of_list_further|]. eapply same_trans; [exact Ha|]. by eapply final_positions_same. }
  apply Hf; [done|exact H1].
Qed.

(** ** Input *)
Section input.
  Context (fmt : f64 -> string) (m : json) (tr : gmap string (json -> res json)) (Ht : halting tr) (depth : nat).
  Lemma argument_halts ev a : halts (eval_argument m tr ev a).
  Proof. unfold eval_argument. halting. by apply pipe_halts. Qed.
  Lemma arguments_halt ev args : forall i k acc, halts (eval_arguments fmt m tr ev i args k acc).
  Proof.
    induction args as [|a args IH]; intros i k acc; cbn [eval_arguments]; [apply halts_ok|]. apply halts_bind; [apply argument_halts|].
    intros [v|] _; [destruct i; apply IH|apply IH].
  Qed.
  Lemma emit_halts n e h ev s : halts (emit fmt m tr n e h ev s).
  Proof.
    unfold emit. cbv zeta. destruct (e_listeners e !! h); [|apply halts_ok]. apply halts_bind; [apply arguments_halt|]. intros [k0 l0] _. apply halts_ok.
  Qed.
  Lemma emit_mouse_halts n e h s : halts (emit_mouse fmt m tr n e h s). Proof. apply emit_halts. Qed.
  Lemma when_drag_halts n e h s : halts (when_drag s (emit_mouse fmt m tr n e h)).
  Proof. unfold when_drag. destruct (ev_drag s); [apply emit_halts|apply halts_ok]. Qed.
  Ltac go := repeat match goal with
    | |- halts (emit_mouse _ _ _ _ _ _ _) => apply emit_mouse_halts
    | |- halts (emit _ _ _ _ _ _ _ _) => apply emit_halts
    | |- halts (when_drag _ _) => apply when_drag_halts
    | _ => progress halting
    end.
  Lemma leave_halts st n : halts (leave_node fmt m tr st n).
  Proof. destruct st as [s t]. unfold leave_node. cbv zeta. go. Qed.
  Lemma move_halts prev st n : halts (move_node fmt m tr prev st n).
  Proof. destruct st as [s t]. unfold move_node. cbv zeta. go. Qed.
  Lemma blur_halts n st : halts (blur fmt m tr n st).
  Proof. destruct st as [s t]. unfold blur. cbv zeta. go. Qed.
  Lemma press_halts b st n : halts (press_node fmt m tr b st n).
  Proof.
    destruct st as [s t]. unfold press_node. cbv zeta. apply halts_bind; [halting|]. intros e _.
    apply halts_bind; [|intros [s1 t1] _; apply halts_bind; [halting|]; intros e1 _; apply halts_bind; [go|]; intros s2 _; go].
    match goal with |- halts (match ?x with Some _ => _ | None => _ end) => destruct x end; [|apply halts_ok].
    apply halts_bind; [|intros [s1 t1] _; destruct (ev_focus s1); go].
    match goal with |- halts (match ?x with Some _ => _ | None => _ end) => destruct x as [f|] end; [|apply halts_ok]. destruct (Nat.eqb f n); [apply halts_ok|apply blur_halts].
  Qed.
  Lemma release_halts b st n : halts (release_node fmt m tr b st n).
  Proof.
    destruct st as [s t]. unfold release_node. cbv zeta. apply halts_bind; [halting|]. intros e _. apply halts_bind; [go|]. intros s1 _. destruct (ev_drag s1).
    - match goal with |- halts (match ?x with Some _ => _ | None => _ end) => destruct x end; [|apply halts_ok]. go.
    - apply halts_bind; [destruct (_ && _); go|]. intros s2 _. apply halts_bind; [destruct (is_right b); go|]. intros s3 _. apply halts_ok.
  Qed.
  Lemma key_halts h f st : halts (on_key fmt m tr h f st).
  Proof. destruct st as [s t]. unfold on_key. destruct (ev_focus s); go. Qed.
  Lemma event_halts st ev : live (snd st) 0 -> 1 < t_next (snd st) -> t_next (snd st) <= depth -> halts (handle_event fmt depth m tr 1 st ev).
  Proof.
    intros Hl H1 Hd. destruct st as [s t]. cbn [snd] in *. destruct ev; cbn [handle_event]; try apply halts_ok; try apply key_halts.
    - unfold on_move. destruct (hits_total t 0 Hl p depth 1 H1 ltac:(lia)) as (u & ->). cbn [bindR]. apply halts_bind.
      + apply halts_fold. intros st n _. apply leave_halts.
      + intros st _. apply halts_fold. intros st' n _. apply move_halts.
    - unfold on_down. apply halts_bind; [destruct (ev_focus s) as [f|]; [|apply halts_ok]; destruct (memb f _); [apply halts_ok|apply blur_halts]|].
      intros [s1 t1] _. apply halts_fold. intros st' n _. apply press_halts.
    - unfold on_up. apply halts_bind; [apply halts_fold; intros st' n _; apply release_halts|]. intros [s1 t1] _. apply halts_bind; [|intros; apply halts_ok].
      apply halts_fold. intros t2 n _. unfold deactivate_node. halting.
  Qed.
  Lemma events_halt evs : forall st, live (snd st) 0 -> 1 < t_next (snd st) -> t_next (snd st) <= depth -> halts (foldR (handle_event fmt depth m tr 1) st evs).
  Proof.
    induction evs as [|ev evs IH]; intros st Hl H1 Hd; cbn [foldR]; [apply halts_ok|]. apply halts_bind; [by apply event_halts|]. intros st' E.
    apply handle_event_sbs in E. pose proof (sbs_same _ _ E) as [Hn _]. apply IH; [by eapply sbs_live|lia|lia].
  Qed.
  Lemma output_halts evs st : live (snd st) 0 -> 1 < t_next (snd st) -> t_next (snd st) <= depth -> halts (handle_output fmt depth m tr 1 evs st).
  Proof.
    destruct st as [s t]. cbn [snd]. intros Hl H1 Hd. unfold handle_output. destruct (last_move evs None) as [p|]; cbv beta iota zeta.
    - apply halts_bind; [by apply events_halt|]. intros [s1 t1] _. apply halts_ok.
    - apply halts_bind; [by apply events_halt|]. intros [s1 t1] _. apply halts_ok.
  Qed.
End input.

(** ** One update *)
Record page_inv (X : Externals) (css : Css) (t0 : Tree) (v : View) : Prop := {
  pi_sound : sound v;
  pi_kept : kept (x_debug X) (css_styles css) (v_bindings v) t0 (v_tree v);
  pi_css : v_css v = css;
  pi_body : v_body v = 1;
  pi_next : 1 < t_next (v_tree v);
  pi_tr : v_transformers v = x_transformers X
}.
Lemma loaded_inv X fuel doc css v : from_document X fuel doc css = Ok v -> exists t0, page_inv X css t0 v.
Proof.
  intros H0. destruct (kept_loaded _ _ _ _ _ H0) as (rn & t0 & Hm & Hre & Hfl & Hk & Hc & Hb). exists t0.
  pose proof (from_document_sound _ _ _ _ _ H0) as Hs. split; try done.
  - destruct (k_def _ _ _ _ _ Hk) as [Hn _]. rewrite <- Hn, (re_next _ _ _ Hre). pose proof (rsize_pos rn). lia.
  - unfold from_document in H0. destruct (scan_document _ _). apply bindR_Ok in H0 as ([[r root] b] & _ & H0). apply bindR_Ok in H0 as (d & _ & H0).
    apply bindR_Ok in H0 as (t1 & _ & H0). apply bindR_Ok in H0 as ([t2 ids] & _ & H0). injection H0 as <-. done.
Qed.
Lemma update_inv X fuel css t0 v i x v' o : page_inv X css t0 v -> update X fuel v i x = Ok (v', o) -> page_inv X css t0 v'.
Proof.
  intros [Hs Hk Hc Hb Hn Htr] Hu. pose proof (update_sound _ _ _ _ _ _ _ Hs Hu) as Hs'. pose proof (update_keeps _ _ _ _ _ _ _ Hs Hu) as K.
  pose proof (kept_update _ _ _ _ _ _ _ _ _ _ Hs Hu Hk) as Hk'.
  assert (Hrest : v_css v' = v_css v /\ v_body v' = v_body v /\ v_transformers v' = v_transformers v).
  { unfold update in Hu. apply bindR_Ok in Hu as ([[m t] ids] & _ & Hu); apply bindR_Ok in Hu as ([[s t'] o'] & _ & [= <- <-]); done. }
  destruct Hrest as (R1 & R2 & R3). split; try congruence.
  - destruct (k_def _ _ _ _ _ Hk) as [N1 _]. destruct (k_def _ _ _ _ _ Hk') as [N2 _]. lia.
Qed.

Lemma drawn_timers t t' n e' : drawn <$> t_nodes t' !! n = drawn <$> t_nodes t !! n -> get_ctx t' n = Some e' -> exists e, get_ctx t n = Some e /\ e_animators e' = e_animators e /\ e_transitions e' = e_transitions e.
Proof.
  intros H He'. destruct (ctx_node _ _ _ He') as [y Hy]. rewrite Hy in H. unfold get_ctx in He'. rewrite Hy in He'. cbn in He'.
  destruct (t_nodes t !! n) as [x|] eqn:Hx; [|done]. cbn in H. unfold drawn in H. rewrite He' in H. destruct (n_ctx x) as [e|] eqn:He; [|done]. cbn in H.
  exists e. unfold get_ctx. rewrite Hx. split; [exact He|]. unfold paint_of in H. injection H as H1 H2 H3 H4 H5 H6 H7 H8 H9 H10. done.
Qed.
Lemma viewport_timers root vp t t' n e' : set_viewport root vp t = Ok t' -> get_ctx t' n = Some e' -> get_ctx t n = Some e'.
Proof. intros H. by rewrite (viewport_ctx _ _ _ _ H). Qed.

Theorem update_ends X css t0 v i x : page_inv X css t0 v -> halting (x_transformers X) -> forall rank, ranked rank css -> inline_along (ranked_declaration rank) X v [(i, x)] -> tame_timers (in_time i) (v_tree v) ->
  ends (fun fuel => update X fuel v i x).
Proof.
  intros Hp Htr rank Rc Rr Htm. pose proof Hp as [Hs Hk Hc Hb Hn Htx]. unfold update.
  match goal with |- ends (fun fuel => bindR (prepare _ fuel _ _ _) (fun y => @?g y fuel)) => apply (ends_bind (fun fuel => prepare X fuel v i x) g) end.
  - unfold prepare.
    match goal with |- ends (fun fuel => bindR ?m (fun y => @?g y fuel)) => apply (ends_bind (fun _ => m) g) end.
    { apply ends_const. apply view_bind_halts. by rewrite Htx. }
    intros [m rs] (_ & Hvb).
    match goal with |- ends (fun fuel => bindR ?m (fun y => @?g y fuel)) => apply (ends_bind (fun _ => m) g) end.
    { apply ends_const. apply update_trees_halts. }
    intros [ta ids] (_ & Hup).
    match goal with |- ends (fun fuel => bindR ?m (fun y => @?g y fuel)) => apply (ends_bind (fun _ => m) g) end.
    { apply ends_const. apply viewport_halts. }
    intros t1 (_ & H1). cbv zeta.
    pose proof (so_live _ Hs) as Hl. rewrite (so_root _ Hs) in Hl.
    assert (Hok : Forall (reaction_ok (v_tree v)) rs) by (by eapply view_bind_reactions_ok).
    assert (Hk1 : kept (x_debug X) (css_styles css) (v_bindings v) t0 ta) by (eapply kept_reactions; [exact Hk|exact Hok|by eapply view_bind_from|exact Hup]).
    pose proof (set_viewport_same _ _ _ _ H1) as Hsame.
    pose proof (shown_live _ _ _ (content_shown _ _ Hsame) (k_live _ _ _ _ _ Hk1)) as Hl1.
    assert (Hn1 : 1 < t_next t1). { destruct (k_def _ _ _ _ _ Hk) as [N1 _]. destruct (k_def _ _ _ _ _ Hk1) as [N2 _]. destruct Hsame as [N3 _]. lia. }
    match goal with |- ends (fun fuel => bindR (apply_styles fuel _ _ _ _ _ _ ?sz _ _) (fun y => @?g y fuel)) =>
      apply (ends_bind (fun fuel => apply_styles fuel (x_debug X) (v_css v) (x_order X) (in_time i) (tree_depth t1) (v_body v) sz ∅ t1) g) end.
    + rewrite Hb. apply (styles_end _ _ _ _ rank); [exact Hl1|lia|exact Hn1|unfold tree_depth; lia| |apply ranked_empty|].
      * eapply carries_content; [exact Hsame|]. eapply kept_carries; [exact Rc| |exact Hk1]. apply Rr. by eapply way_here.
      * intros k e _ He. apply (viewport_timers _ _ _ _ _ _ H1) in He. pose proof (update_trees_drawn _ _ _ _ _ _ Hup k) as Hdr. cbn [fst] in Hdr.
        destruct (drawn_timers _ _ _ _ Hdr He) as (e0 & He0 & Ea & Et). destruct (Htm k e0 He0) as [T1 T2]. unfold timers_ok. rewrite Ea, Et. done.
    + intros t2 (fuel & H2). apply ends_const. pose proof (apply_styles_same _ _ _ _ _ _ _ _ _ _ _ H2) as Hs2.
      assert (Hs3 : same_content t1 (run_layout X t2)) by (eapply same_trans; [exact Hs2|apply run_layout_same]).
      apply halts_bind; [|intros; apply halts_ok]. rewrite Hb. apply positions_halt.
      * exact (shown_live _ _ _ (content_shown _ _ Hs3) Hl1).
      * destruct Hs3 as [N _]. rewrite <- N. exact Hn1.
      * unfold tree_depth. lia.
  - intros [[m t] ids] (fuel & Hpr). apply ends_const. destruct (prepare_live _ _ _ _ _ _ _ _ Hs Hpr) as [Hl [Hnx _]].
    apply halts_bind; [|intros [[s t'] o] _; apply halts_ok]. rewrite Hb. apply output_halts; [by rewrite Htx|exact Hl|cbn [snd]; lia|unfold tree_depth; cbn [snd]; lia].
Qed.
