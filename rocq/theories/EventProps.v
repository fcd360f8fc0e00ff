(** * The laws of input handling. *)
From Coq Require Import ZArith Lia.
From stdpp Require Import gmap.
From RecordUpdate Require Import RecordUpdate.
From Verif Require Import Str F32 Res ResFacts Json PropKey Html Css Element Tree ViewModel Render Update Matching
  Cascade Initial Animation Apply Styling Events View SpecReact SpecLive SpecView SpecEvents
  FrameFacts LiveFacts LiveUpdate LiveView EventFacts EventPage EventSteps EventFrame EventSay EventHistory.

Lemma session_ok X fuel doc css hist v steps : session_of X fuel doc css hist v steps ->
  ready X v /\ Forall (step_ok X) steps /\ ev_log (v_session v) = trace steps /\ v_body v = 1 /\ inv (v_session v, v_tree v) /\
  exists v0, ready X v0 /\ ev_log (v_session v0) = [] /\ v_session v0 = session_new /\ happened X fuel v0 hist v steps /\ chain (v_session v0, v_tree v0) steps (v_session v, v_tree v).
Proof.
  intros (v0 & H0 & H). pose proof (load_ready _ _ _ _ _ H0) as Hr.
  assert (Hs : v_session v0 = session_new).
  { apply from_document_stages in H0 as (templates & body & r & root & b & t & rn & ps & _ & _ & Hm & Hre & _ & _ & _ & _ & _ & Hsh & Hbd & Ha & Hr0 & Hb1 & Htr & _ & Hse). exact Hse. }
  destruct (happened_ok _ _ _ _ _ _ H Hr) as (H1 & H2 & H3 & H4 & H5). split; [done|]. split; [done|]. rewrite Hs in H4. split; [exact H4|].
  split; [exact (rd_body _ _ H1)|]. split; [exact (rd_inv _ _ H1)|]. exists v0. split; [done|]. split; [by rewrite Hs|]. done.
Qed.

Lemma sessions_exist X fuel doc css hist v0 v os : from_document X fuel doc css = Ok v0 -> updates X fuel v0 hist = Ok (v, os) ->
  exists steps, session_of X fuel doc css hist v steps.
Proof. intros H0 H. apply updates_happened in H as (steps & Hs). exists steps. by exists v0. Qed.

(** a session can be cut before any of its steps *)
Lemma chain_before a l1 sp l2 b : chain a (l1 ++ sp :: l2) b -> chain a l1 (sp_before sp).
Proof.
  revert a. induction l1 as [|x l1 IH]; intros a H; cbn in H; inversion H as [|? ? ? ? H1 H2]; subst.
  - by constructor.
  - econstructor; [done|]. by apply IH.
Qed.

Ltac step_event sp Hok s t s' t' He :=
  let depth := fresh "depth" in let H := fresh "H" in
  destruct Hok as (Hi & Hi' & Hsb & depth & H); destruct sp as [m [s t] ev [s' t']]; cbn [sp_before sp_after sp_event sp_model fst snd] in *;
  destruct ev; cbn [handle_event] in H.

(** what a step does to the session *)
Definition step_session (sp : Step) : Prop :=
  let s := fst (sp_before sp) in let s' := fst (sp_after sp) in let t := snd (sp_before sp) in
  match sp_event sp with
  | IMouseMove p => elements_under t 1 p (ev_under s') /\
      (ev_action s', ev_drag s', ev_focus s') = (ev_action s, ev_drag s, ev_focus s) /\
      calls sp = flat_map (leave_calls s (ev_under s')) (rev (ev_under s)) ++ flat_map (move_calls s (ev_under s)) (rev (ev_under s'))
  | IMouseButtonDown b =>
      (ev_under s', ev_action s', ev_drag s', ev_focus s') =
      (ev_under s, ev_action s ++ rev (ev_under s), foldl (press_drag t b) (ev_drag s) (rev (ev_under s)), foldl (press_focus t) (kept_focus s) (rev (ev_under s))) /\
      calls sp = drop_calls s ++ down_calls t b (kept_focus s) (rev (ev_under s))
  | IMouseButtonUp b =>
      (ev_under s', ev_action s', ev_drag s', ev_focus s') =
      (ev_under s, [], foldl (release_drag t) (ev_drag s) (rev (ev_under s)), ev_focus s) /\
      calls sp = up_calls t b (ev_drag s) (rev (ev_under s))
  | IKeyDown _ => (ev_under s', ev_action s', ev_drag s', ev_focus s') = (ev_under s, ev_action s, ev_drag s, ev_focus s) /\
      snd (sp_after sp) = t /\ calls sp = match ev_focus s with Some n => [(n, "onkeydown")] | None => [] end
  | IKeyUp _ => (ev_under s', ev_action s', ev_drag s', ev_focus s') = (ev_under s, ev_action s, ev_drag s, ev_focus s) /\
      snd (sp_after sp) = t /\ calls sp = match ev_focus s with Some n => [(n, "onkeyup")] | None => [] end
  | IChar _ => (ev_under s', ev_action s', ev_drag s', ev_focus s') = (ev_under s, ev_action s, ev_drag s, ev_focus s) /\
      snd (sp_after sp) = t /\ calls sp = match ev_focus s with Some n => [(n, "oninput")] | None => [] end
  | IUnknown | IMouseWheel _ => (ev_under s', ev_action s', ev_drag s', ev_focus s') = (ev_under s, ev_action s, ev_drag s, ev_focus s) /\
      snd (sp_after sp) = t /\ calls sp = []
  end.
Lemma step_does X sp : step_ok X sp -> step_session sp.
Proof.
  intros Hok. pose proof (fun l => calls_log X sp l Hok) as Hc. destruct Hok as (Hi & Hi' & Hsb & depth & H). unfold step_session.
  destruct sp as [m [s t] ev [s' t']]; cbn [sp_before sp_after sp_event sp_model fst snd] in *. destruct ev as [|p|b|b|w|k|k|c]; cbn [handle_event] in H.
  - injection H as <- <-. split; [done|]. split; [done|]. apply Hc. by rewrite app_nil_r.
  - apply on_move_effect in H as (all & Ho & Hu & Hq & Hl & _); [|done]. rewrite Hu. split; [by exists all|]. split; [congruence|]. by apply Hc.
  - apply on_down_effect in H as (Hq & Hl & _); [|done]. split; [congruence|]. by apply Hc.
  - apply on_up_effect in H as (Hq & Hl & _); [|done]. split; [congruence|]. by apply Hc.
  - injection H as <- <-. split; [done|]. split; [done|]. apply Hc. by rewrite app_nil_r.
  - apply on_key_effect in H as ((Q1 & Q2 & Q3 & Q4 & Q5) & -> & Hl & _); [|done|notin]. split; [congruence|]. split; [done|]. by apply Hc.
  - apply on_key_effect in H as ((Q1 & Q2 & Q3 & Q4 & Q5) & -> & Hl & _); [|done|notin]. split; [congruence|]. split; [done|]. by apply Hc.
  - apply on_key_effect in H as ((Q1 & Q2 & Q3 & Q4 & Q5) & -> & Hl & _); [|done|notin]. split; [congruence|]. split; [done|]. by apply Hc.
Qed.

(** flags and the session *)
Lemma hover_in st n : inv st -> hovered (tree_of st) n <-> n ∈ ev_under (fst st).
Proof. intros H. apply (iv_hover _ H). Qed.
Lemma active_in st n : inv st -> active (tree_of st) n <-> n ∈ ev_action (fst st).
Proof. intros H. apply (iv_active _ H). Qed.
Lemma focus_in st n : inv st -> focused (tree_of st) n <-> ev_focus (fst st) = Some n.
Proof. intros H. apply (iv_focus _ H). Qed.

(** the page does not change while events are handled *)
Lemma sbs_attached t t' n : same_but_state t t' -> attached t' n = attached t n.
Proof.
  intros [_ H]. specialize (H n). unfold attached. destruct (t_nodes t !! n) as [x|], (t_nodes t' !! n) as [x'|]; try done.
  cbn in H. apply (inj Some) in H. change (n_children (node_no_state x') = n_children (node_no_state x)). by rewrite H.
Qed.
Lemma sbs_touched t t' p n : same_but_state t t' -> touched t' p n <-> touched t p n.
Proof.
  assert (Hh : forall a b, same_but_state a b -> touched a p n -> touched b p n).
  { intros a b H (e & He & H1 & H2 & H3). destruct (sbs_ctx _ _ _ _ H He) as (e' & He' & Hn). exists e'. split; [done|].
    assert (E1 : e_pointer_events e' = e_pointer_events e). { change (e_pointer_events (no_state e') = e_pointer_events (no_state e)). by rewrite Hn. }
    assert (E2 : e_visible e' = e_visible e). { change (e_visible (no_state e') = e_visible (no_state e)). by rewrite Hn. }
    assert (E3 : e_position e' = e_position e). { change (e_position (no_state e') = e_position (no_state e)). by rewrite Hn. }
    assert (E4 : e_size e' = e_size e). { change (e_size (no_state e') = e_size (no_state e)). by rewrite Hn. }
    rewrite E1, E2, E3, E4. done. }
  intros H. split; apply Hh; [by apply sbs_sym|done].
Qed.
Lemma sbs_page t t' r n : same_but_state t t' -> on_page t' r n <-> on_page t r n.
Proof.
  assert (Hh : forall a b, same_but_state a b -> on_page a r n -> on_page b r n).
  { intros a b H. induction 1 as [|p c _ IH Hc]; [constructor|]. econstructor; [done|]. by rewrite (sbs_attached _ _ _ H). }
  intros H. split; apply Hh; [by apply sbs_sym|done].
Qed.
Lemma sbs_under t t' r p n : same_but_state t t' -> under_mouse t' r p n <-> under_mouse t r p n.
Proof. intros H. unfold under_mouse. by rewrite (sbs_page _ _ _ _ H), (sbs_touched _ _ _ _ H). Qed.
Lemma sbs_order t t' r l : same_but_state t t' -> document_order t r l -> document_order t' r l.
Proof.
  intros H. revert r l. apply order_ind'. intros n ls _ Hl. constructor. by rewrite (sbs_attached _ _ _ H).
Qed.
Lemma sbs_elements t t' r p U : same_but_state t t' -> elements_under t r p U -> elements_under t' r p U.
Proof.
  intros H (all & Ho & ->). exists all. split; [by eapply sbs_order|]. apply list_filter_iff. intros n. symmetry. by apply sbs_touched.
Qed.
Lemma order_det t n l1 l2 : document_order t n l1 -> document_order t n l2 -> l1 = l2.
Proof.
  intros H. revert l2. revert n l1 H. apply (order_ind' t (fun n l1 => forall l2, document_order t n l2 -> l1 = l2)).
  intros n ls _ H l2 H2. inversion H2 as [? ls2 Hf]; subst. f_equal. f_equal. clear H2. revert ls2 Hf. generalize (attached t n) H. clear. intros cs H.
  induction H; intros ls2 Hf; inversion Hf; subst; [done|]. f_equal; [by apply H|]. by apply IHForall2.
Qed.
Lemma elements_det t r p U1 U2 : elements_under t r p U1 -> elements_under t r p U2 -> U1 = U2.
Proof. intros (a & Ha & ->) (b & Hb & ->). by rewrite (order_det _ _ _ _ Ha Hb). Qed.
Lemma elements_in t r r0 p U n : live t r0 -> elements_under t r p U -> n ∈ U <-> under_mouse t r p n.
Proof. intros Hl (all & Ho & ->). rewrite elem_of_list_filter, (order_page _ _ _ Ho n). unfold under_mouse. tauto. Qed.

(** ** C17 *)
Lemma hover_step X sp : step_ok X sp -> forall n,
  match sp_event sp with
  | IMouseMove p => hovered (tree_of (sp_after sp)) n <-> under_mouse (tree_of (sp_before sp)) 1 p n
  | _ => hovered (tree_of (sp_after sp)) n <-> hovered (tree_of (sp_before sp)) n
  end.
Proof.
  intros Hok n. pose proof (step_does _ _ Hok) as H. destruct Hok as (Hi & Hi' & _). unfold step_session in H.
  pose proof (hover_in _ n Hi) as E1. pose proof (hover_in _ n Hi') as E2.
  destruct (sp_event sp); rewrite E2, ?E1; destruct H as (H & _); try (injection H as H; by rewrite H) || (injection H as H ?; by rewrite H).
  eapply elements_in; [exact (iv_live _ Hi)|done].
Qed.

(** the list under the mouse while the events of one update are handled *)
Lemma handled_under X depth m st evs st' steps : handled (x_fmt_f64 X) depth m (x_transformers X) 1 st evs st' steps -> inv st ->
  ev_mouse (fst st') = ev_mouse (fst st) /\
  match list.last (moves evs) with
  | Some p => elements_under (snd st) 1 p (ev_under (fst st'))
  | None => ev_under (fst st') = ev_under (fst st)
  end.
Proof.
  induction 1 as [st|st ev st1 evs st' steps H1 Hh IH]; intros Hi; [done|].
  pose proof (event_inv _ _ _ _ _ _ _ _ Hi H1) as Hi1. destruct (IH Hi1) as (M & IH').
  pose proof (handle_event_sbs _ _ _ _ _ _ _ _ H1) as Hs.
  assert (Hok : step_ok X (mkStep m st ev st1)). { split; [done|]. split; [done|]. split; [done|]. by exists depth. }
  pose proof (step_does _ _ Hok) as Hd.
  assert (M1 : ev_mouse (fst st1) = ev_mouse (fst st)). { apply (event_heard _ _ _ (snd st)) in H1; [|apply sbs_refl]. by destruct H1 as (? & _). }
  split; [congruence|]. unfold step_session in Hd. cbn [sp_event sp_before sp_after] in Hd.
  destruct (list.last (moves evs)) as [p|] eqn:El.
  - assert (Hl : list.last (moves (ev :: evs)) = Some p). { destruct ev; cbn; try exact El. change (omap _ evs) with (moves evs). by rewrite last_cons, El. }
    rewrite Hl. eapply sbs_elements; [apply sbs_sym; exact Hs|done].
  - apply last_None in El. rewrite IH'. destruct ev; unfold moves; cbn [omap list_omap list.last]; change (omap _ evs) with (moves evs); rewrite El; cbn [list.last]; destruct Hd as (Hd & _); try done; try by injection Hd.
Qed.
Lemma seen_last mouse evs : list.last (moves (seen_events mouse evs)) = Some (mouse_after mouse evs).
Proof.
  unfold seen_events, mouse_after. destruct (moves evs) as [|p l] eqn:E; [unfold moves in *; cbn; by rewrite E|]. rewrite E. by rewrite last_cons; destruct (list.last l).
Qed.

Lemma update_under X fuel v i x v1 o : ready X v -> update X fuel v i x = Ok (v1, o) ->
  ev_mouse (v_session v1) = mouse_after (ev_mouse (v_session v)) (in_events i) /\
  elements_under (v_tree v1) 1 (ev_mouse (v_session v1)) (ev_under (v_session v1)).
Proof.
  intros Hr H. destruct (update_side _ _ _ _ _ _ _ Hr H) as (m & t & now & [S1 S2 S3 S4 S5 S6 S7 S8]). destruct S2 as (s1 & Hh & Hs1 & _).
  destruct (handled_under _ _ _ _ _ _ _ Hh S3) as (M & U). rewrite seen_last in U. cbn [fst snd] in *.
  destruct (handled_steps _ _ _ _ _ _ _ Hh S3) as (_ & Hsb & _). rewrite Hs1. cbn.
  split; [rewrite M; reflexivity|]. rewrite M. eapply sbs_elements; [exact Hsb|exact U].
Qed.

Lemma happened_mouse X fuel v hist v' steps : happened X fuel v hist v' steps -> ready X v ->
  ev_mouse (v_session v') = foldl (fun p e => mouse_after p (in_events (fst e))) (ev_mouse (v_session v)) hist /\
  (hist <> [] -> elements_under (v_tree v') 1 (ev_mouse (v_session v')) (ev_under (v_session v'))).
Proof.
  induction 1 as [v|v i x hist m t ids s1 t1 now v1 o v' later Hp Hh H Ht1 Hlog Hrest IH]; intros Hr; [done|].
  destruct (update_side _ _ _ _ _ _ _ Hr H) as (m' & t' & now' & [S1 S2 S3 S4 S5 S6 S7 S8]).
  destruct (update_under _ _ _ _ _ _ _ Hr H) as (M & U). destruct (IH S8) as (I1 & I2). split; [by rewrite I1, M|].
  intros _. destruct hist; [|by apply I2]. inversion Hrest; subst. done.
Qed.

Lemma hover_now X fuel doc css hist v steps : session_of X fuel doc css hist v steps -> hist <> [] ->
  forall n, hovered (v_tree v) n <-> under_mouse (v_tree v) (v_body v) (mouse_history hist) n.
Proof.
  intros H Hne n. destruct (session_ok _ _ _ _ _ _ _ H) as (Hr & _ & _ & Hb & Hi & v0 & Hr0 & _ & Hs0 & Hh & _). rewrite Hb.
  destruct (happened_mouse _ _ _ _ _ _ Hh Hr0) as (M & U). specialize (U Hne). rewrite Hs0 in M. cbn in M. fold (mouse_history hist) in M. rewrite M in U.
  rewrite (hover_in _ n Hi). cbn [fst]. eapply elements_in; [exact (iv_live _ Hi)|exact U].
Qed.

(** between events flags change only by events *)
Lemma chain_flags g a steps b : chain a steps b ->
  match steps with
  | [] => forall n, flag g (snd b) n <-> flag g (snd a) n
  | sp :: _ => (forall n, flag g (snd (sp_before sp)) n <-> flag g (snd a) n) /\
      (forall i x y, steps !! i = Some x -> steps !! S i = Some y -> forall n, flag g (snd (sp_before y)) n <-> flag g (snd (sp_after x)) n) /\
      (forall y, list.last steps = Some y -> forall n, flag g (snd b) n <-> flag g (snd (sp_after y)) n)
  end.
Proof.
  induction 1 as [a b [Hf _]|a sp steps b [Hf _] Hc IH]; [intros n; by apply ss_flag|]. split; [intros n; by apply ss_flag|]. destruct steps as [|sp2 steps].
  - split; [intros [|i] ? ? ? ?; done|]. intros y [= <-] n. apply IH.
  - destruct IH as (I1 & I2 & I3). split.
    + intros [|i] x y Hx Hy n; [injection Hx as <-; injection Hy as <-; apply I1|]. by eapply I2.
    + intros y Hy. apply I3. by rewrite <- Hy.
Qed.

(** ** C18, C19, C23: the trace is legal *)
Lemma hover_trace X fuel doc css hist v steps : session_of X fuel doc css hist v steps -> forall n,
  exists inside : bool, accept (hover_rule n) (Some false) (trace steps) = Some inside /\ (inside = true <-> hovered (v_tree v) n).
Proof.
  intros H n. destruct (session_ok _ _ _ _ _ _ _ H) as (_ & _ & Hl & _ & Hi & _). destruct (iv_hover _ Hi) as (_ & H1 & H2). cbn [fst snd] in *.
  specialize (H2 n). rewrite Hl in H2. eexists. split; [exact H2|]. rewrite bool_decide_eq_true. symmetry. apply H1.
Qed.
Lemma focus_trace X fuel doc css hist v steps : session_of X fuel doc css hist v steps ->
  exists f, accept focus_rule (Some None) (trace steps) = Some f /\ forall n, focused (v_tree v) n <-> f = Some n.
Proof.
  intros H. destruct (session_ok _ _ _ _ _ _ _ H) as (_ & _ & Hl & _ & Hi & _). destruct (iv_focus _ Hi) as (H1 & H2). cbn [fst snd] in *.
  rewrite Hl in H2. eexists. split; [exact H2|exact H1].
Qed.
Lemma drag_trace X fuel doc css hist v steps : session_of X fuel doc css hist v steps -> no_drag steps \/ exists source, dragging steps source.
Proof.
  intros H. destruct (session_ok _ _ _ _ _ _ _ H) as (_ & _ & Hl & _ & Hi & _). destruct (iv_drag _ Hi) as (_ & H2). cbn [fst snd] in *.
  rewrite Hl in H2. unfold no_drag, dragging. destruct (ev_drag (v_session v)) as [n|]; [right; by exists n|by left].
Qed.
Lemma one_focus st a b : inv st -> focused (tree_of st) a -> focused (tree_of st) b -> a = b.
Proof. intros H Ha Hb. rewrite (focus_in _ a H) in Ha. rewrite (focus_in _ b H) in Hb. congruence. Qed.
Lemma focus_always X fuel doc css hist v steps sp a b : session_of X fuel doc css hist v steps -> sp ∈ steps ->
  (focused (tree_of (sp_before sp)) a -> focused (tree_of (sp_before sp)) b -> a = b) /\
  (focused (tree_of (sp_after sp)) a -> focused (tree_of (sp_after sp)) b -> a = b).
Proof.
  intros H Hsp. destruct (session_ok _ _ _ _ _ _ _ H) as (_ & Hs & _). rewrite Forall_forall in Hs. destruct (Hs _ (proj1 (elem_of_list_In _ _) Hsp)) as (H1 & H2 & _).
  split; by apply one_focus.
Qed.

(** at a step of a session: the trace so far *)
Lemma chain_log X : forall a steps b, chain a steps b -> Forall (step_ok X) steps -> ev_log (fst b) = ev_log (fst a) ++ trace steps.
Proof.
  induction 1 as [a b [_ Hf]|a sp steps b [_ Hf] _ IH]; intros Hok.
  - unfold trace. cbn. rewrite app_nil_r. by injection Hf.
  - inversion Hok as [|? ? Ho Hoks]; subst. rewrite (IH Hoks), (sent_log X sp Ho). unfold trace. cbn. rewrite app_assoc. f_equal. f_equal. by injection Hf.
Qed.
Lemma session_at X fuel doc css hist v l1 sp l2 : session_of X fuel doc css hist v (l1 ++ sp :: l2) ->
  step_ok X sp /\ ev_log (fst (sp_before sp)) = trace l1 /\
  exists v0, chain (v_session v0, v_tree v0) l1 (sp_before sp) /\ Forall (step_ok X) l1 /\ inv (v_session v0, v_tree v0) /\ v_session v0 = session_new.
Proof.
  intros H. destruct (session_ok _ _ _ _ _ _ _ H) as (_ & Hs & _ & _ & _ & v0 & Hr0 & Hl0 & Hs0 & _ & Hc).
  apply chain_before in Hc. apply Forall_app in Hs as [Hs1 Hs2]. inversion Hs2; subst.
  split; [done|]. split; [rewrite (chain_log _ _ _ _ Hc Hs1); cbn; by rewrite Hl0|]. exists v0.
  split; [done|]. split; [done|]. split; [exact (rd_inv _ _ Hr0)|done].
Qed.

(** ** C20 *)
Lemma active_step X sp : step_ok X sp -> forall n,
  match sp_event sp with
  | IMouseButtonDown _ => active (tree_of (sp_after sp)) n <-> active (tree_of (sp_before sp)) n \/ hovered (tree_of (sp_before sp)) n
  | IMouseButtonUp _ => ~ active (tree_of (sp_after sp)) n
  | _ => active (tree_of (sp_after sp)) n <-> active (tree_of (sp_before sp)) n
  end.
Proof.
  intros Hok n. pose proof (step_does _ _ Hok) as H. destruct Hok as (Hi & Hi' & _). unfold step_session in H.
  pose proof (hover_in _ n Hi) as E0. pose proof (active_in _ n Hi) as E1. pose proof (active_in _ n Hi') as E2.
  destruct (sp_event sp); rewrite E2, ?E1, ?E0; destruct H as (H & H'); try (injection H as _ H _ _; rewrite H; try done).
  - destruct H' as (H' & _). injection H' as H' _ _. by rewrite H'.
  - rewrite elem_of_app, elem_of_rev_. done.
  - rewrite elem_of_nil. tauto.
Qed.
Lemma chain_active X n : forall a steps b, chain a steps b -> Forall (step_ok X) steps ->
  active (snd b) n <-> pressed_since steps n \/ (active (snd a) n /\ Forall (fun sp => ~ is_up sp) steps).
Proof.
  intros a steps b H. induction H as [a b [Hf _]|a sp steps b [Hf _] _ IH]; intros Hok.
  - rewrite (ss_flag _ _ _ n Hf : active (snd b) n <-> active (snd a) n). split; [intros; by right|]. intros [(pre & d & post & E & _)|(? & _)]; [by destruct pre|done].
  - inversion Hok as [|? ? Ho Hoks]; subst. rewrite (IH Hoks). clear IH. pose proof (active_step _ _ Ho n) as Ha.
    pose proof (ss_flag st_active _ _ n Hf : active (snd (sp_before sp)) n <-> active (snd a) n) as Hb. unfold tree_of in Ha.
    assert (Hps : pressed_since (sp :: steps) n <-> (is_down sp /\ hovered (snd (sp_before sp)) n /\ Forall (fun sp => ~ is_up sp) steps) \/ pressed_since steps n).
    { split.
      - intros (pre & d & post & E & Hd & Hh & Hp). destruct pre as [|x pre]; injection E as <- E; [subst; by left|]. right. by exists pre, d, post.
      - intros [(Hd & Hh & Hp)|(pre & d & post & -> & Hd & Hh & Hp)]; [by exists [], sp, steps|]. by exists (sp :: pre), d, post. }
    rewrite Hps, List.Forall_cons_iff. unfold is_down, is_up.
    destruct (sp_event sp) eqn:Ev.
    + rewrite Ha, Hb. assert (Hu : ~ exists b, IUnknown = IMouseButtonUp b) by (by intros (? & ?)). assert (Hd : ~ exists b, IUnknown = IMouseButtonDown b) by (by intros (? & ?)). tauto.
    + rewrite Ha, Hb. assert (Hu : ~ exists b, IMouseMove p = IMouseButtonUp b) by (by intros (? & ?)). assert (Hd : ~ exists b, IMouseMove p = IMouseButtonDown b) by (by intros (? & ?)). tauto.
    + rewrite Ha, Hb. assert (Hu : ~ exists b1, IMouseButtonDown b0 = IMouseButtonUp b1) by (by intros (? & ?)). assert (Hd : exists b1, IMouseButtonDown b0 = IMouseButtonDown b1) by (by eexists). tauto.
    + assert (Hu : exists b1, IMouseButtonUp b0 = IMouseButtonUp b1) by (by eexists). assert (Hd : ~ exists b1, IMouseButtonUp b0 = IMouseButtonDown b1) by (by intros (? & ?)). tauto.
    + rewrite Ha, Hb. assert (Hu : ~ exists b, IMouseWheel w = IMouseButtonUp b) by (by intros (? & ?)). assert (Hd : ~ exists b, IMouseWheel w = IMouseButtonDown b) by (by intros (? & ?)). tauto.
    + rewrite Ha, Hb. assert (Hu : ~ exists b, IKeyDown k = IMouseButtonUp b) by (by intros (? & ?)). assert (Hd : ~ exists b, IKeyDown k = IMouseButtonDown b) by (by intros (? & ?)). tauto.
    + rewrite Ha, Hb. assert (Hu : ~ exists b, IKeyUp k = IMouseButtonUp b) by (by intros (? & ?)). assert (Hd : ~ exists b, IKeyUp k = IMouseButtonDown b) by (by intros (? & ?)). tauto.
    + rewrite Ha, Hb. assert (Hu : ~ exists b, IChar c = IMouseButtonUp b) by (by intros (? & ?)). assert (Hd : ~ exists b, IChar c = IMouseButtonDown b) by (by intros (? & ?)). tauto.
Qed.
Lemma fresh_active v0 n : inv (v_session v0, v_tree v0) -> v_session v0 = session_new -> ~ active (v_tree v0) n.
Proof. intros Hi Hs Ha. apply (active_in _ n Hi) in Ha. cbn in Ha. rewrite Hs in Ha. by apply elem_of_nil in Ha. Qed.
Lemma active_at X fuel doc css hist v l1 sp l2 n : session_of X fuel doc css hist v (l1 ++ sp :: l2) -> active (tree_of (sp_before sp)) n <-> pressed_since l1 n.
Proof.
  intros H. destruct (session_at _ _ _ _ _ _ _ _ _ H) as (Ho & _ & v0 & Hc & Hs & Hi & H0).
  unfold tree_of. rewrite (chain_active X n _ _ _ Hc Hs). pose proof (fresh_active v0 n Hi H0). cbn [snd]. tauto.
Qed.
Lemma active_end X fuel doc css hist v steps n : session_of X fuel doc css hist v steps -> active (v_tree v) n <-> pressed_since steps n.
Proof.
  intros H. destruct (session_ok _ _ _ _ _ _ _ H) as (_ & Hs & _ & _ & _ & v0 & Hr0 & Hl0 & Hs0 & _ & Hc).
  change (v_tree v) with (snd (v_session v, v_tree v)). rewrite (chain_active X n _ _ _ Hc Hs). pose proof (fresh_active v0 n (rd_inv _ _ Hr0) Hs0). cbn [snd]. tauto.
Qed.

(** ** Cutting an update before one of its events *)
Lemma handled_cut fmt depth m tr body : forall pre st evs st' sp post, handled fmt depth m tr body st evs st' (pre ++ sp :: post) ->
  handled fmt depth m tr body st (map sp_event pre) (sp_before sp) pre /\ sp_model sp = m /\
  handle_event fmt depth m tr body (sp_before sp) (sp_event sp) = Ok (sp_after sp).
Proof.
  induction pre as [|x pre IH]; intros st evs st' sp post H; cbn in H; inversion H as [|? ? st1 ? ? ? H1 H2]; subst.
  - split; [constructor|]. by split.
  - destruct (IH _ _ _ _ _ H2) as (I1 & I2 & I3). split; [|done]. cbn. by constructor.
Qed.

Lemma update_at X fuel doc css hist v steps i x t pre sp post : session_of X fuel doc css hist v steps ->
  input_steps X fuel v i x t (pre ++ sp :: post) ->
  step_ok X sp /\ same_but_state t (snd (sp_before sp)) /\ ev_log (fst (sp_before sp)) = trace (steps ++ pre) /\
  (forall p, list.last (moves (map sp_event pre)) = Some p -> elements_under t 1 p (ev_under (fst (sp_before sp)))).
Proof.
  intros Hses (m & ids & st & Hp & Hh). destruct (session_ok _ _ _ _ _ _ _ Hses) as (Hr & _ & Hlog & Hb & _).
  rewrite (rd_tr _ _ Hr), Hb in Hh. fold (start v i) in Hh.
  destruct (prepare_live _ _ _ _ _ _ _ _ (rd_sound _ _ Hr) Hp) as (Hl & Hd). pose proof (prepare_ss _ _ _ _ _ _ _ _ Hp) as Hss.
  assert (Hi : inv (start v i, t)). { eapply ss_inv; [exact (rd_inv _ _ Hr)|done|done|done]. }
  apply handled_cut in Hh as (H1 & H2 & H3). destruct (handled_steps _ _ _ _ _ _ _ H1 Hi) as (I1 & I2 & _ & _ & _ & _ & I7 & _).
  destruct (handled_under _ _ _ _ _ _ _ H1 Hi) as (_ & U). cbn [fst snd] in *. subst m. split; [|split; [done|split]].
  - split; [done|]. split; [by eapply event_inv|]. split; [by eapply handle_event_sbs|]. by eexists.
  - rewrite I7. cbn. rewrite Hlog. unfold trace. by rewrite flat_map_app.
  - intros p Hlast. rewrite Hlast in U. done.
Qed.

(** ** C21: the keyboard *)
Lemma flat_map_in {A B} (f : A -> list B) l b : b ∈ flat_map f l -> exists a, a ∈ l /\ b ∈ f a.
Proof. rewrite elem_of_list_In, in_flat_map. intros (a & H1 & H2). exists a. by rewrite !elem_of_list_In. Qed.
Lemma drag_call_in s n h k j : (k, j) ∈ drag_call s n h -> j = h /\ k = n.
Proof. unfold drag_call. destruct (ev_drag s); [|by intros ?%elem_of_nil]. intros [= -> ->]%elem_of_list_singleton. done. Qed.

Lemma leave_calls_in s U n k j : (k, j) ∈ leave_calls s U n -> k = n /\ n ∉ U /\ (j = "onmouseleave" \/ j = "ondragleave").
Proof.
  unfold leave_calls. destruct (decide _); [by intros ?%elem_of_nil|]. rewrite elem_of_cons. intros [[= -> ->]|[-> ->]%drag_call_in]; tauto.
Qed.
Lemma move_calls_in s P n k j : (k, j) ∈ move_calls s P n -> k = n /\ j ∈ ["onmouseenter"; "onmousemove"; "ondragenter"; "ondragover"].
Proof.
  unfold move_calls. rewrite elem_of_app, elem_of_cons. intros [H|[[= -> ->]|[-> ->]%drag_call_in]]; [|split; [done|notin]..].
  destruct (decide _); [by apply elem_of_nil in H|]. rewrite elem_of_cons in H. destruct H as [[= -> ->]|[-> ->]%drag_call_in]; (split; [done|notin]).
Qed.
Lemma press_calls_in t b f n k j : (k, j) ∈ press_calls t b f n -> (k = n /\ j ∈ ["onmousedown"; "onfocus"; "ondragstart"]) \/ (f = Some k /\ k <> n /\ j = "onblur").
Proof.
  unfold press_calls. rewrite elem_of_app, elem_of_cons. intros [H|[[= -> ->]|H]].
  - destruct (has_input t n); [|by apply elem_of_nil in H]. destruct (decide _) as [|Hne]; [by apply elem_of_nil in H|]. rewrite elem_of_app in H. destruct H as [H|[= -> ->]%elem_of_list_singleton].
    + destruct f as [g|]; [|by apply elem_of_nil in H]. apply elem_of_list_singleton in H as [= -> ->]. right. split; [done|]. split; [congruence|done].
    + left. split; [done|notin].
  - left. split; [done|notin].
  - destruct (is_left b && can_drag t n); [|by apply elem_of_nil in H]. apply elem_of_list_singleton in H as [= -> ->]. left. split; [done|notin].
Qed.
Lemma down_calls_in t b : forall l f k j, (k, j) ∈ down_calls t b f l -> (k ∈ l /\ j ∈ ["onmousedown"; "onfocus"; "ondragstart"]) \/ j = "onblur".
Proof.
  induction l as [|n l IH]; intros f k j H; cbn in H; [by apply elem_of_nil in H|]. rewrite elem_of_app in H. destruct H as [H|H].
  - apply press_calls_in in H as [[-> ?]|(? & ? & ->)]; [left; split; [left|done]|by right].
  - apply IH in H as [[? ?]|?]; [left; split; [by right|done]|by right].
Qed.
Lemma release_calls_in t b d n k j : (k, j) ∈ release_calls t b d n ->
  (k = n /\ j = "onmouseup") \/ (k = n /\ j = "ondrop" /\ has_drop t n = true /\ d <> None) \/ (d = Some k /\ j = "ondragend") \/
  (k = n /\ j = "onclick" /\ b = MBLeft /\ is_active t n = true /\ d = None) \/ (k = n /\ j = "oncontextmenu" /\ b = MBRight /\ d = None).
Proof.
  unfold release_calls. rewrite elem_of_cons. intros [[= -> ->]|H]; [tauto|]. destruct d as [s|].
  - destruct (has_drop t n) eqn:Ed; [|by apply elem_of_nil in H]. rewrite !elem_of_cons, elem_of_nil in H. destruct H as [[= -> ->]|[[= -> ->]|[]]]; [right; left|right; right; left]; done.
  - rewrite elem_of_app in H. destruct H as [H|H].
    + destruct b; cbn in H; [|by apply elem_of_nil in H]. destruct (is_active t n) eqn:Ea; [|by apply elem_of_nil in H]. apply elem_of_list_singleton in H as [= -> ->]. tauto.
    + destruct b; cbn in H; [by apply elem_of_nil in H|]. apply elem_of_list_singleton in H as [= -> ->]. tauto.
Qed.
Lemma up_calls_in t b : forall l d k j, (k, j) ∈ up_calls t b d l ->
  (k ∈ l /\ j = "onmouseup") \/ (k ∈ l /\ j = "ondrop" /\ has_drop t k = true /\ d <> None) \/ (d = Some k /\ j = "ondragend") \/
  (k ∈ l /\ j = "onclick" /\ b = MBLeft /\ is_active t k = true) \/ (k ∈ l /\ j = "oncontextmenu" /\ b = MBRight).
Proof.
  induction l as [|n l IH]; intros d k j H; cbn [up_calls] in H; [by apply elem_of_nil in H|]. rewrite elem_of_app in H. rewrite elem_of_cons. destruct H as [H|H].
  - apply release_calls_in in H as [(-> & ?)|[(-> & ?)|[?|[(-> & ? & ? & ? & ?)|(-> & ? & ? & ?)]]]]; tauto.
  - apply IH in H as [(? & ?)|[(? & ? & ? & Hd)|[(Hd & ?)|[(? & ?)|(? & ?)]]]]; [tauto| | |tauto|tauto].
    + right; left. repeat (split; [tauto|]). unfold release_drag in Hd. by destruct (has_drop t n).
    + right; right; left. split; [|done]. unfold release_drag in Hd. by destruct (has_drop t n).
Qed.

Lemma step_handlers X sp n h : step_ok X sp -> (n, h) ∈ calls sp -> h ∈ handlers_of (sp_event sp).
Proof.
  intros Hok. pose proof (step_does _ _ Hok) as H. unfold step_session in H. destruct (sp_event sp) as [|p|b|b|w|k|k|c]; cbn [handlers_of].
  - destruct H as (_ & _ & ->). by intros ?%elem_of_nil.
  - destruct H as (_ & _ & ->). rewrite elem_of_app. intros [(x & _ & Hx)%flat_map_in|(x & _ & Hx)%flat_map_in].
    + apply leave_calls_in in Hx as (_ & _ & [-> | ->]); notin.
    + apply move_calls_in in Hx as (_ & Hx). rewrite !elem_of_cons, elem_of_nil in *. tauto.
  - destruct H as (_ & ->). rewrite elem_of_app. intros [Hx|Hx].
    + unfold drop_calls in Hx. destruct (ev_focus _); [|by apply elem_of_nil in Hx]. destruct (decide _); [by apply elem_of_nil in Hx|]. apply elem_of_list_singleton in Hx as [= -> ->]. notin.
    + apply down_calls_in in Hx as [[_ Hx]|Hx]; rewrite !elem_of_cons, elem_of_nil in *; tauto.
  - destruct H as (_ & ->). intros Hx%up_calls_in. rewrite !elem_of_cons, elem_of_nil. tauto.
  - destruct H as (_ & _ & ->). by intros ?%elem_of_nil.
  - destruct H as (_ & _ & ->). destruct (ev_focus _); [|by intros ?%elem_of_nil]. intros [= -> ->]%elem_of_list_singleton. notin.
  - destruct H as (_ & _ & ->). destruct (ev_focus _); [|by intros ?%elem_of_nil]. intros [= -> ->]%elem_of_list_singleton. notin.
  - destruct H as (_ & _ & ->). destruct (ev_focus _); [|by intros ?%elem_of_nil]. intros [= -> ->]%elem_of_list_singleton. notin.
Qed.
Lemma key_step X sp h field value : step_ok X sp -> key_event (sp_event sp) h field value ->
  tree_of (sp_after sp) = tree_of (sp_before sp) /\
  (forall n, focused (tree_of (sp_before sp)) n -> exists d, sent sp = [d] /\ call d = (n, h) /\ pointer (di_event d) field = Some (JStr value)) /\
  ((forall n, ~ focused (tree_of (sp_before sp)) n) -> sent sp = []).
Proof.
  intros Hok Hk. pose proof (sent_log _ _ Hok) as Hsl. destruct Hok as (Hi & Hi' & _ & depth & H). pose proof (fun n => focus_in _ n Hi) as Hf.
  destruct sp as [m [s t] ev [s' t']]. cbn [sp_before sp_after sp_event sp_model tree_of fst snd] in *.
  assert (Hon : exists event, on_key (x_fmt_f64 X) m (x_transformers X) h event (s, t) = Ok (s', t') /\ forall e, pointer (event e) field = Some (JStr value)).
  { destruct Hk as [(-> & -> & ->)|[(-> & -> & ->)|(-> & -> & ->)]]; cbn [handle_event] in H; eexists; split; try exact H; intros; reflexivity. }
  destruct Hon as (event & Hon & Hp). clear H Hk. unfold on_key in Hon. destruct (ev_focus s) as [n|] eqn:Ef.
  - apply bindR_Ok in Hon as (e & He & H). apply bindR_Ok in H as (s1 & H1 & H). injection H as -> <-. apply emit_says in H1 as (Hl & _).
    split; [done|]. rewrite Hl in Hsl. apply app_inv_head in Hsl. rewrite <- Hsl. split.
    + intros k Hk. apply Hf in Hk. injection Hk as <-. eexists. split; [done|]. split; [done|]. apply Hp.
    + intros Hno. exfalso. by apply (Hno n), Hf.
  - injection Hon as <- <-. split; [done|]. split; [intros k Hk; apply Hf in Hk; done|]. intros _.
    rewrite <- (app_nil_r (ev_log s)) in Hsl at 1. by apply app_inv_head in Hsl.
Qed.
