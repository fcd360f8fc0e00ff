(** * Clicks, drags, focus, capture, pointer, messages. *)
From Coq Require Import ZArith Lia.
From stdpp Require Import gmap.
From RecordUpdate Require Import RecordUpdate.
From Verif Require Import Str F32 Res ResFacts Json PropKey Html Css Element Tree ViewModel Render Update Matching
  Cascade Initial Animation Apply Styling Events View SpecReact SpecLive SpecView SpecEvents
  FrameFacts LiveFacts LiveUpdate LiveView EventFacts EventPage EventSteps EventFrame EventSay EventHistory EventProps.

Ltac absurd_in H := exfalso; match type of H with ?P => cut (~ P); [intros Habs; exact (Habs H)|notin] end.

(** ** C22 *)
Lemma is_active_ok t n : is_active t n = true <-> active t n.
Proof.
  unfold is_active, active, flag. destruct (get_ctx t n) as [e|]; split; try done.
  - intros H. by exists e.
  - by intros (e' & [= <-] & H).
  - by intros (? & ? & _).
Qed.
Lemma has_drop_ok t n : has_drop t n = true <-> listens t n "ondrop".
Proof.
  unfold has_drop, listens. destruct (get_ctx t n) as [e|]; split; try done.
  - intros H%bool_decide_eq_true. by exists e.
  - intros (e' & [= <-] & H). by apply bool_decide_eq_true.
  - by intros (? & ? & _).
Qed.
Lemma has_input_ok t n : has_input t n = true <-> listens t n "oninput".
Proof.
  unfold has_input, listens. destruct (get_ctx t n) as [e|]; split; try done.
  - intros H%bool_decide_eq_true. by exists e.
  - intros (e' & [= <-] & H). by apply bool_decide_eq_true.
  - by intros (? & ? & _).
Qed.
Lemma can_drag_ok t n : can_drag t n = true <-> is_draggable t n.
Proof.
  unfold can_drag, is_draggable, draggable. destruct (get_ctx t n) as [e|]; [|split; [done|by intros (? & ? & _)]].
  split.
  - intros H. exists e. split; [done|]. destruct (e_attrs e !! "draggable") as [s|] eqn:E; [|done]. apply String.eqb_eq in H. by subst.
  - intros (e' & [= <-] & H). by rewrite H.
Qed.

Lemma drag_log st d : inv st -> drag_now (ev_log (fst st)) = Some (drag_of d) -> ev_drag (fst st) = d.
Proof.
  intros H H2. destruct (iv_drag _ H) as (_ & H1). rewrite H1 in H2. injection H2. unfold drag_of. destruct (ev_drag (fst st)), d; congruence.
Qed.

Lemma click_only X sp n : step_ok X sp -> (n, "onclick") ∈ calls sp ->
  sp_event sp = IMouseButtonUp MBLeft /\ hovered (tree_of (sp_before sp)) n /\ active (tree_of (sp_before sp)) n.
Proof.
  intros Hok Hin. pose proof (step_handlers _ _ _ _ Hok Hin) as Hh. pose proof (step_does _ _ Hok) as Hd. unfold step_session in Hd.
  destruct Hok as (Hi & _). destruct (sp_event sp) as [|p|b|b|w|k|k|c];
    try absurd_in Hh.
  destruct Hd as (_ & Hd). rewrite Hd in Hin. apply up_calls_in in Hin as [(_ & ?)|[(_ & ? & _)|[(_ & ?)|[(Hn & _ & -> & Ha)|(_ & ? & _)]]]]; try done.
  split; [done|]. rewrite elem_of_rev_ in Hn. split; [by apply hover_in|by apply is_active_ok].
Qed.
Lemma up_none t b l : up_calls t b None l = flat_map (release_calls t b None) l.
Proof. induction l as [|n l IH]; [done|]. cbn [up_calls flat_map]. rewrite <- IH. f_equal. unfold release_drag. by destruct (has_drop t n). Qed.

Lemma release_none t b l : exists ls, Forall2 (release_of b t) l ls /\ flat_map (release_calls t b None) l = List.concat ls.
Proof.
  induction l as [|n l (ls & I1 & I2)]; [exists []; by split; [constructor|]|].
  exists (release_calls t b None n :: ls). split; [|cbn [flat_map List.concat]; by rewrite I2]. constructor; [|done].
  unfold release_of, release_calls. destruct b; cbn [is_left is_right andb app]; [|done].
  destruct (is_active t n) eqn:E; [left; split; [by apply is_active_ok|done]|right; split; [|done]]. intros Hx%is_active_ok. congruence.
Qed.
Lemma click_happens X sp n : step_ok X sp -> drag_now (ev_log (fst (sp_before sp))) = Some Idle ->
  sp_event sp = IMouseButtonUp MBLeft -> hovered (tree_of (sp_before sp)) n -> active (tree_of (sp_before sp)) n ->
  (n, "onclick") ∈ calls sp.
Proof.
  intros Hok Hd Ev Hh Ha. pose proof (step_does _ _ Hok) as H. destruct Hok as (Hi & _). unfold step_session in H. rewrite Ev in H.
  apply (drag_log _ None Hi) in Hd. destruct H as (_ & H). rewrite H, Hd, up_none. apply elem_of_list_In, in_flat_map. exists n.
  split; [apply elem_of_list_In, elem_of_rev_; by apply hover_in|]. unfold release_calls. apply is_active_ok in Ha. unfold tree_of in Ha. rewrite Ha. cbn. tauto.
Qed.
Lemma click_trace X fuel doc css hist v steps l d l' : session_of X fuel doc css hist v steps -> trace steps = l ++ d :: l' ->
  di_handler d = "onclick" -> drag_now l = Some Idle.
Proof.
  intros H Ht Hd. assert (Ha : drag_now (trace steps) <> None).
  { destruct (drag_trace _ _ _ _ _ _ _ H) as [E|(s & E)]; unfold no_drag, dragging in E; by rewrite E. }
  rewrite Ht in Ha. unfold drag_now in *. rewrite accept_app in Ha. destruct (accept drag_rule (Some Idle) l) as [g|] eqn:El.
  2: { exfalso. apply Ha. clear. induction (d :: l') as [|x xs IH]; [done|]. exact IH. }
  destruct g as [|s|s]; [done| |].
  - exfalso. apply Ha. cbn. rewrite Hd. cbn. unfold mbind, option_bind. clear. induction l'; done.
  - exfalso. apply Ha. cbn. rewrite decide_False; [|unfold call; rewrite Hd; congruence]. clear. induction l'; done.
Qed.

(** ** C23 *)
Lemma drop_fold t l : forall d, foldl (release_drag t) (Some d) l = None <-> exists n, n ∈ l /\ listens t n "ondrop".
Proof.
  assert (Hnone : forall l, foldl (release_drag t) None l = None). { induction l0 as [|n l0 IH]; [done|]. cbn. unfold release_drag at 2. by destruct (has_drop t n). }
  induction l as [|n l IH]; intros d; cbn [foldl].
  - split; [done|]. by intros (? & ?%elem_of_nil & _).
  - unfold release_drag at 2. destruct (has_drop t n) eqn:E.
    + rewrite Hnone. split; [|done]. intros _. exists n. split; [left|]. by apply has_drop_ok.
    + rewrite IH. split; intros (k & Hk & Hl); [exists k; split; [by right|done]|]. apply elem_of_cons in Hk as [->|Hk]; [|by exists k]. apply has_drop_ok in Hl. congruence.
Qed.
Lemma drop_fold_some t l : forall d, (forall n, n ∈ l -> ~ listens t n "ondrop") -> foldl (release_drag t) (Some d) l = Some d.
Proof.
  induction l as [|n l IH]; intros d H; [done|]. cbn [foldl]. unfold release_drag at 2. destruct (has_drop t n) eqn:E.
  - exfalso. apply (H n); [left|]. by apply has_drop_ok.
  - apply IH. intros k Hk. apply H. by right.
Qed.
Lemma trace_snoc X fuel doc css hist v l1 sp l2 : session_of X fuel doc css hist v (l1 ++ sp :: l2) ->
  ev_log (fst (sp_after sp)) = trace (l1 ++ [sp]) /\ ev_log (fst (sp_before sp)) = trace l1.
Proof.
  intros H. destruct (session_at _ _ _ _ _ _ _ _ _ H) as (Ho & Hl & _). split; [|done]. rewrite (sent_log _ _ Ho), Hl. unfold trace. rewrite flat_map_app. cbn. by rewrite app_nil_r.
Qed.
Lemma release_ends X sp source : step_ok X sp -> is_up sp -> drag_now (ev_log (fst (sp_before sp))) = Some (Dragging source) ->
  ((exists n, hovered (tree_of (sp_before sp)) n /\ listens (tree_of (sp_before sp)) n "ondrop") -> drag_now (ev_log (fst (sp_after sp))) = Some Idle) /\
  (~ (exists n, hovered (tree_of (sp_before sp)) n /\ listens (tree_of (sp_before sp)) n "ondrop") -> drag_now (ev_log (fst (sp_after sp))) = Some (Dragging source)).
Proof.
  intros Hok (b & Ev) Hd. pose proof (step_does _ _ Hok) as H. destruct Hok as (Hi & Hi' & _). unfold step_session in H. rewrite Ev in H.
  apply (drag_log _ (Some source) Hi) in Hd. destruct H as (H & _). injection H as _ _ H _. rewrite Hd in H.
  destruct (iv_drag _ Hi') as (_ & E). split; intros Hx.
  - assert (Hn : ev_drag (fst (sp_after sp)) = None).
    { rewrite H. apply drop_fold. destruct Hx as (n & H1 & H2). exists n. split; [|done]. rewrite elem_of_rev_. by apply (hover_in _ _ Hi). }
    rewrite Hn in E. exact E.
  - assert (Hn : ev_drag (fst (sp_after sp)) = Some source).
    { rewrite H. apply drop_fold_some. intros n Hn Hl. apply Hx. exists n. split; [|done]. rewrite elem_of_rev_ in Hn. by apply (hover_in _ _ Hi). }
    rewrite Hn in E. exact E.
Qed.

(** drops and drag ends only at releases over a drop target, during a drag *)
Lemma drop_only X sp n : step_ok X sp -> (n, "ondrop") ∈ calls sp ->
  is_up sp /\ hovered (tree_of (sp_before sp)) n /\ listens (tree_of (sp_before sp)) n "ondrop" /\ exists source, drag_now (ev_log (fst (sp_before sp))) = Some (Dragging source).
Proof.
  intros Hok Hin. pose proof (step_handlers _ _ _ _ Hok Hin) as Hh. pose proof (step_does _ _ Hok) as Hd. unfold step_session in Hd.
  destruct Hok as (Hi & _). unfold is_up. destruct (sp_event sp) as [|p|b|b|w|k|k|c]; try absurd_in Hh.
  destruct Hd as (_ & Hd). rewrite Hd in Hin. apply up_calls_in in Hin as [(_ & ?)|[(Hn & _ & Hl & Hs)|[(_ & ?)|[(_ & ? & _)|(_ & ? & _)]]]]; try done.
  split; [by eexists|]. rewrite elem_of_rev_ in Hn. split; [by apply hover_in|]. split; [by apply has_drop_ok|].
  destruct (iv_drag _ Hi) as (_ & E). destruct (ev_drag (fst (sp_before sp))) as [s|]; [by exists s|done].
Qed.
Lemma dragstart_only X sp n : step_ok X sp -> (n, "ondragstart") ∈ calls sp ->
  sp_event sp = IMouseButtonDown MBLeft /\ hovered (tree_of (sp_before sp)) n /\ is_draggable (tree_of (sp_before sp)) n.
Proof.
  intros Hok Hin. pose proof (step_handlers _ _ _ _ Hok Hin) as Hh. pose proof (step_does _ _ Hok) as Hd. unfold step_session in Hd.
  destruct Hok as (Hi & _). destruct (sp_event sp) as [|p|b|b|w|k|k|c]; try absurd_in Hh.
  destruct Hd as (_ & Hd). rewrite Hd in Hin. apply elem_of_app in Hin as [Hin|Hin].
  - unfold drop_calls in Hin. destruct (ev_focus _); [|by apply elem_of_nil in Hin]. destruct (decide _); [by apply elem_of_nil in Hin|]. apply elem_of_list_singleton in Hin; congruence.
  - pose proof (fun n => hover_in _ n Hi) as Hu. assert (Hx : forall l f, (n, "ondragstart") ∈ down_calls (snd (sp_before sp)) b f l -> n ∈ l /\ b = MBLeft /\ is_draggable (snd (sp_before sp)) n).
    { clear. induction l as [|k l IH]; intros f H; cbn [down_calls] in H; [by apply elem_of_nil in H|]. apply elem_of_app in H as [H|H].
      - unfold press_calls in H. apply elem_of_app in H as [H|H].
        + destruct (has_input _ k); [|by apply elem_of_nil in H]. destruct (decide _); [by apply elem_of_nil in H|]. apply elem_of_app in H as [H|H]; [|apply elem_of_list_singleton in H; congruence].
          destruct f; [apply elem_of_list_singleton in H; congruence|by apply elem_of_nil in H].
        + apply elem_of_cons in H as [?|H]; [congruence|]. destruct (is_left b && can_drag _ k) eqn:E; [|by apply elem_of_nil in H].
          apply elem_of_list_singleton in H as [= ->]. apply andb_prop in E as [E1 E2]. split; [left|]. split; [by destruct b|]. by apply can_drag_ok.
      - apply IH in H as (? & ?). split; [by right|done]. }
    apply Hx in Hin as (Hn & -> & Hdr). split; [done|]. split; [|done]. apply Hu. by rewrite elem_of_rev_ in Hn.
Qed.

(** the innermost drop target gets the drop *)
Lemma first_det P l o1 o2 : first_of P l o1 -> first_of P l o2 -> o1 = o2.
Proof. intros H. revert o2. induction H; intros o2 H2; inversion H2; subst; try done. by apply IHfirst_of. Qed.
Lemma drop_innermost t b source target : forall l, first_of (fun n => listens t n "ondrop") l (Some target) ->
  forall n, (n, "ondrop") ∈ up_calls t b (Some source) l <-> n = target.
Proof.
  assert (Hno : forall l n, (n, "ondrop") ∉ up_calls t b None l).
  { intros l n H. apply up_calls_in in H as [(_ & ?)|[(_ & _ & _ & ?)|[(? & _)|[(_ & ? & _)|(_ & ? & _)]]]]; done. }
  induction l as [|k l IH]; intros H n; inversion H as [|? ? Hk|? ? ? Hk Hl]; subst; cbn [up_calls]; rewrite elem_of_app; unfold release_calls, release_drag.
  - apply has_drop_ok in Hk. rewrite Hk. rewrite !elem_of_cons, elem_of_nil. split.
    + intros [[?|[[= ->]|[?|[]]]]|Hx]; try congruence. by apply Hno in Hx.
    + intros ->. left. right. by left.
  - assert (Hf : has_drop t k = false). { apply not_true_iff_false. by rewrite has_drop_ok. } rewrite Hf, elem_of_list_singleton. rewrite (IH Hl). split; [intros [?|?]; congruence|by right].
Qed.

(** ** C19: where the focus goes *)
Lemma focus_fold t l f : forall o, first_of (fun n => listens t n "oninput") (rev l) o ->
  foldl (press_focus t) f l = match o with Some n => Some n | None => f end.
Proof.
  induction l as [|n l IH] using rev_ind; intros o H.
  - cbn in H. inversion H; subst. done.
  - rewrite rev_app_distr in H. cbn in H. rewrite foldl_app. cbn [foldl]. unfold press_focus at 1.
    inversion H as [|? ? Hk|? ? ? Hk Hl]; subst.
    + apply has_input_ok in Hk. by rewrite Hk.
    + assert (Hf : has_input t n = false). { apply not_true_iff_false. by rewrite has_input_ok. } rewrite Hf. by apply IH.
Qed.
Lemma first_sbs t t' h l o : same_but_state t t' -> first_of (fun n => listens t n h) l o -> first_of (fun n => listens t' n h) l o.
Proof.
  intros Hs. assert (Hl : forall n, listens t n h <-> listens t' n h).
  { intros n. unfold listens. split; intros (e & He & Hx).
    - destruct (sbs_ctx _ _ _ _ Hs He) as (e' & He' & Hn). exists e'. split; [done|]. change (is_Some (e_listeners (no_state e') !! h)). by rewrite Hn.
    - destruct (sbs_ctx _ _ _ _ (sbs_sym _ _ Hs) He) as (e' & He' & Hn). exists e'. split; [done|]. change (is_Some (e_listeners (no_state e') !! h)). by rewrite Hn. }
  induction 1; [constructor|constructor; by apply Hl|constructor; [by rewrite <- Hl|done]].
Qed.
Lemma focus_moves X fuel doc css hist v steps i x t pre sp post p U b o : session_of X fuel doc css hist v steps ->
  input_steps X fuel v i x t (pre ++ sp :: post) -> list.last (moves (map sp_event pre)) = Some p -> elements_under t (v_body v) p U ->
  sp_event sp = IMouseButtonDown b -> first_of (fun n => listens t n "oninput") U o ->
  forall n, focused (tree_of (sp_after sp)) n <->
    match o with Some k => n = k | None => focused (tree_of (sp_before sp)) n /\ n ∈ U end.
Proof.
  intros Hs Hin Hp HU Ev Ho n. destruct (update_at _ _ _ _ _ _ _ _ _ _ _ _ _ Hs Hin) as (Hok & Hsb & _ & Hu). specialize (Hu _ Hp).
  destruct (session_ok _ _ _ _ _ _ _ Hs) as (_ & _ & _ & Hb & _). rewrite Hb in HU. pose proof (elements_det _ _ _ _ _ HU Hu) as EU. clear HU Hu.
  pose proof (step_does _ _ Hok) as H. destruct Hok as (Hi & Hi' & _). unfold step_session in H. rewrite Ev in H. destruct H as (H & _). injection H as _ _ _ H.
  rewrite (focus_in _ n Hi'), H.
  assert (Ho2 : first_of (fun n => listens (snd (sp_before sp)) n "oninput") (rev (rev (ev_under (fst (sp_before sp))))) o).
  { rewrite rev_involutive, <- EU. by eapply first_sbs. }
  rewrite (focus_fold _ _ _ _ Ho2). destruct o as [k|]; [split; congruence|]. rewrite (focus_in _ n Hi). unfold kept_focus. rewrite <- EU.
  destruct (ev_focus (fst (sp_before sp))) as [f|]; [|split; [done|by intros [? _]]]. destruct (decide (f ∈ U)); split; try done.
  - intros [= ->]. done.
  - by intros [? _].
  - intros [[= ->] ?]. done.
Qed.
Lemma focus_stays X sp n : step_ok X sp -> ~ is_down sp -> focused (tree_of (sp_after sp)) n <-> focused (tree_of (sp_before sp)) n.
Proof.
  intros Hok Hn. pose proof (step_does _ _ Hok) as H. destruct Hok as (Hi & Hi' & _). unfold step_session in H.
  rewrite (focus_in _ n Hi'), (focus_in _ n Hi). destruct (sp_event sp) eqn:Ev; try (destruct H as (H & _); injection H as _ _ _ H; by rewrite H).
  - destruct H as (_ & H & _). injection H as _ _ H. by rewrite H.
  - exfalso. apply Hn. by exists b.
Qed.
