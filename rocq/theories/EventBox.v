(** * Boxes and capture, step by step. *)
From Coq Require Import ZArith Reals Lia Lra.
From stdpp Require Import gmap.
From RecordUpdate Require Import RecordUpdate.
From Verif Require Import Str F32 FloatFacts Res ResFacts Json PropKey Html Css Element Tree ViewModel Render Update Matching
  Cascade Initial Animation Apply Styling Events View SpecReact SpecLive SpecView SpecEvents
  FrameFacts LiveFacts LiveUpdate LiveView EventFacts EventPage EventSteps EventFrame EventSay EventHistory EventProps EventMore EventOut.
From Flocq Require Import Core.Core IEEE754.BinarySingleNaN.

Lemma span_real x a w : is_finite x = true -> is_finite a = true -> is_finite w = true ->
  (in_span x a w -> (B2R a <= B2R x < B2R a + B2R w)%R) /\
  ((B2R a <= B2R x < B2R a + B2R w)%R -> rnd (B2R x - B2R a) = (B2R x - B2R a)%R -> in_span x a w).
Proof.
  intros Hx Ha Hw. split; [intros [H1 H2]; by apply span_inside|]. intros H He. by apply span_exact.
Qed.
Lemma span_int (x a w : Z) : (Z.abs x <= 2 ^ 23)%Z -> (Z.abs a <= 2 ^ 23)%Z -> (Z.abs w <= 2 ^ 23)%Z ->
  in_span (f32_of_Z x) (f32_of_Z a) (f32_of_Z w) <-> (a <= x < a + w)%Z.
Proof.
  intros Hx Ha Hw. destruct (f32_int x) as (Fx & Rx); [lia|]. destruct (f32_int a) as (Fa & Ra); [lia|]. destruct (f32_int w) as (Fw & Rw); [lia|].
  destruct (span_real _ _ _ Fx Fa Fw) as (H1 & H2). rewrite Rx, Ra, Rw in H1, H2. rewrite <- plus_IZR in H1, H2. split.
  - intros H. destruct (H1 H) as [E1 E2]. split; [by apply le_IZR|by apply lt_IZR].
  - intros [E1 E2]. apply H2; [split; [by apply IZR_le|by apply IZR_lt]|]. rewrite <- minus_IZR. apply int_format. lia.
Qed.
Lemma edge_int (x a w w2 : Z) : (Z.abs x <= 2 ^ 23)%Z -> (Z.abs a <= 2 ^ 23)%Z -> (Z.abs w <= 2 ^ 23)%Z -> (Z.abs w2 <= 2 ^ 23)%Z -> (Z.abs (a + w) <= 2 ^ 23)%Z ->
  (0 <= w)%Z -> (0 <= w2)%Z -> (a <= x < a + w + w2)%Z ->
  (in_span (f32_of_Z x) (f32_of_Z a) (f32_of_Z w) <-> ~ in_span (f32_of_Z x) (f32_of_Z (a + w)) (f32_of_Z w2)).
Proof. intros. rewrite !span_int by done. lia. Qed.

Lemma quiet_step X sp n h : step_ok X sp ->
  (forall k, ~ hovered (tree_of (sp_after sp)) k /\ ~ focused (tree_of (sp_after sp)) k) -> drag_now (ev_log (fst (sp_after sp))) = Some Idle ->
  (n, h) ∈ calls sp -> h = "onmouseleave" \/ h = "ondragleave" \/ h = "onblur".
Proof.
  intros Hok Hno Hd Hin. pose proof (step_does _ _ Hok) as H. destruct Hok as (Hi & Hi' & _). unfold step_session in H.
  assert (Hu : ev_under (fst (sp_after sp)) = []).
  { destruct (ev_under (fst (sp_after sp))) as [|k l] eqn:E; [done|]. exfalso. destruct (Hno k) as [Hk _]. apply Hk. apply (hover_in _ k Hi'). rewrite E. by left. }
  assert (Hf : ev_focus (fst (sp_after sp)) = None).
  { destruct (ev_focus (fst (sp_after sp))) as [k|] eqn:E; [|done]. exfalso. destruct (Hno k) as [_ Hk]. apply Hk. by apply (focus_in _ k Hi'). }
  destruct (sp_event sp) as [|p|b|b|w|k|k|c].
  - destruct H as (_ & _ & E). rewrite E in Hin. by apply elem_of_nil in Hin.
  - destruct H as (_ & _ & E). rewrite E, Hu, app_nil_r in Hin. apply flat_map_in in Hin as (x & _ & Hx). apply leave_calls_in in Hx as (_ & _ & Hx). tauto.
  - destruct H as (Q & E). injection Q as Q _ _ _. rewrite <- Q, Hu in E. cbn [rev down_calls] in E. rewrite app_nil_r in E. rewrite E in Hin.
    unfold drop_calls in Hin. destruct (ev_focus _) as [f|]; [|by apply elem_of_nil in Hin]. destruct (decide _); [by apply elem_of_nil in Hin|]. apply elem_of_list_singleton in Hin as [= _ ->]. tauto.
  - destruct H as (Q & E). injection Q as Q _ _ _. rewrite <- Q, Hu in E. rewrite E in Hin. by apply elem_of_nil in Hin.
  - destruct H as (_ & _ & E). rewrite E in Hin. by apply elem_of_nil in Hin.
  - destruct H as (Q & _ & E). injection Q as _ _ _ Q. rewrite <- Q, Hf in E. rewrite E in Hin. by apply elem_of_nil in Hin.
  - destruct H as (Q & _ & E). injection Q as _ _ _ Q. rewrite <- Q, Hf in E. rewrite E in Hin. by apply elem_of_nil in Hin.
  - destruct H as (Q & _ & E). injection Q as _ _ _ Q. rewrite <- Q, Hf in E. rewrite E in Hin. by apply elem_of_nil in Hin.
Qed.

(** session forms *)
Lemma in_session X fuel doc css hist v steps sp : session_of X fuel doc css hist v steps -> sp ∈ steps -> step_ok X sp.
Proof. intros H Hsp. destruct (session_ok _ _ _ _ _ _ _ H) as (_ & Hs & _). rewrite Forall_forall in Hs. apply Hs. by apply elem_of_list_In. Qed.
Lemma session_flags X fuel doc css hist v steps g : session_of X fuel doc css hist v steps -> g state_default = false ->
  match steps with
  | [] => forall n, ~ flag g (v_tree v) n
  | sp :: _ => (forall n, ~ flag g (tree_of (sp_before sp)) n) /\
      (forall i x y, steps !! i = Some x -> steps !! S i = Some y -> forall n, flag g (tree_of (sp_before y)) n <-> flag g (tree_of (sp_after x)) n) /\
      (forall y, list.last steps = Some y -> forall n, flag g (v_tree v) n <-> flag g (tree_of (sp_after y)) n)
  end.
Proof.
  intros (v0 & H0 & Hh) Hg. assert (Hfl : forall n, ~ flag g (v_tree v0) n).
  { intros n Hn. apply flag_st in Hn as (x & Hx & Hgx). apply (loaded_states _ _ _ _ _ _ _ H0) in Hx as ->. congruence. }
  destruct (happened_ok _ _ _ _ _ _ Hh (load_ready _ _ _ _ _ H0)) as (_ & _ & Hc & _). apply (chain_flags g) in Hc. destruct steps as [|sp steps].
  - intros n Hn. apply Hc in Hn. by apply (Hfl n).
  - destruct Hc as (C1 & C2 & C3). split; [intros n Hn; apply C1 in Hn; by apply (Hfl n)|]. split; [exact C2|exact C3].
Qed.

Lemma hover_steps X fuel doc css hist v steps sp : session_of X fuel doc css hist v steps -> sp ∈ steps -> forall n,
  match sp_event sp with
  | IMouseMove p => hovered (tree_of (sp_after sp)) n <-> under_mouse (tree_of (sp_before sp)) (v_body v) p n
  | _ => hovered (tree_of (sp_after sp)) n <-> hovered (tree_of (sp_before sp)) n
  end.
Proof.
  intros H Hsp. destruct (session_ok _ _ _ _ _ _ _ H) as (_ & _ & _ & Hb & _). rewrite Hb. apply (hover_step X). by eapply in_session.
Qed.
Lemma active_steps X fuel doc css hist v steps sp : session_of X fuel doc css hist v steps -> sp ∈ steps -> forall n,
  match sp_event sp with
  | IMouseButtonDown _ => active (tree_of (sp_after sp)) n <-> active (tree_of (sp_before sp)) n \/ hovered (tree_of (sp_before sp)) n
  | IMouseButtonUp _ => ~ active (tree_of (sp_after sp)) n
  | _ => active (tree_of (sp_after sp)) n <-> active (tree_of (sp_before sp)) n
  end.
Proof. intros H Hsp. apply (active_step X). by eapply in_session. Qed.
Lemma key_steps X fuel doc css hist v steps sp h field value : session_of X fuel doc css hist v steps -> sp ∈ steps -> key_event (sp_event sp) h field value ->
  tree_of (sp_after sp) = tree_of (sp_before sp) /\
  (forall n, focused (tree_of (sp_before sp)) n -> exists d, sent sp = [d] /\ call d = (n, h) /\ pointer (di_event d) field = Some (JStr value)) /\
  ((forall n, ~ focused (tree_of (sp_before sp)) n) -> sent sp = []).
Proof. intros H Hsp. apply (key_step X). by eapply in_session. Qed.
Lemma handlers_steps X fuel doc css hist v steps sp n h : session_of X fuel doc css hist v steps -> sp ∈ steps -> (n, h) ∈ calls sp -> h ∈ handlers_of (sp_event sp).
Proof. intros H Hsp. apply (step_handlers X). by eapply in_session. Qed.
Lemma focus_stays_steps X fuel doc css hist v steps sp n : session_of X fuel doc css hist v steps -> sp ∈ steps -> ~ is_down sp ->
  focused (tree_of (sp_after sp)) n <-> focused (tree_of (sp_before sp)) n.
Proof. intros H Hsp. apply (focus_stays X). by eapply in_session. Qed.
Lemma at_session X fuel doc css hist v l1 sp l2 : session_of X fuel doc css hist v (l1 ++ sp :: l2) -> step_ok X sp.
Proof. intros H. eapply in_session; [exact H|]. apply elem_of_app. right. by left. Qed.
Lemma click_means X fuel doc css hist v l1 sp l2 n : session_of X fuel doc css hist v (l1 ++ sp :: l2) -> (n, "onclick") ∈ calls sp ->
  sp_event sp = IMouseButtonUp MBLeft /\ hovered (tree_of (sp_before sp)) n /\ pressed_since l1 n.
Proof.
  intros H Hin. destruct (click_only X sp n (at_session _ _ _ _ _ _ _ _ _ H) Hin) as (H1 & H2 & H3). split; [done|]. split; [done|].
  by rewrite <- (active_at _ _ _ _ _ _ _ _ _ n H).
Qed.
Lemma click_given X fuel doc css hist v l1 sp l2 n : session_of X fuel doc css hist v (l1 ++ sp :: l2) ->
  sp_event sp = IMouseButtonUp MBLeft -> hovered (tree_of (sp_before sp)) n -> pressed_since l1 n -> no_drag l1 -> (n, "onclick") ∈ calls sp.
Proof.
  intros H Ev Hh Hp Hd. apply (click_happens X sp n (at_session _ _ _ _ _ _ _ _ _ H)); [|done|done|by rewrite (active_at _ _ _ _ _ _ _ _ _ n H)].
  destruct (trace_snoc _ _ _ _ _ _ _ _ _ H) as (_ & E). by rewrite E.
Qed.
Lemma drag_release X fuel doc css hist v l1 sp l2 source : session_of X fuel doc css hist v (l1 ++ sp :: l2) -> is_up sp -> dragging l1 source ->
  ((exists n, hovered (tree_of (sp_before sp)) n /\ listens (tree_of (sp_before sp)) n "ondrop") -> no_drag (l1 ++ [sp])) /\
  (~ (exists n, hovered (tree_of (sp_before sp)) n /\ listens (tree_of (sp_before sp)) n "ondrop") -> dragging (l1 ++ [sp]) source).
Proof.
  intros H Hup Hd. unfold dragging, no_drag in *. destruct (trace_snoc _ _ _ _ _ _ _ _ _ H) as (E1 & E2). rewrite <- E1. rewrite <- E2 in Hd.
  exact (release_ends X sp source (at_session _ _ _ _ _ _ _ _ _ H) Hup Hd).
Qed.
Lemma drop_means X fuel doc css hist v l1 sp l2 n : session_of X fuel doc css hist v (l1 ++ sp :: l2) -> (n, "ondrop") ∈ calls sp ->
  is_up sp /\ hovered (tree_of (sp_before sp)) n /\ listens (tree_of (sp_before sp)) n "ondrop" /\ exists source, dragging l1 source.
Proof.
  intros H Hin. destruct (drop_only X sp n (at_session _ _ _ _ _ _ _ _ _ H) Hin) as (H1 & H2 & H3 & s & H4). split; [done|]. split; [done|]. split; [done|].
  exists s. unfold dragging. destruct (trace_snoc _ _ _ _ _ _ _ _ _ H) as (_ & E). by rewrite <- E.
Qed.
Lemma dragstart_means X fuel doc css hist v steps sp n : session_of X fuel doc css hist v steps -> sp ∈ steps -> (n, "ondragstart") ∈ calls sp ->
  sp_event sp = IMouseButtonDown MBLeft /\ hovered (tree_of (sp_before sp)) n /\ is_draggable (tree_of (sp_before sp)) n.
Proof. intros H Hsp. apply (dragstart_only X). by eapply in_session. Qed.
Lemma quiet_steps X fuel doc css hist v l1 sp l2 n h : session_of X fuel doc css hist v (l1 ++ sp :: l2) ->
  (forall k, ~ hovered (tree_of (sp_after sp)) k /\ ~ focused (tree_of (sp_after sp)) k) -> no_drag (l1 ++ [sp]) ->
  (n, h) ∈ calls sp -> h = "onmouseleave" \/ h = "ondragleave" \/ h = "onblur".
Proof.
  intros H Hn Hd. apply (quiet_step X sp n h (at_session _ _ _ _ _ _ _ _ _ H)); [done|]. destruct (trace_snoc _ _ _ _ _ _ _ _ _ H) as (E & _). by rewrite E.
Qed.
Lemma messages_are X fuel doc css hist v steps i x v1 o t now : session_of X fuel doc css hist v steps -> update X fuel v i x = Ok (v1, o) ->
  input_steps X fuel v i x t now ->
  session_of X fuel doc css (hist ++ [(i, x)]) v1 (steps ++ now) /\
  answers (x_fmt_f64 X) (v_model v1) (x_transformers X) t (trace now) (messages o).
Proof. intros H H1 H2. by destruct (update_all _ _ _ _ _ _ _ _ _ _ _ _ _ H H1 H2) as (A & _ & B & _). Qed.
Lemma reports_are X fuel doc css hist v steps i x v1 o t now : session_of X fuel doc css hist v steps -> update X fuel v i x = Ok (v1, o) ->
  input_steps X fuel v i x t now -> Forall (reports t (mouse_history (hist ++ [(i, x)]))) (trace now).
Proof. intros H H1 H2. by destruct (update_all _ _ _ _ _ _ _ _ _ _ _ _ _ H H1 H2) as (_ & _ & _ & A & _). Qed.
