(** * Input handling over whole histories. *)
From Coq Require Import ZArith Lia.
From stdpp Require Import gmap.
From RecordUpdate Require Import RecordUpdate.
From Verif Require Import Str F32 Res ResFacts Json PropKey Html Css Element Tree ViewModel Render Update Matching
  Cascade Initial Animation Apply Styling Events View SpecReact SpecLive SpecView SpecEvents
  FrameFacts LiveFacts LiveUpdate LiveView EventFacts EventPage EventSteps EventFrame EventSay.

Record ready (X : Externals) (v : View) : Prop := {
  rd_sound : sound v;
  rd_inv : inv (v_session v, v_tree v);
  rd_body : v_body v = 1;
  rd_tr : v_transformers v = x_transformers X;
  rd_next : 1 < t_next (v_tree v)
}.

Lemma event_inv fmt depth m tr body st ev st' : inv st -> handle_event fmt depth m tr body st ev = Ok st' -> inv st'.
Proof.
  destruct st as [s t], st' as [s' t']. intros Hi. destruct ev; cbn [handle_event]; intros H.
  - by injection H as <- <-.
  - by apply on_move_effect in H as (all & _ & _ & _ & _ & ?).
  - by apply on_down_effect in H as (_ & _ & ?).
  - by apply on_up_effect in H as (_ & _ & ?).
  - by injection H as <- <-.
  - by apply on_key_effect in H as (_ & _ & _ & ?); [|done|notin].
  - by apply on_key_effect in H as (_ & _ & _ & ?); [|done|notin].
  - by apply on_key_effect in H as (_ & _ & _ & ?); [|done|notin].
Qed.

Lemma ss_inv s s' t t' : inv (s, t) -> same_states t t' -> live t' 0 ->
  (ev_under s', ev_action s', ev_drag s', ev_focus s', ev_log s') = (ev_under s, ev_action s, ev_drag s, ev_focus s, ev_log s) -> inv (s', t').
Proof.
  intros [L1 L2 L3 L4 L5] Hs Hl [= E1 E2 E3 E4 E5]. cbn [fst snd] in *. apply inv_intro; rewrite ?E1, ?E2, ?E3, ?E4, ?E5.
  - eapply HI_tree; [|exact L2]. intros n. by apply ss_flag.
  - split; [done|]. split; [eapply AI_tree; [|exact L3]; intros n; by apply ss_flag|].
    split; [eapply FI_tree; [|exact L4]; intros n; by apply ss_flag|]. eapply DI_tree; [|exact L5]. intros n. by apply ss_some.
Qed.

Lemma load_ready X fuel doc css v : from_document X fuel doc css = Ok v -> ready X v.
Proof.
  intros H. pose proof (from_document_sound _ _ _ _ _ H) as Hs. pose proof H as H'.
  apply from_document_stages in H' as (templates & body & r & root & b & t & rn & ps & _ & _ & Hm & Hre & _ & _ & _ & _ & _ & Hsh & Hbd & Ha & Hr0 & Hb1 & Htr & _ & Hse).
  split; [done| |done|done|].
  - assert (Hfl : forall g n, g state_default = false -> ~ flag g (v_tree v) n).
    { intros g n Hg Hn. apply flag_st in Hn as (x & Hx & Hgx). apply (loaded_states _ _ _ _ _ _ _ H) in Hx as ->. congruence. }
    rewrite Hse. destruct Hs as [Hl _ Hr]. rewrite Hr in Hl. apply inv_intro; cbn.
    + split; [constructor|]. split; [|done]. intros n. rewrite elem_of_nil. split; [|done]. by apply Hfl.
    + split; [done|]. split; [|split; [split; [|done]|done]].
      * intros n. rewrite elem_of_nil. split; [|done]. by apply Hfl.
      * intros n. split; [|done]. intros Hn. exfalso. by apply (Hfl st_focus n).
  - assert (Hlb : live t 0). { eapply shown_live; [exact Hsh|]. by destruct (rendered_live _ _ _ Hm Hre) as (Hl & _). }
    destruct (rendered_live _ _ _ Hm Hre) as (Hl & _ & H1).
    destruct (update_trees_ok (x_read_inline_css X) _ t (r_static_id r) 0 Hlb (default_reactions_ok _ _ Hbd)) as (t' & ids' & Hu & Hl2 & Hd).
    unfold apply_default_bindings_state in Ha. rewrite Ha in Hu. injection Hu as <- <-. destruct Hd as [Hd _]. rewrite <- Hd. destruct Hsh as [Hn _]. rewrite <- Hn.
    pose proof (live_newer _ _ Hl 0 1) as Hx. rewrite H1 in Hx. destruct Hx; [|done]. left. by left.
Qed.

(** ** One update *)
Lemma last_move_spec events : forall acc, last_move events acc = match list.last (moves events) with Some p => Some p | None => acc end.
Proof.
  induction events as [|ev events IH]; intros acc; [done|]. destruct ev; cbn [last_move moves omap list_omap]; try apply IH.
  rewrite IH. fold (moves events). change (omap _ events) with (moves events). rewrite last_cons. by destruct (list.last (moves events)).
Qed.
Lemma handled_fold fmt depth m tr body : forall evs st st', foldR (handle_event fmt depth m tr body) st evs = Ok st' ->
  exists steps, handled fmt depth m tr body st evs st' steps.
Proof.
  induction evs as [|ev evs IH]; intros st st' H; cbn [foldR] in H; [injection H as <-; eexists; constructor|].
  apply bindR_Ok in H as (st1 & H1 & H). destruct (IH _ _ H) as (steps & Hs). eexists. by econstructor.
Qed.
Lemma fold_handled fmt depth m tr body st evs st' steps : handled fmt depth m tr body st evs st' steps -> foldR (handle_event fmt depth m tr body) st evs = Ok st'.
Proof. induction 1; [done|]. cbn [foldR]. by rewrite H. Qed.

Definition start (v : View) (i : Input) : Session :=
  v_session v <| ev_mouse := mouse_after (ev_mouse (v_session v)) (in_events i) |> <| ev_output := output_new |>.

Lemma update_input X fuel v i x v1 o : update X fuel v i x = Ok (v1, o) -> exists m t ids s1 t1 now,
  prepare X fuel v i x = Ok (m, t, ids) /\
  handled (x_fmt_f64 X) (tree_depth t) m (v_transformers v) (v_body v) (start v i, t) (seen_events (ev_mouse (v_session v)) (in_events i)) (s1, t1) now /\
  v1 = v <| v_model := m |> <| v_session := s1 <| ev_output := output_new |> |> <| v_tree := t1 |> <| v_ids := ids |> /\
  messages o = messages (ev_output s1) /\
  out_pointer o = choose_pointer t1 (ev_under s1) (out_pointer (ev_output s1)) /\
  (is_input_captured o = true <-> ev_under s1 <> [] \/ ev_drag s1 <> None \/ ev_focus s1 <> None \/ ev_action s1 <> []).
Proof.
  intros H. unfold update in H. apply bindR_Ok in H as ([[m t] ids] & Hp & H). apply bindR_Ok in H as ([[s' t'] o'] & Ho & H). injection H as <- <-.
  unfold handle_output in Ho.
  assert (Hst : (match last_move (in_events i) None with Some p => (v_session v <| ev_mouse := p |>, in_events i) | None => (v_session v, IMouseMove (ev_mouse (v_session v)) :: in_events i) end)
     = (v_session v <| ev_mouse := mouse_after (ev_mouse (v_session v)) (in_events i) |>, seen_events (ev_mouse (v_session v)) (in_events i))).
  { rewrite last_move_spec. unfold mouse_after, seen_events. destruct (list.last (moves (in_events i))) as [p|] eqn:E.
    - destruct (moves (in_events i)); [done|]. done.
    - apply last_None in E. rewrite E. cbn. f_equal. by destruct (v_session v). }
  rewrite Hst in Ho. apply bindR_Ok in Ho as ([s1 t1] & H1 & Ho). injection Ho as <- <- <-.
  apply handled_fold in H1 as (now & Hn). exists m, t, ids, s1, t1, now. split; [done|]. split; [exact Hn|]. split; [done|]. split; [done|]. split; [done|].
  cbn. rewrite !orb_true_iff, !negb_true_iff, !Nat.eqb_neq.
  assert (Hlen : forall l : list nat, List.length l <> 0 <-> l <> []) by (intros []; cbn; split; intros ?; congruence || lia).
  assert (Hopt : forall d : option nat, (match d with Some _ => true | None => false end) = true <-> d <> None) by (intros []; split; congruence).
  rewrite !Hlen, !Hopt. tauto.
Qed.

(** what is known about every handled event *)
Definition step_ok (X : Externals) (sp : Step) : Prop :=
  inv (sp_before sp) /\ inv (sp_after sp) /\ same_but_state (snd (sp_before sp)) (snd (sp_after sp)) /\
  exists depth, handle_event (x_fmt_f64 X) depth (sp_model sp) (x_transformers X) 1 (sp_before sp) (sp_event sp) = Ok (sp_after sp).

Lemma sent_log X sp : step_ok X sp -> ev_log (fst (sp_after sp)) = ev_log (fst (sp_before sp)) ++ sent sp.
Proof.
  intros (Hi & _ & _ & depth & H). apply (event_heard _ _ _ (snd (sp_before sp))) in H; [|apply sbs_refl].
  destruct H as (_ & new & msgs & Hl & _). unfold sent. rewrite Hl. by rewrite drop_app_alt.
Qed.
Lemma calls_log X sp l : step_ok X sp -> map call (ev_log (fst (sp_after sp))) = map call (ev_log (fst (sp_before sp))) ++ l -> calls sp = l.
Proof. intros H Hm. unfold calls. rewrite (sent_log X sp H), map_app in Hm. by apply app_inv_head in Hm. Qed.

(** steps in a row: each starts where the last one ended, as far as flags,
    calls and the session go *)
Definition follows (a b : moment) : Prop :=
  same_states (snd a) (snd b) /\ (ev_under (fst b), ev_action (fst b), ev_drag (fst b), ev_focus (fst b), ev_log (fst b)) = (ev_under (fst a), ev_action (fst a), ev_drag (fst a), ev_focus (fst a), ev_log (fst a)).
Inductive chain : moment -> list Step -> moment -> Prop :=
| chain_nil a b : follows a b -> chain a [] b
| chain_cons a sp steps b : follows a (sp_before sp) -> chain (sp_after sp) steps b -> chain a (sp :: steps) b.
Lemma follows_refl a : follows a a. Proof. done. Qed.
Lemma follows_trans a b c : follows a b -> follows b c -> follows a c.
Proof. intros [H1 H2] [H3 H4]. split; [by eapply ss_trans|]. congruence. Qed.
Lemma chain_app a l1 b l2 c : chain a l1 b -> chain b l2 c -> chain a (l1 ++ l2) c.
Proof.
  induction 1 as [a b Hf|a sp steps b Hf _ IH]; intros H; cbn.
  - inversion H as [? ? H2|? ? ? ? H2 H3]; subst; [constructor|econstructor; [|done]]; by eapply follows_trans.
  - econstructor; [done|by apply IH].
Qed.

Lemma handled_steps X depth m st evs st' steps : handled (x_fmt_f64 X) depth m (x_transformers X) 1 st evs st' steps -> inv st ->
  inv st' /\ same_but_state (snd st) (snd st') /\ heard (x_fmt_f64 X) m (x_transformers X) (snd st) (fst st) (fst st') /\
  Forall (step_ok X) steps /\ chain st steps st' /\
  Forall (fun sp => sp_model sp = m /\ same_but_state (snd st) (snd (sp_before sp))) steps /\
  ev_log (fst st') = ev_log (fst st) ++ flat_map sent steps /\ map sp_event steps = evs.
Proof.
  induction 1 as [st|st ev st1 evs st' steps H1 _ IH]; intros Hi.
  - split; [done|]. split; [apply sbs_refl|]. split; [apply heard_refl|]. split; [constructor|]. split; [by constructor|]. split; [constructor|]. cbn. by rewrite app_nil_r.
  - pose proof (event_inv _ _ _ _ _ _ _ _ Hi H1) as Hi1. destruct (IH Hi1) as (I1 & I2 & I3 & I4 & I5 & I6 & I7 & I8).
    pose proof (handle_event_sbs _ _ _ _ _ _ _ _ H1) as Hs.
    assert (Hok : step_ok X (mkStep m st ev st1)). { split; [done|]. split; [done|]. split; [done|]. by exists depth. }
    split; [done|]. split; [by eapply sbs_trans|]. split; [|split; [by constructor|]].
    + eapply heard_trans; [eapply event_heard; [apply sbs_refl|exact H1]|].
      destruct I3 as (M & new & msgs & L & A & O & R). split; [done|]. exists new, msgs. split; [done|]. split; [|split; [done|]].
      * clear -A Hs. induction A as [|d ds msgs Hd _ IH|d ds e args msg msgs He Ha Hm _ IH]; [constructor|apply answers_silent; [|done]|].
        -- intros (e & He & Hl). apply Hd. destruct (sbs_ctx _ _ _ _ Hs He) as (e' & He' & Hn). exists e'. split; [done|].
           change (is_Some (e_listeners (no_state e') !! di_handler d)). by rewrite Hn.
        -- destruct (sbs_ctx _ _ _ _ (sbs_sym _ _ Hs) He) as (e' & He' & Hn). eapply answers_one; [exact He'| |exact Hm|done].
           change (e_listeners (no_state e') !! di_handler d = Some args). rewrite Hn. exact Ha.
      * eapply Forall_impl; [|exact R]. cbv beta. intros d (e & He & E1 & E2 & E3). destruct (sbs_ctx _ _ _ _ (sbs_sym _ _ Hs) He) as (e' & He' & Hn). exists e'.
        assert (P1 : e_position e' = e_position e). { change (e_position (no_state e') = e_position (no_state e)). by rewrite Hn. }
        assert (P2 : e_size e' = e_size e). { change (e_size (no_state e') = e_size (no_state e)). by rewrite Hn. }
        rewrite P1, P2. done.
    + split; [econstructor; [apply follows_refl|done]|]. split; [|split].
      * constructor; [split; [done|apply sbs_refl]|]. eapply Forall_impl; [|exact I6]. intros sp [? ?]. split; [done|]. by eapply sbs_trans.
      * rewrite I7. cbn. change st1 with (sp_after (mkStep m st ev st1)) at 1. rewrite (sent_log _ _ Hok), <- app_assoc. done.
      * cbn. by rewrite I8.
Qed.

(** one update, seen from the input side *)
Record input_side (X : Externals) (fuel : nat) (v : View) (i : Input) (x : json) (v1 : View) (o : Output) (m : json) (t : Tree) (now : list Step) : Prop := {
  is_ids : exists ids, prepare X fuel v i x = Ok (m, t, ids);
  is_steps : exists s1, handled (x_fmt_f64 X) (tree_depth t) m (x_transformers X) 1 (start v i, t) (seen_events (ev_mouse (v_session v)) (in_events i)) (s1, v_tree v1) now /\
    v_session v1 = s1 <| ev_output := output_new |> /\
    messages o = messages (ev_output s1) /\ out_pointer o = choose_pointer (v_tree v1) (ev_under s1) (out_pointer (ev_output s1)) /\
    (is_input_captured o = true <-> ev_under s1 <> [] \/ ev_drag s1 <> None \/ ev_focus s1 <> None \/ ev_action s1 <> []);
  is_start : inv (start v i, t);
  is_chain : chain (v_session v, v_tree v) now (v_session v1, v_tree v1);
  is_ok_ : Forall (step_ok X) now;
  is_model : v_model v1 = m;
  is_body : v_body v1 = v_body v;
  is_ready : ready X v1
}.

Lemma update_side X fuel v i x v1 o : ready X v -> update X fuel v i x = Ok (v1, o) -> exists m t now, input_side X fuel v i x v1 o m t now.
Proof.
  intros Hr H. pose proof (update_sound _ _ _ _ _ _ _ (rd_sound _ _ Hr) H) as Hs1.
  apply update_input in H as (m & t & ids & s1 & t1 & now & Hp & Hh & Hv1 & Hmsg & Hptr & Hcap). exists m, t, now.
  destruct (prepare_live _ _ _ _ _ _ _ _ (rd_sound _ _ Hr) Hp) as (Hl & Hd). pose proof (prepare_ss _ _ _ _ _ _ _ _ Hp) as Hss.
  rewrite (rd_tr _ _ Hr), (rd_body _ _ Hr) in Hh.
  assert (Hi : inv (start v i, t)). { eapply ss_inv; [exact (rd_inv _ _ Hr)|done|done|done]. }
  destruct (handled_steps _ _ _ _ _ _ _ Hh Hi) as (I1 & I2 & I3 & I4 & I5 & I6 & I7).
  subst v1. split; cbn; try done.
  - by exists ids.
  - exists s1. split; [done|]. split; [done|]. split; [done|]. split; [done|done].
  - assert (Hf : follows (v_session v, v_tree v) (start v i, t)) by (split; [exact Hss|done]).
    assert (Hf2 : follows (s1, t1) (s1 <| ev_output := output_new |>, t1)) by (split; [apply ss_refl|done]).
    exact (chain_app _ _ _ _ _ (chain_nil _ _ Hf) (eq_ind _ (fun l => chain _ l _) (chain_app _ _ _ _ _ I5 (chain_nil _ _ Hf2)) _ (app_nil_r now))).
  - split; cbn; [done| |apply Hr|apply Hr|].
    + eapply ss_inv; [exact I1|done|exact (iv_live _ I1)|done].
    + destruct I2 as [I2 _]. cbn in I2. rewrite <- I2. destruct Hd as [Hd _]. rewrite <- Hd. exact (rd_next _ _ Hr).
Qed.

Lemma updates_happened X fuel : forall hist v v' os, updates X fuel v hist = Ok (v', os) -> exists steps, happened X fuel v hist v' steps.
Proof.
  induction hist as [|[i x] hist IH]; intros v v' os H; cbn [updates] in H.
  - injection H as <- <-. eexists. constructor.
  - apply bindR_Ok in H as ([v1 o] & H1 & H). apply bindR_Ok in H as ([v2 os'] & H2 & H). injection H as <- <-.
    destruct (IH _ _ _ H2) as (later & Hl). pose proof H1 as H1'. apply update_input in H1' as (m & t & ids & s1 & t1 & now & Hp & Hh & Hv1 & _).
    exists (now ++ later). eapply happened_cons; [exact Hp|exact Hh|exact H1|by subst v1|by subst v1|done].
Qed.
Lemma happened_updates X fuel v hist v' steps : happened X fuel v hist v' steps -> exists os, updates X fuel v hist = Ok (v', os).
Proof. induction 1 as [|v i x hist m t ids s1 t1 now v1 o v' later _ _ H _ _ _ (os & IH)]; [by eexists|]. cbn [updates]. rewrite H. cbn. rewrite IH. by eexists. Qed.

Lemma happened_ok X fuel v hist v' steps : happened X fuel v hist v' steps -> ready X v ->
  ready X v' /\ Forall (step_ok X) steps /\ chain (v_session v, v_tree v) steps (v_session v', v_tree v') /\
  ev_log (v_session v') = ev_log (v_session v) ++ flat_map sent steps /\ v_body v' = v_body v.
Proof.
  induction 1 as [v|v i x hist m t ids s1 t1 now v1 o v' later Hp Hh H Ht1 Hlog _ IH]; intros Hr.
  - split; [done|]. split; [constructor|]. split; [by constructor|]. cbn. by rewrite app_nil_r.
  - destruct (update_side _ _ _ _ _ _ _ Hr H) as (m' & t' & now' & [S1 S2 S3 S4 S5 S6 S7 S8]).
    destruct S1 as (ids' & S1). assert (m' = m /\ t' = t) as [-> ->] by (rewrite Hp in S1; by injection S1). clear S1.
    rewrite (rd_tr _ _ Hr), (rd_body _ _ Hr) in Hh. fold (start v i) in Hh.
    assert (now' = now) as ->.
    { destruct S2 as (s2 & S2 & _). clear -S2 Hh. revert S2. generalize (s2, v_tree v1). intros st2 S2. revert st2 now' S2.
      induction Hh as [|st ev st1 evs st' steps H1 _ IH]; intros st2 now' S2; inversion S2; subst; [done|]. f_equal; [congruence|]. eapply IH. congruence || (match goal with Ha : handle_event _ _ _ _ _ _ _ = Ok ?a, Hb : handle_event _ _ _ _ _ _ _ = Ok ?b |- _ => rewrite Ha in Hb; injection Hb as -> end; eassumption). }
    destruct (IH S8) as (I1 & I2 & I3 & I4 & I5). split; [done|]. split; [by apply Forall_app|]. split; [by eapply chain_app|]. split.
    + rewrite I4. destruct (handled_steps _ _ _ _ _ _ _ Hh S3) as (_ & _ & _ & _ & _ & _ & L & _). cbn [fst] in L. rewrite Hlog, L, flat_map_app, app_assoc. done.
    + by rewrite I5.
Qed.
