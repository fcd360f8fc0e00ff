(** * Handler calls become messages. *)
From Coq Require Import ZArith Lia.
From stdpp Require Import gmap.
From RecordUpdate Require Import RecordUpdate.
From Verif Require Import Str F32 Res ResFacts Json PropKey Html Css Element Tree ViewModel Render Update Matching
  Cascade Initial Animation Apply Styling Events View SpecBind SpecReact SpecLive SpecView SpecEvents
  BindFacts BindProps FrameFacts LiveFacts LiveUpdate LiveView EventFacts.

Lemma argument_eval m tr event a o : eval_argument m tr event a = Ok o <-> argument m tr event a o.
Proof.
  destruct a as [k| |path pipe]; cbn [eval_argument].
  - split; [intros [= <-]; constructor|]. intros H. by inversion H.
  - split; [intros [= <-]; constructor|]. intros H. by inversion H.
  - destruct (pointer m path) as [w|] eqn:E.
    + split.
      * intros H. apply bindR_Ok in H as (w' & Hp & H). injection H as <-. econstructor; [done|]. by apply run_pipe_piped.
      * intros H. inversion H as [| |? ? Hn|? ? w0 w' Hw Hp]; subst; [congruence|]. assert (w0 = w) as -> by congruence.
        apply run_pipe_piped in Hp. by rewrite Hp.
    + split; [intros [= <-]; by constructor|]. intros H. inversion H; subst; [done|congruence].
Qed.

Lemma eval_arguments_later fmt m tr event args : forall i key acc k l,
  eval_arguments fmt m tr event (S i) args key acc = Ok (k, l) <-> k = key /\ exists ws, Forall2 (argument m tr event) args ws /\ l = acc ++ keep ws.
Proof.
  induction args as [|a args IH]; intros i key acc k l; cbn [eval_arguments].
  - split; [intros [= <- <-]; split; [done|]; exists []; split; [constructor|by rewrite app_nil_r]|].
    intros (-> & ws & Hw & ->). inversion Hw; subst. by rewrite app_nil_r.
  - split.
    + intros H. apply bindR_Ok in H as (o & Ho & H). apply argument_eval in Ho. destruct o as [w|].
      * apply IH in H as (-> & ws & Hw & ->). split; [done|]. exists (Some w :: ws). split; [by constructor|]. unfold keep. cbn. by rewrite <- app_assoc.
      * apply IH in H as (-> & ws & Hw & ->). split; [done|]. exists (None :: ws). split; [by constructor|]. done.
    + intros (-> & ws & Hw & ->). inversion Hw as [|? o ? ws' Ho Hw']; subst. apply argument_eval in Ho. rewrite Ho. cbn [bindR].
      destruct o as [w|]; apply IH; (split; [done|]); exists ws'; (split; [done|]); unfold keep; cbn; [by rewrite <- app_assoc|done].
Qed.

Lemma says_eval fmt m tr event args msg :
  (exists key l, eval_arguments fmt m tr event 0 args "Undefined" [] = Ok (key, l) /\ msg = make_message key l) <-> says fmt m tr event args msg.
Proof.
  destruct args as [|a args]; cbn [eval_arguments].
  - split; [intros (key & l & [= <- <-] & ->); constructor|]. intros H. inversion H; subst. by do 2 eexists.
  - split.
    + intros (key & l & H & ->). apply bindR_Ok in H as (o & Ho & H). apply argument_eval in Ho. destruct o as [w|].
      * apply eval_arguments_later in H as (-> & ws & Hw & ->). change (make_message ?k ?l) with (message k l). by apply says_key.
      * apply eval_arguments_later in H as (-> & ws & Hw & ->). change (make_message ?k ?l) with (message k l). by eapply says_no_key.
    + intros H. inversion H as [|? ? w ws Ha Hw|? ? ws Ha Hw]; subst; apply argument_eval in Ha; rewrite Ha; cbn [bindR].
      * do 2 eexists. split; [apply eval_arguments_later; split; [done|]; by exists ws|]. done.
      * do 2 eexists. split; [apply eval_arguments_later; split; [done|]; by exists ws|]. done.
Qed.

Lemma emit_says fmt m tr n e h ev s s' : emit fmt m tr n e h ev s = Ok s' ->
  ev_log s' = ev_log s ++ [mkDispatch n h ev] /\
  match e_listeners e !! h with
  | None => messages (ev_output s') = messages (ev_output s)
  | Some args => exists msg, says fmt m tr ev args msg /\ messages (ev_output s') = messages (ev_output s) ++ [msg]
  end.
Proof.
  unfold emit. intros H. destruct (e_listeners e !! h) as [args|]; [|by injection H as <-].
  apply bindR_Ok in H as ([key l] & H1 & H). injection H as <-. split; [done|]. eexists. split; [|done]. apply says_eval. by do 2 eexists.
Qed.
Lemma emit_total fmt m tr n e h ev s : (forall args, e_listeners e !! h = Some args -> exists msg, says fmt m tr ev args msg) -> exists s', emit fmt m tr n e h ev s = Ok s'.
Proof.
  intros H. unfold emit. destruct (e_listeners e !! h) as [args|] eqn:E; [|by eexists]. destruct (H args eq_refl) as (msg & Hm).
  apply says_eval in Hm as (key & l & -> & _). by eexists.
Qed.

Lemma argument_det m tr event a o1 o2 : argument m tr event a o1 -> argument m tr event a o2 -> o1 = o2.
Proof. intros H1%argument_eval H2%argument_eval. congruence. Qed.
Lemma says_det fmt m tr event args m1 m2 : says fmt m tr event args m1 -> says fmt m tr event args m2 -> m1 = m2.
Proof. intros (k1 & l1 & H1 & ->)%says_eval (k2 & l2 & H2 & ->)%says_eval. congruence. Qed.

(** ** Whole events *)
Definition heard (fmt : f64 -> string) (m : json) (tr : Transformers) (t : Tree) (s s' : Session) : Prop :=
  ev_mouse s' = ev_mouse s /\ exists new msgs, ev_log s' = ev_log s ++ new /\ answers fmt m tr t new msgs /\
    messages (ev_output s') = messages (ev_output s) ++ msgs /\ Forall (reports t (ev_mouse s)) new.

Lemma answers_app fmt m tr t a b ma mb : answers fmt m tr t a ma -> answers fmt m tr t b mb -> answers fmt m tr t (a ++ b) (ma ++ mb).
Proof. intros H Hb. induction H; cbn; [done|by constructor|by econstructor]. Qed.
Lemma heard_refl fmt m tr t s : heard fmt m tr t s s.
Proof. split; [done|]. exists [], []. rewrite !app_nil_r. split; [done|]. split; [constructor|]. split; [done|constructor]. Qed.
Lemma heard_trans fmt m tr t a b c : heard fmt m tr t a b -> heard fmt m tr t b c -> heard fmt m tr t a c.
Proof.
  intros (M1 & n1 & m1 & L1 & A1 & O1 & R1) (M2 & n2 & m2 & L2 & A2 & O2 & R2). split; [congruence|]. exists (n1 ++ n2), (m1 ++ m2).
  rewrite L2, L1, O2, O1, !app_assoc. split; [done|]. split; [by apply answers_app|]. split; [done|]. apply Forall_app. split; [done|]. by rewrite <- M1.
Qed.
(** updates of the other session fields are not heard *)
Lemma heard_same fmt m tr t s s1 s2 : heard fmt m tr t s s1 -> (ev_mouse s2, ev_log s2, ev_output s2) = (ev_mouse s1, ev_log s1, ev_output s1) -> heard fmt m tr t s s2.
Proof. intros (M & new & msgs & L & A & O & R) [= E1 E2 E3]. split; [congruence|]. exists new, msgs. rewrite E2, E3. done. Qed.
Lemma heard_same_l fmt m tr t s0 s s1 : heard fmt m tr t s s1 -> (ev_mouse s0, ev_log s0, ev_output s0) = (ev_mouse s, ev_log s, ev_output s) -> heard fmt m tr t s0 s1.
Proof. intros (M & new & msgs & L & A & O & R) [= E1 E2 E3]. split; [congruence|]. exists new, msgs. rewrite E2, E3, E1. done. Qed.

Lemma sbs_geometry t t' n e e' : same_but_state t t' -> get_ctx t n = Some e -> get_ctx t' n = Some e' -> no_state e' = no_state e.
Proof. intros H He He'. destruct (sbs_ctx _ _ _ _ H He) as (e2 & H2 & H3). congruence. Qed.

Section heard.
  Context (fmt : f64 -> string) (m : json) (tr : Transformers) (t0 : Tree).
  Notation heard := (heard fmt m tr t0).

  Lemma emit_heard n e0 e h ev s s' : get_ctx t0 n = Some e0 -> no_state e = no_state e0 -> emit fmt m tr n e h ev s = Ok s' ->
    reports t0 (ev_mouse s) (mkDispatch n h ev) -> heard s s'.
  Proof.
    intros H0 Hn H Hr. assert (Hm : ev_mouse s' = ev_mouse s) by by apply emit_effect in H as ((? & _) & _).
    apply emit_says in H as (Hl & Ho). split; [done|].
    assert (Hli : e_listeners e = e_listeners e0). { change (e_listeners (no_state e) = e_listeners (no_state e0)). by rewrite Hn. }
    rewrite Hli in Ho. destruct (e_listeners e0 !! h) as [args|] eqn:E.
    - destruct Ho as (msg & Hs & Ho). exists [mkDispatch n h ev], [msg]. split; [done|]. split; [|split; [done|by repeat constructor]].
      eapply answers_one; [exact H0|exact E|done|constructor].
    - exists [mkDispatch n h ev], []. rewrite app_nil_r. split; [done|]. split; [|split; [done|by repeat constructor]].
      apply answers_silent; [|constructor]. intros (e1 & H1 & H2). cbn [di_node di_handler] in *. assert (e1 = e0) as -> by congruence. destruct H2 as [x Hx]. discriminate (eq_trans (eq_sym Hx) E).
  Qed.
  Lemma emit_mouse_heard n e0 e h s s' : get_ctx t0 n = Some e0 -> no_state e = no_state e0 -> emit_mouse fmt m tr n e h s = Ok s' -> heard s s'.
  Proof.
    intros H0 Hn H. eapply emit_heard; [done|done|exact H|]. exists e0. split; [done|].
    assert (H1 : e_position e = e_position e0). { change (e_position (no_state e) = e_position (no_state e0)). by rewrite Hn. }
    assert (H2 : e_size e = e_size e0). { change (e_size (no_state e) = e_size (no_state e0)). by rewrite Hn. }
    unfold mouse_event, json_target. cbn [di_event]. rewrite <- H1, <- H2. split; [reflexivity|]. split; [reflexivity|]. right. reflexivity.
  Qed.
  Lemma when_drag_heard n e0 e h s s' : get_ctx t0 n = Some e0 -> no_state e = no_state e0 -> when_drag s (emit_mouse fmt m tr n e h) = Ok s' -> heard s s'.
  Proof. unfold when_drag. intros H0 Hn H. destruct (ev_drag s); [by eapply emit_mouse_heard|]. injection H as <-. apply heard_refl. Qed.

  Notation good t := (same_but_state t0 t).
  Lemma good_ctx t n e : good t -> get_element t n = Ok e -> exists e0, get_ctx t0 n = Some e0 /\ no_state e = no_state e0.
  Proof. intros Hg He. apply get_element_ctx in He. destruct (sbs_ctx _ _ _ _ (sbs_sym _ _ Hg) He) as (e0 & H0 & Hn). by exists e0. Qed.

  Lemma leave_heard s t n s' t' : good t -> leave_node fmt m tr (s, t) n = Ok (s', t') -> heard s s'.
  Proof.
    intros Hg H. unfold leave_node in H. destruct (memb _ _); [injection H as <- <-; apply heard_refl|].
    apply bindR_Ok in H as (e & He & H). destruct (good_ctx _ _ _ Hg He) as (e0 & H0 & Hn).
    apply bindR_Ok in H as (s1 & H1 & H). apply bindR_Ok in H as (s2 & H2 & H). injection H as <- <-.
    eapply heard_trans; [eapply emit_mouse_heard; [exact H0| |exact H1]; exact Hn|eapply when_drag_heard; [exact H0| |exact H2]; exact Hn].
  Qed.
  Lemma move_heard P s t n s' t' : good t -> move_node fmt m tr P (s, t) n = Ok (s', t') -> heard s s'.
  Proof.
    intros Hg H. unfold move_node in H. apply bindR_Ok in H as ([s1 t1] & H1 & H).
    assert (Hs : heard s s1 /\ good t1).
    { destruct (memb _ _); [injection H1 as <- <-; split; [apply heard_refl|done]|].
      apply bindR_Ok in H1 as (e & He & H1). destruct (good_ctx _ _ _ Hg He) as (e0 & H0 & Hn).
      apply bindR_Ok in H1 as (s2 & H2 & H1). apply bindR_Ok in H1 as (s3 & H3 & H1). injection H1 as <- <-. split.
      - eapply heard_trans; [eapply emit_mouse_heard; [exact H0| |exact H2]; exact Hn|eapply when_drag_heard; [exact H0| |exact H3]; exact Hn].
      - eapply sbs_trans; [exact Hg|]. apply put_state_sbs. by apply get_element_ctx. }
    destruct Hs as (Hs & Hg1). apply bindR_Ok in H as (e & He & H). destruct (good_ctx _ _ _ Hg1 He) as (e0 & H0 & Hn).
    apply bindR_Ok in H as (s2 & H2 & H). apply bindR_Ok in H as (s3 & H3 & H). injection H as <- <-.
    eapply heard_trans; [exact Hs|]. eapply heard_trans; [by eapply emit_mouse_heard|by eapply when_drag_heard].
  Qed.
  Lemma foldR_heard {A} (f : ST -> A -> res ST) l : (forall st a st', good (snd st) -> f st a = Ok st' -> heard (fst st) (fst st') /\ good (snd st')) ->
    forall st st', good (snd st) -> foldR f st l = Ok st' -> heard (fst st) (fst st') /\ good (snd st').
  Proof.
    intros Hf. induction l as [|a l IH]; intros st st' Hg H; cbn [foldR] in H; [injection H as <-; split; [apply heard_refl|done]|].
    apply bindR_Ok in H as (t1 & H1 & H). apply Hf in H1 as (H2 & H3); [|done]. apply IH in H as (H4 & H5); [|done]. split; [by eapply heard_trans|done].
  Qed.
  Lemma blur_heard g s t s' t' : good t -> blur fmt m tr g (s, t) = Ok (s', t') -> heard s s'.
  Proof.
    intros Hg H. unfold blur in H. apply bindR_Ok in H as (e & He & H). destruct (good_ctx _ _ _ Hg He) as (e0 & H0 & Hn).
    apply bindR_Ok in H as (s1 & H1 & H). injection H as <- <-. eapply heard_same_l; [eapply emit_mouse_heard; [exact H0| |exact H1]; exact Hn|done].
  Qed.
  Lemma press_heard b s t n s' t' : good t -> press_node fmt m tr b (s, t) n = Ok (s', t') -> heard s s'.
  Proof.
    intros Hg H. pose proof (press_sbs _ _ _ _ _ _ _ H) as Hps. unfold press_node in H. apply bindR_Ok in H as (e & He & H).
    apply bindR_Ok in H as ([s1 t1] & H1 & H).
    assert (Hg1 : good (put_element n (set_state (fun x => x <| st_active := true |>) e) t)).
    { eapply sbs_trans; [exact Hg|]. apply put_state_sbs. by apply get_element_ctx. }
    assert (Hs : heard s s1 /\ good t1).
    { match type of H1 with match ?o with _ => _ end = _ => destruct o end.
      2: { injection H1 as <- <-. split; [|done]. eapply heard_same; [apply heard_refl|done]. }
      apply bindR_Ok in H1 as ([s3 t3] & H3 & H1).
      assert (Hs3 : heard s s3 /\ good t3).
      { cbn [ev_focus set] in H3. destruct (ev_focus s).
        - destruct (Nat.eqb _ _).
          + injection H3 as <- <-. split; [|done]. eapply heard_same; [apply heard_refl|done].
          + split; [|eapply sbs_trans; [exact Hg1|exact (blur_sbs _ _ _ _ _ _ H3)]]. apply blur_heard in H3; [|done]. by eapply heard_same_l.
        - injection H3 as <- <-. split; [|done]. eapply heard_same; [apply heard_refl|done]. }
      destruct Hs3 as (Hs3 & Hg3). destruct (ev_focus s3); [destruct (Nat.eqb _ _); by injection H1 as <- <-|].
      apply bindR_Ok in H1 as (e3 & He3 & H1). destruct (good_ctx _ _ _ Hg3 He3) as (e0 & H0 & Hn).
      apply bindR_Ok in H1 as (s4 & H4 & H1). injection H1 as <- <-. split.
      - eapply heard_trans; [exact Hs3|]. eapply heard_same_l; [eapply emit_mouse_heard; [exact H0| |exact H4]; exact Hn|done].
      - eapply sbs_trans; [exact Hg3|]. apply put_state_sbs. by apply get_element_ctx. }
    destruct Hs as (Hs & Hgt1). apply bindR_Ok in H as (e2 & He2 & H). destruct (good_ctx _ _ _ Hgt1 He2) as (e0 & H0 & Hn).
    apply bindR_Ok in H as (s2 & H2 & H). assert (Hs2 : heard s s2) by (eapply heard_trans; [exact Hs|by eapply emit_mouse_heard]).
    destruct (_ && _); [|by injection H as <- <-]. apply bindR_Ok in H as (s4 & H4 & H). injection H as <- <-.
    eapply heard_trans; [exact Hs2|]. eapply heard_same; [by eapply emit_mouse_heard|done].
  Qed.
  Lemma release_heard b s t n s' t' : good t -> release_node fmt m tr b (s, t) n = Ok (s', t') -> heard s s'.
  Proof.
    intros Hg H. unfold release_node in H. apply bindR_Ok in H as (e & He & H). destruct (good_ctx _ _ _ Hg He) as (e0 & H0 & Hn).
    apply bindR_Ok in H as (s1 & H1 & H). assert (Hs1 : heard s s1) by by eapply emit_mouse_heard.
    eapply heard_trans; [exact Hs1|]. clear Hs1 H1. destruct (ev_drag s1).
    - destruct (_ !! _); [|injection H as <- <-; apply heard_refl]. apply bindR_Ok in H as (s2 & H2 & H).
      apply bindR_Ok in H as (e2 & He2 & H). destruct (good_ctx _ _ _ Hg He2) as (e3 & H3 & Hn3). apply bindR_Ok in H as (s4 & H4 & H). injection H as <- <-.
      eapply heard_trans; [exact (emit_mouse_heard _ _ _ _ _ _ H0 Hn H2)|]. eapply heard_same_l; [exact (emit_mouse_heard _ _ _ _ _ _ H3 Hn3 H4)|done].
    - apply bindR_Ok in H as (s2 & H2 & H). apply bindR_Ok in H as (s3 & H3 & H). injection H as <- <-. eapply heard_trans.
      + destruct (_ && _); [exact (emit_mouse_heard _ _ _ _ _ _ H0 Hn H2)|]. injection H2 as <-. apply heard_refl.
      + destruct (is_right b); [exact (emit_mouse_heard _ _ _ _ _ _ H0 Hn H3)|]. injection H3 as <-. apply heard_refl.
  Qed.
  Lemma key_heard h (ev : Element -> json) s t s' t' : good t -> h ∈ ["onkeydown"; "onkeyup"; "oninput"] ->
    (forall e, pointer (ev e) "/target/position" = Some (json_vec (e_position e)) /\ pointer (ev e) "/target/size" = Some (json_vec (e_size e))) ->
    on_key fmt m tr h ev (s, t) = Ok (s', t') -> heard s s'.
  Proof.
    intros Hg Hh Hev H. unfold on_key in H. destruct (ev_focus s); [|injection H as <- <-; apply heard_refl].
    apply bindR_Ok in H as (e & He & H). destruct (good_ctx _ _ _ Hg He) as (e0 & H0 & Hn). apply bindR_Ok in H as (s1 & H1 & H). injection H as <- <-.
    eapply emit_heard; [exact H0|exact Hn|exact H1|]. exists e0. split; [done|]. cbn [di_event]. destruct (Hev e) as (E1 & E2).
    assert (P1 : e_position e = e_position e0). { change (e_position (no_state e) = e_position (no_state e0)). by rewrite Hn. }
    assert (P2 : e_size e = e_size e0). { change (e_size (no_state e) = e_size (no_state e0)). by rewrite Hn. }
    rewrite <- P1, <- P2. split; [done|]. split; [done|]. by left.
  Qed.

  Lemma event_heard depth body st ev st' : good (snd st) -> handle_event fmt depth m tr body st ev = Ok st' -> heard (fst st) (fst st').
  Proof.
    destruct st as [s t], st' as [s' t']. cbn [fst snd]. intros Hg H. destruct ev; cbn [handle_event] in H.
    - injection H as <- <-. apply heard_refl.
    - unfold on_move in H. apply bindR_Ok in H as (u & Hu & H). apply bindR_Ok in H as ([s1 t1] & H1 & H).
      apply foldR_heard in H1 as (H2 & H3); [| |exact Hg].
      2: { intros [s2 t2] a [s3 t3] Hg2 H2. split; [by eapply leave_heard|]. eapply sbs_trans; [exact Hg2|]. exact (leave_sbs _ _ _ _ _ _ H2). }
      apply foldR_heard in H as (H4 & H5); [| |exact H3].
      2: { intros [s2 t2] a [s3 t3] Hg2 H6. split; [by eapply move_heard|]. eapply sbs_trans; [exact Hg2|]. exact (move_sbs _ _ _ _ _ _ _ H6). }
      eapply heard_trans; [|exact H4]. eapply heard_same_l; [exact H2|done].
    - unfold on_down in H. apply bindR_Ok in H as ([s1 t1] & H1 & H).
      assert (Hs : heard s s1 /\ good t1).
      { destruct (ev_focus s); [|injection H1 as <- <-; split; [apply heard_refl|done]]. destruct (memb _ _); [injection H1 as <- <-; split; [apply heard_refl|done]|].
        split; [by eapply blur_heard|]. eapply sbs_trans; [exact Hg|]. exact (blur_sbs _ _ _ _ _ _ H1). }
      destruct Hs as (Hs & Hg1). eapply heard_trans; [exact Hs|]. apply foldR_heard in H as (H4 & H5); [exact H4| |exact Hg1].
      intros [s2 t2] a [s3 t3] Hg2 H6. split; [by eapply press_heard|]. eapply sbs_trans; [exact Hg2|]. exact (press_sbs _ _ _ _ _ _ _ H6).
    - unfold on_up in H. apply bindR_Ok in H as ([s1 t1] & H1 & H). apply bindR_Ok in H as (t2 & H2 & H). injection H as <- <-.
      apply foldR_heard in H1 as (H4 & H5); [|intros [s2 t3] a [s3 t4] Hg2 H6|exact Hg].
      + eapply heard_same; [exact H4|done].
      + split; [by eapply release_heard|]. pose proof (release_same _ _ _ _ _ _ _ H6) as Heq. cbn in Heq. subst t4. done.
    - injection H as <- <-. apply heard_refl.
    - eapply key_heard; [exact Hg| | |exact H]; [notin|]. by intros e.
    - eapply key_heard; [exact Hg| | |exact H]; [notin|]. by intros e.
    - eapply key_heard; [exact Hg| | |exact H]; [notin|]. by intros e.
  Qed.
End heard.
