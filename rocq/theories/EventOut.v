(** * What an update returns, and that input handling never fails. *)
From Coq Require Import ZArith Lia.
From stdpp Require Import gmap.
From RecordUpdate Require Import RecordUpdate.
From Verif Require Import Str F32 Res ResFacts Json PropKey Html Css Element Tree ViewModel Render Update Matching
  Cascade Initial Animation Apply Styling Events View SpecReact SpecLive SpecView SpecEvents
  FrameFacts LiveFacts LiveUpdate LiveView EventFacts EventPage EventSteps EventFrame EventSay EventHistory EventProps EventMore.

(** ** Only messages are written to the output *)
Section shape.
  Context (fmt : f64 -> string) (depth : nat) (m : json) (tr : Transformers) (body : NodeId).
  Definition same_pointer (s s' : Session) : Prop := out_pointer (ev_output s') = out_pointer (ev_output s).
  Lemma sp_trans a b c : same_pointer a b -> same_pointer b c -> same_pointer a c.
  Proof. unfold same_pointer. congruence. Qed.
  Lemma emit_sp n e h ev s s' : emit fmt m tr n e h ev s = Ok s' -> same_pointer s s'.
  Proof. unfold emit. intros H. destruct (e_listeners e !! h); [|by injection H as <-]. apply bindR_Ok in H as ([key args'] & _ & H). by injection H as <-. Qed.
  Lemma emit_mouse_sp n e h s s' : emit_mouse fmt m tr n e h s = Ok s' -> same_pointer s s'.
  Proof. apply emit_sp. Qed.
  Lemma when_drag_sp n e h s s' : when_drag s (emit_mouse fmt m tr n e h) = Ok s' -> same_pointer s s'.
  Proof. unfold when_drag. destruct (ev_drag s); [apply emit_mouse_sp|by intros [= <-]]. Qed.
  Lemma foldR_sp {A} (f : ST -> A -> res ST) l : (forall st a st', f st a = Ok st' -> same_pointer (fst st) (fst st')) ->
    forall st st', foldR f st l = Ok st' -> same_pointer (fst st) (fst st').
  Proof.
    intros Hf. induction l as [|a l IH]; intros st st' H; cbn [foldR] in H; [by injection H as <-|].
    apply bindR_Ok in H as (t1 & H1 & H). eapply sp_trans; [by eapply Hf|by eapply IH].
  Qed.
  Lemma leave_sp st n st' : leave_node fmt m tr st n = Ok st' -> same_pointer (fst st) (fst st').
  Proof.
    destruct st as [s t]. unfold leave_node. destruct (memb _ _); intros H; [by injection H as <-|]. apply bindR_Ok in H as (e & _ & H).
    apply bindR_Ok in H as (s1 & H1 & H). apply bindR_Ok in H as (s2 & H2 & H). injection H as <-. eapply sp_trans; [by eapply emit_mouse_sp|by eapply when_drag_sp].
  Qed.
  Lemma move_sp P st n st' : move_node fmt m tr P st n = Ok st' -> same_pointer (fst st) (fst st').
  Proof.
    destruct st as [s t]. unfold move_node. intros H. apply bindR_Ok in H as ([s1 t1] & H1 & H).
    assert (Hs : same_pointer s s1). { destruct (memb _ _); [by injection H1 as <- _|]. apply bindR_Ok in H1 as (e & _ & H1).
      apply bindR_Ok in H1 as (s2 & H2 & H1). apply bindR_Ok in H1 as (s3 & H3 & H1). injection H1 as <- _. eapply sp_trans; [by eapply emit_mouse_sp|by eapply when_drag_sp]. }
    apply bindR_Ok in H as (e & _ & H). apply bindR_Ok in H as (s2 & H2 & H). apply bindR_Ok in H as (s3 & H3 & H). injection H as <-.
    eapply sp_trans; [exact Hs|]. eapply sp_trans; [by eapply emit_mouse_sp|by eapply when_drag_sp].
  Qed.
  Lemma blur_sp n st st' : blur fmt m tr n st = Ok st' -> same_pointer (fst st) (fst st').
  Proof. destruct st as [s t]. unfold blur. intros H. apply bindR_Ok in H as (e & _ & H). apply bindR_Ok in H as (s1 & H1 & H). injection H as <-. by apply emit_mouse_sp in H1. Qed.
  Lemma press_sp b st n st' : press_node fmt m tr b st n = Ok st' -> same_pointer (fst st) (fst st').
  Proof.
    destruct st as [s t]. unfold press_node. intros H. apply bindR_Ok in H as (e & _ & H). apply bindR_Ok in H as ([s1 t1] & H1 & H).
    apply bindR_Ok in H as (e2 & _ & H). apply bindR_Ok in H as (s2 & H2 & H). apply (sp_trans _ s2).
    - apply (sp_trans _ s1); [|by eapply emit_mouse_sp]. cbn [fst]. destruct (_ !! _); [|by injection H1 as <- _].
      apply bindR_Ok in H1 as ([s3 t3] & H3 & H1). apply (sp_trans _ s3).
      + destruct (ev_focus _); [|by injection H3 as <- _]. destruct (Nat.eqb _ _); [by injection H3 as <- _|]. by apply blur_sp in H3.
      + destruct (ev_focus s3); [destruct (Nat.eqb _ _); by injection H1 as <- _|]. apply bindR_Ok in H1 as (e3 & _ & H1). apply bindR_Ok in H1 as (s4 & H4 & H1). injection H1 as <- _. by apply emit_mouse_sp in H4.
    - destruct (_ && _); [|by injection H as <-]. apply bindR_Ok in H as (s3 & H3 & H). injection H as <-. by apply emit_mouse_sp in H3.
  Qed.
  Lemma release_sp b st n st' : release_node fmt m tr b st n = Ok st' -> same_pointer (fst st) (fst st').
  Proof.
    destruct st as [s t]. unfold release_node. intros H. apply bindR_Ok in H as (e & _ & H). apply bindR_Ok in H as (s1 & H1 & H).
    apply (sp_trans _ s1); [by eapply emit_mouse_sp|]. destruct (ev_drag s1).
    - destruct (_ !! _); [|by injection H as <-]. apply bindR_Ok in H as (s2 & H2 & H). apply bindR_Ok in H as (e2 & _ & H). apply bindR_Ok in H as (s3 & H3 & H). injection H as <-.
      eapply sp_trans; [by eapply emit_mouse_sp|]. by apply emit_mouse_sp in H3.
    - apply bindR_Ok in H as (s2 & H2 & H). apply bindR_Ok in H as (s3 & H3 & H). injection H as <-. eapply sp_trans.
      + destruct (_ && _); [by eapply emit_mouse_sp|by injection H2 as <-].
      + destruct (is_right b); [by eapply emit_mouse_sp|by injection H3 as <-].
  Qed.
  Lemma key_sp h ev st st' : on_key fmt m tr h ev st = Ok st' -> same_pointer (fst st) (fst st').
  Proof. destruct st as [s t]. unfold on_key. intros H. destruct (ev_focus s); [|by injection H as <-]. apply bindR_Ok in H as (e & _ & H). apply bindR_Ok in H as (s1 & H1 & H). injection H as <-. by eapply emit_sp. Qed.
  Lemma event_sp st ev st' : handle_event fmt depth m tr body st ev = Ok st' -> same_pointer (fst st) (fst st').
  Proof.
    destruct st as [s t]. destruct ev; cbn [handle_event]; intros H; try (by injection H as <-); try (by eapply key_sp in H).
    - unfold on_move in H. apply bindR_Ok in H as (u & Hu & H). apply bindR_Ok in H as (st1 & H1 & H).
      apply (foldR_sp _ _ leave_sp) in H1. apply (foldR_sp _ _ (move_sp _)) in H. by eapply sp_trans; [|exact H].
    - unfold on_down in H. apply bindR_Ok in H as ([s1 t1] & H1 & H). apply (foldR_sp _ _ (press_sp _)) in H. eapply sp_trans; [|exact H]. cbn [fst].
      destruct (ev_focus s); [|by injection H1 as <- _]. destruct (memb _ _); [by injection H1 as <- _|]. by apply blur_sp in H1.
    - unfold on_up in H. apply bindR_Ok in H as ([s1 t1] & H1 & H). apply (foldR_sp _ _ (release_sp _)) in H1. apply bindR_Ok in H as (t2 & _ & H). by injection H as <-.
  Qed.
  Lemma handled_sp st evs st' steps : handled fmt depth m tr body st evs st' steps -> same_pointer (fst st) (fst st').
  Proof. induction 1; [done|]. eapply sp_trans; [by eapply event_sp|done]. Qed.
End shape.

(** ** C24: capture *)
Lemma handled_det fmt depth m tr body st evs st1 l1 st2 l2 : handled fmt depth m tr body st evs st1 l1 -> handled fmt depth m tr body st evs st2 l2 -> st1 = st2 /\ l1 = l2.
Proof.
  intros H. revert st2 l2. induction H as [|st ev sta evs stb steps H1 _ IH]; intros st2 l2 H2; inversion H2 as [|? ? sta' ? ? ? H3 H4]; subst; [done|].
  rewrite H1 in H3. injection H3 as <-. destruct (IH _ _ H4) as [-> ->]. done.
Qed.

(** one update of a session: everything about it *)
Lemma update_all X fuel doc css hist v steps i x v1 o t now : session_of X fuel doc css hist v steps -> update X fuel v i x = Ok (v1, o) ->
  input_steps X fuel v i x t now ->
  session_of X fuel doc css (hist ++ [(i, x)]) v1 (steps ++ now) /\ same_but_state t (v_tree v1) /\
  answers (x_fmt_f64 X) (v_model v1) (x_transformers X) t (trace now) (messages o) /\
  Forall (reports t (mouse_history (hist ++ [(i, x)]))) (trace now) /\
  out_pointer o = choose_pointer (v_tree v1) (ev_under (v_session v1)) PAuto /\
  (is_input_captured o = true <-> ev_under (v_session v1) <> [] \/ ev_drag (v_session v1) <> None \/ ev_focus (v_session v1) <> None \/ ev_action (v_session v1) <> []).
Proof.
  intros Hses Hup (m & ids & st & Hp & Hh). pose proof (session_ok _ _ _ _ _ _ _ Hses) as (Hr & _ & Hlog & Hb & _ & v0 & Hr0 & _ & Hs0 & Hhap & _).
  pose proof Hup as Hup2. apply update_input in Hup2 as (m' & t' & ids' & s1 & t1 & now' & Hp' & Hh' & Hv1 & Hmsg & Hptr & Hcap).
  rewrite Hp in Hp'. injection Hp' as <- <- <-. destruct (handled_det _ _ _ _ _ _ _ _ _ _ _ Hh Hh') as [-> <-]. clear Hh'.
  pose proof (prepare_live _ _ _ _ _ _ _ _ (rd_sound _ _ Hr) Hp) as (Hl & Hd). pose proof (prepare_ss _ _ _ _ _ _ _ _ Hp) as Hss.
  assert (Hi : inv (start v i, t)). { eapply ss_inv; [exact (rd_inv _ _ Hr)|done|done|done]. }
  pose proof Hh as Hh2. rewrite (rd_tr _ _ Hr), Hb in Hh2. fold (start v i) in Hh2.
  destruct (handled_steps _ _ _ _ _ _ _ Hh2 Hi) as (I1 & I2 & I3 & I4 & I5 & I6 & I7 & I8). pose proof (handled_sp _ _ _ _ _ _ _ _ _ Hh2) as Hpt. cbn [fst snd] in *.
  split; [|split; [|split; [|split; [|split]]]].
  - destruct Hses as (v00 & H00 & Hhap0). exists v00. split; [done|]. clear -Hhap0 Hp Hh Hup Hv1. induction Hhap0 as [v|v j y hist m2 t2 ids2 s2 t3 now2 v2 o2 v' later A1 A2 A3 A4 A5 _ IH]; cbn [app].
    + rewrite <- (app_nil_r now). eapply happened_cons; [exact Hp|exact Hh|exact Hup|by subst v1|by subst v1|constructor].
    + rewrite <- app_assoc. eapply happened_cons; [exact A1|exact A2|exact A3|done|done|]. by apply IH.
  - subst v1. exact I2.
  - destruct I3 as (_ & new & msgs & L & A & O & _). rewrite I7 in L. apply app_inv_head in L. unfold trace. rewrite L, Hmsg, O. subst v1. exact A.
  - destruct I3 as (M & new & msgs & L & _ & _ & R). rewrite I7 in L. apply app_inv_head in L. unfold trace. rewrite L.
    destruct (happened_mouse _ _ _ _ _ _ Hhap Hr0) as (Mo & _). rewrite Hs0 in Mo. unfold mouse_history. rewrite foldl_app. cbn [foldl fst].
    change vzero with (ev_mouse session_new). rewrite <- Mo. exact R.
  - rewrite Hptr. subst v1. cbn. by rewrite Hpt.
  - subst v1. cbn. exact Hcap.
Qed.

Lemma update_has_steps X fuel v i x v1 o : update X fuel v i x = Ok (v1, o) -> exists t now, input_steps X fuel v i x t now.
Proof. intros H. apply update_input in H as (m & t & ids & s1 & t1 & now & Hp & Hh & _). exists t, now, m, ids, (s1, t1). done. Qed.

Lemma captured X fuel doc css hist v steps i x v1 o now t : session_of X fuel doc css hist v steps -> update X fuel v i x = Ok (v1, o) ->
  input_steps X fuel v i x t now ->
  is_input_captured o = true <-> (exists n, hovered (v_tree v1) n \/ active (v_tree v1) n \/ focused (v_tree v1) n) \/ exists source, dragging (steps ++ now) source.
Proof.
  intros H H1 H2. destruct (update_all _ _ _ _ _ _ _ _ _ _ _ _ _ H H1 H2) as (Hses & _ & _ & _ & _ & Hc). rewrite Hc. clear Hc.
  destruct (session_ok _ _ _ _ _ _ _ Hses) as (_ & _ & Hlog & _ & Hi & _).
  pose proof (fun n => hover_in _ n Hi) as E1. pose proof (fun n => active_in _ n Hi) as E2. pose proof (fun n => focus_in _ n Hi) as E3. cbn [tree_of snd fst] in *.
  destruct (iv_drag _ Hi) as (_ & E4). cbn [fst] in E4. rewrite Hlog in E4. unfold dragging. rewrite E4. split.
  - intros [Hx|[Hx|[Hx|Hx]]].
    + left. destruct (ev_under (v_session v1)) as [|n l] eqn:E; [done|]. exists n. left. apply E1. by left.
    + right. destruct (ev_drag (v_session v1)) as [n|] eqn:E; [|done]. by exists n.
    + left. destruct (ev_focus (v_session v1)) as [n|] eqn:E; [|done]. exists n. right; right. by apply E3.
    + left. destruct (ev_action (v_session v1)) as [|n l] eqn:E; [done|]. exists n. right; left. apply E2. by left.
  - intros [(n & [Hn|[Hn|Hn]])|(s & Hs)].
    + left. apply E1 in Hn. by intros E; rewrite E in Hn; apply elem_of_nil in Hn.
    + right; right; right. apply E2 in Hn. by intros E; rewrite E in Hn; apply elem_of_nil in Hn.
    + right; right; left. apply E3 in Hn. congruence.
    + right; left. destruct (ev_drag (v_session v1)); [done|]. done.
Qed.

(** ** C25: the pointer *)
Lemma choose_first t : forall U p o, (forall n, n ∈ U -> is_Some (get_ctx t n)) -> first_of (fun n => ~ shape t n PAuto) (rev U) o ->
  match o with Some n => shape t n (choose_pointer t U p) | None => choose_pointer t U p = p end.
Proof.
  induction U as [|n U IH] using rev_ind; intros p o Hin H.
  - cbn in H. inversion H; subst. done.
  - rewrite rev_app_distr in H. cbn in H. unfold choose_pointer. rewrite foldl_app. cbn [foldl]. fold (choose_pointer t U p).
    destruct (Hin n) as [e He]; [apply elem_of_app; right; by left|]. rewrite He.
    inversion H as [|? ? Hk|? ? ? Hk Hl]; subst.
    + exists e. split; [done|]. destruct (e_pointer e) eqn:Ep; try done. exfalso. apply Hk. by exists e.
    + assert (Hauto : e_pointer e = PAuto). { destruct (e_pointer e) eqn:Ep; try done; (exfalso; apply Hk; intros (e' & He' & Hs); congruence). }
      rewrite Hauto. apply IH; [|done]. intros k Hk2. apply Hin. apply elem_of_app. by left.
Qed.
Lemma pointer_shape X fuel doc css hist v steps i x v1 o U f : session_of X fuel doc css hist v steps -> update X fuel v i x = Ok (v1, o) ->
  elements_under (v_tree v1) (v_body v1) (mouse_history (hist ++ [(i, x)])) U -> first_of (fun n => ~ shape (v_tree v1) n PAuto) (rev U) f ->
  match f with Some n => shape (v_tree v1) n (out_pointer o) | None => out_pointer o = PAuto end.
Proof.
  intros H H1 HU Hf. destruct (update_has_steps _ _ _ _ _ _ _ H1) as (t & now & H2).
  destruct (update_all _ _ _ _ _ _ _ _ _ _ _ _ _ H H1 H2) as (Hses & _ & _ & _ & Hp & _). rewrite Hp.
  destruct (session_ok _ _ _ _ _ _ _ Hses) as (_ & _ & _ & Hb & Hi & v0 & Hr0 & _ & Hs0 & Hh & _). rewrite Hb in HU.
  destruct (happened_mouse _ _ _ _ _ _ Hh Hr0) as (M & U1). rewrite Hs0 in M. cbn in M. fold (mouse_history (hist ++ [(i, x)])) in M. rewrite M in U1.
  assert (Hne : hist ++ [(i, x)] <> []) by by destruct hist. specialize (U1 Hne). pose proof (elements_det _ _ _ _ _ HU U1) as <-.
  apply choose_first; [|done]. intros n Hn. destruct HU as (all & _ & ->). apply elem_of_list_filter in Hn as ((e & He & _) & _). by exists e.
Qed.
