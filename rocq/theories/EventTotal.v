(** * Input handling never fails. *)
From Coq Require Import ZArith Lia.
From stdpp Require Import gmap.
From RecordUpdate Require Import RecordUpdate.
From Verif Require Import Str F32 Res ResFacts Json PropKey Html Css Element Tree ViewModel Render Update Matching
  Cascade Initial Animation Apply Styling Events View SpecReact SpecLive SpecView SpecEvents
  FrameFacts LiveFacts LiveUpdate LiveView EventFacts EventPage EventSteps EventFrame EventSay EventHistory EventProps EventMore EventOut.

Lemma piped_total tr pipe : transformers_total tr -> forall w, exists w', piped tr pipe w w'.
Proof.
  intros Ht. induction pipe as [|name pipe IH]; intros w; [exists w; constructor|]. destruct (tr !! name) as [f|] eqn:E.
  - destruct (Ht _ _ w E) as (w1 & H1). destruct (IH w1) as (w' & Hw). exists w'. by eapply piped_known.
  - destruct (IH w) as (w' & Hw). exists w'. by apply piped_unknown.
Qed.
Lemma argument_total m tr event a : transformers_total tr -> exists o, argument m tr event a o.
Proof.
  intros Ht. destruct a as [k| |path pipe]; [eexists; constructor|eexists; constructor|]. destruct (pointer m path) as [w|] eqn:E; [|exists None; by constructor].
  destruct (piped_total tr pipe Ht w) as (w' & Hw). exists (Some w'). by econstructor.
Qed.
Lemma says_total fmt m tr event args : transformers_total tr -> exists msg, says fmt m tr event args msg.
Proof.
  intros Ht. destruct args as [|a args]; [eexists; constructor|]. destruct (argument_total m tr event a Ht) as (o & Ho).
  assert (Hws : exists ws, Forall2 (argument m tr event) args ws).
  { clear Ho. induction args as [|b args (ws & IH)]; [by exists []|]. destruct (argument_total m tr event b Ht) as (o' & Ho'). exists (o' :: ws). by constructor. }
  destruct Hws as (ws & Hws). destruct o as [w|]; eexists; [by apply says_key|by apply says_no_key].
Qed.

Section total.
  Context (fmt : f64 -> string) (m : json) (tr : Transformers) (Ht : transformers_total tr).

  Lemma emit_ok n e h ev s : exists s', emit fmt m tr n e h ev s = Ok s'.
  Proof. apply emit_total. intros args _. by apply says_total. Qed.
  Lemma emit_mouse_ok n e h s : exists s', emit_mouse fmt m tr n e h s = Ok s'.
  Proof. apply emit_ok. Qed.
  Lemma when_drag_ok n e h s : exists s', when_drag s (emit_mouse fmt m tr n e h) = Ok s'.
  Proof. unfold when_drag. destruct (ev_drag s); [apply emit_mouse_ok|by eexists]. Qed.
  Lemma element_ok t n : is_Some (get_ctx t n) -> exists e, get_element t n = Ok e.
  Proof. intros [e He]. exists e. by apply get_element_ctx. Qed.
  Lemma put_some n e f t k : get_ctx t n = Some e -> is_Some (get_ctx t k) -> is_Some (get_ctx (put_element n (set_state f e) t) k).
  Proof. intros H. apply sbs_some. by apply put_state_sbs. Qed.
  (** every node of the two lists and the named ones is there *)
  Definition there (t : Tree) (l : list NodeId) : Prop := forall n, n ∈ l -> is_Some (get_ctx t n).
  Lemma there_sbs t t' l : same_but_state t t' -> there t l -> there t' l.
  Proof. intros H Hl n Hn. eapply sbs_some; [done|]. by apply Hl. Qed.

  Lemma fold_ok (f : ST -> NodeId -> res ST) (P : Session -> Prop) l :
    (forall s t n, P s -> is_Some (get_ctx t n) -> exists s' t', f (s, t) n = Ok (s', t') /\ P s' /\ same_but_state t t') ->
    forall s t, P s -> there t l -> exists s' t', foldR f (s, t) l = Ok (s', t') /\ P s' /\ same_but_state t t'.
  Proof.
    intros Hf. induction l as [|n l IH]; intros s t Hs Hl; cbn [foldR]; [exists s, t; split; [done|]; split; [done|apply sbs_refl]|].
    destruct (Hf s t n Hs) as (s1 & t1 & H1 & P1 & B1); [apply Hl; by left|]. rewrite H1. cbn [bindR].
    destruct (IH s1 t1 P1) as (s2 & t2 & H2 & P2 & B2). { eapply there_sbs; [exact B1|]. intros k Hk. apply Hl. by right. }
    exists s2, t2. split; [done|]. split; [done|]. by eapply sbs_trans.
  Qed.
  Lemma leave_ok s t n : is_Some (get_ctx t n) -> exists s' t', leave_node fmt m tr (s, t) n = Ok (s', t') /\ same_but_state t t'.
  Proof.
    intros [e He]. assert (Hx : exists st', leave_node fmt m tr (s, t) n = Ok st').
    { unfold leave_node. destruct (memb _ _); [by eexists|]. rewrite (proj2 (get_element_ctx _ _ _) He). cbn [bindR].
      edestruct emit_mouse_ok as (s1 & ->). cbn [bindR]. edestruct when_drag_ok as (s2 & ->). by eexists. }
    destruct Hx as ([s' t'] & Hx). exists s', t'. split; [done|]. exact (leave_sbs _ _ _ _ _ _ Hx).
  Qed.
  Lemma move_ok P s t n : is_Some (get_ctx t n) -> exists s' t', move_node fmt m tr P (s, t) n = Ok (s', t') /\ same_but_state t t'.
  Proof.
    intros [e He]. assert (Hx : exists st', move_node fmt m tr P (s, t) n = Ok st').
    { unfold move_node. match goal with |- context [bindR ?r _] => assert (Hr : exists s1 t1, r = Ok (s1, t1) /\ is_Some (get_ctx t1 n)) end.
      { destruct (memb _ _); [eexists _, _; split; [done|by exists e]|]. rewrite (proj2 (get_element_ctx _ _ _) He). cbn [bindR].
        edestruct emit_mouse_ok as (s1 & ->). cbn [bindR]. edestruct when_drag_ok as (s2 & ->). cbn [bindR]. eexists _, _. split; [done|]. eapply put_some; [exact He|by exists e]. }
      destruct Hr as (s1 & t1 & -> & [e1 He1]). cbn [bindR]. rewrite (proj2 (get_element_ctx _ _ _) He1). cbn [bindR].
      edestruct emit_mouse_ok as (s2 & ->). cbn [bindR]. edestruct when_drag_ok as (s3 & ->). by eexists. }
    destruct Hx as ([s' t'] & Hx). exists s', t'. split; [done|]. exact (move_sbs _ _ _ _ _ _ _ Hx).
  Qed.
  Lemma blur_ok f s t : is_Some (get_ctx t f) -> exists s' t', blur fmt m tr f (s, t) = Ok (s', t').
  Proof. intros [e He]. unfold blur. rewrite (proj2 (get_element_ctx _ _ _) He). cbn [bindR]. edestruct emit_mouse_ok as (s1 & ->). by eexists _, _. Qed.
  Lemma press_ok b s t n : inv (s, t) -> is_Some (get_ctx t n) -> exists s' t', press_node fmt m tr b (s, t) n = Ok (s', t').
  Proof.
    intros Hi [e He]. unfold press_node. rewrite (proj2 (get_element_ctx _ _ _) He). cbn [bindR]. set (e1 := set_state _ e). set (t1 := put_element n e1 t).
    assert (Hs1 : same_but_state t t1) by by apply put_state_sbs.
    assert (Hf : forall f, ev_focus s = Some f -> is_Some (get_ctx t f)).
    { intros f Hf. assert (focused t f) as (e2 & H2 & _). { apply (focus_in _ f Hi). exact Hf. } by exists e2. }
    match goal with |- context [bindR ?r _] => assert (Hr : exists s1 t2, r = Ok (s1, t2) /\ same_but_state t t2) end.
    { destruct (e_listeners e1 !! "oninput"); [|by eexists _, _]. cbn [ev_focus set].
      match goal with |- context [bindR ?r _] => assert (Hr : exists s1 t2, r = Ok (s1, t2) /\ same_but_state t t2) end.
      { change (ev_focus (s <| ev_action ::= fun l => l ++ [n] |>)) with (ev_focus s). destruct (ev_focus s) as [f|] eqn:Ef; [|by eexists _, _]. destruct (Nat.eqb f n); [by eexists _, _|].
        destruct (blur_ok f (s <| ev_action ::= fun l => l ++ [n] |>) t1) as (s2 & t2 & H2). { eapply sbs_some; [exact Hs1|by apply Hf]. }
        rewrite H2. eexists _, _. split; [done|]. eapply sbs_trans; [exact Hs1|]. exact (blur_sbs _ _ _ _ _ _ H2). }
      destruct Hr as (s2 & t2 & -> & Hs2). cbn [bindR]. destruct (ev_focus s2); [destruct (Nat.eqb _ _); by eexists _, _|].
      destruct (sbs_some _ _ n Hs2) as [e2 He2]; [by exists e|]. rewrite (proj2 (get_element_ctx _ _ _) He2). cbn [bindR]. edestruct emit_mouse_ok as (s3 & ->). cbn [bindR].
      eexists _, _. split; [done|]. eapply sbs_trans; [exact Hs2|]. by apply put_state_sbs. }
    destruct Hr as (s1 & t2 & -> & Hs2). cbn [bindR]. destruct (sbs_some _ _ n Hs2) as [e2 He2]; [by exists e|]. rewrite (proj2 (get_element_ctx _ _ _) He2). cbn [bindR].
    edestruct emit_mouse_ok as (s3 & ->). cbn [bindR]. destruct (_ && _); [|by eexists _, _]. edestruct emit_mouse_ok as (s4 & ->). by eexists _, _.
  Qed.
  Lemma release_ok b s t n : inv (s, t) -> is_Some (get_ctx t n) -> exists s' t', release_node fmt m tr b (s, t) n = Ok (s', t').
  Proof.
    intros Hi [e He]. unfold release_node. rewrite (proj2 (get_element_ctx _ _ _) He). cbn [bindR]. destruct (emit_mouse_ok n e "onmouseup" s) as (s1 & H1). rewrite H1. cbn [bindR].
    apply emit_mouse_effect in H1 as ((_ & _ & _ & Q4 & _) & _). rewrite Q4. destruct (ev_drag s) as [source|] eqn:Ed.
    - destruct (e_listeners e !! "ondrop"); [|by eexists _, _]. edestruct emit_mouse_ok as (s2 & ->). cbn [bindR].
      destruct (iv_drag _ Hi) as (Hsrc & _). cbn [fst snd] in Hsrc. destruct (Hsrc _ Ed) as [e2 He2]. rewrite (proj2 (get_element_ctx _ _ _) He2). cbn [bindR].
      edestruct emit_mouse_ok as (s3 & ->). by eexists _, _.
    - assert (Ha : exists s2, (if is_left b && st_active (e_state e) then emit_mouse fmt m tr n e "onclick" s1 else Ok s1) = Ok s2). { destruct (_ && _); [apply emit_mouse_ok|by eexists]. }
      destruct Ha as (s2 & ->). cbn [bindR]. assert (Hb : exists s3, (if is_right b then emit_mouse fmt m tr n e "oncontextmenu" s2 else Ok s2) = Ok s3). { destruct (is_right b); [apply emit_mouse_ok|by eexists]. }
      destruct Hb as (s3 & ->). by eexists _, _.
  Qed.
  Lemma press_all_ok b l : forall s t, inv (s, t) -> there t l -> exists s' t', foldR (press_node fmt m tr b) (s, t) l = Ok (s', t').
  Proof.
    induction l as [|n l IH]; intros s t Hi Hl; cbn [foldR]; [by eexists _, _|]. destruct (press_ok b s t n Hi) as (s1 & t1 & H1); [apply Hl; by left|].
    rewrite H1. cbn [bindR]. pose proof (press_sbs _ _ _ _ _ _ _ H1) as Hs. apply press_effect in H1 as (_ & _ & Hi1); [|done]. apply IH; [done|]. eapply there_sbs; [exact Hs|]. intros k Hk. apply Hl. by right.
  Qed.
  Lemma release_all_ok b l : forall s t, inv (s, t) -> there t l -> exists s', foldR (release_node fmt m tr b) (s, t) l = Ok (s', t).
  Proof.
    induction l as [|n l IH]; intros s t Hi Hl; cbn [foldR]; [by eexists|]. destruct (release_ok b s t n Hi) as (s1 & t1 & H1); [apply Hl; by left|].
    rewrite H1. cbn [bindR]. apply release_effect in H1 as (_ & -> & _ & Hi1); [|done]. apply IH; [done|]. intros k Hk. apply Hl. by right.
  Qed.
  Lemma deactivate_all_ok l : forall t, there t l -> exists t', foldR deactivate_node t l = Ok t'.
  Proof.
    induction l as [|n l IH]; intros t Hl; cbn [foldR]; [by eexists|]. destruct (Hl n) as [e He]; [by left|]. unfold deactivate_node. rewrite (proj2 (get_element_ctx _ _ _) He). cbn [bindR].
    apply IH. intros k Hk. eapply put_some; [exact He|]. apply Hl. by right.
  Qed.
  Lemma under_there s t : inv (s, t) -> there t (ev_under s).
  Proof. intros Hi n Hn. apply (hover_in _ n Hi) in Hn as (e & He & _). by exists e. Qed.
  Lemma action_there s t : inv (s, t) -> there t (ev_action s).
  Proof. intros Hi n Hn. apply (active_in _ n Hi) in Hn as (e & He & _). by exists e. Qed.
  Lemma there_rev t l : there t l -> there t (rev l).
  Proof. intros H n Hn. rewrite elem_of_rev_ in Hn. by apply H. Qed.

  Lemma event_ok depth ev s t : inv (s, t) -> 1 < t_next t -> t_next t <= depth -> exists st', handle_event fmt depth m tr 1 (s, t) ev = Ok st'.
  Proof.
    intros Hi H1 Hd. pose proof (under_there _ _ Hi) as Hu. destruct ev as [|p|b|b|w|k|k|c]; cbn [handle_event]; try by eexists.
    - unfold on_move. destruct (hits_total _ _ (iv_live _ Hi) p depth 1) as (u & Hh); [cbn; lia|cbn; lia|]. cbn [snd] in Hh. rewrite Hh. cbn [bindR].
      destruct (fold_ok (leave_node fmt m tr) (fun _ => True) (rev (ev_under s))) with (s := s <| ev_under := u |>) (t := t) as (s1 & t1 & -> & _ & B1).
      { intros s1 t1 n _ Hn. destruct (leave_ok s1 t1 n Hn) as (s2 & t2 & ? & ?). by exists s2, t2. }
      { done. } { by apply there_rev. } cbn [bindR].
      destruct (fold_ok (move_node fmt m tr (ev_under s)) (fun _ => True) (rev u)) with (s := s1) (t := t1) as (s2 & t2 & -> & _).
      { intros s2 t2 n _ Hn. destruct (move_ok (ev_under s) s2 t2 n Hn) as (s3 & t3 & ? & ?). by exists s3, t3. }
      { done. }
      { apply there_rev. eapply there_sbs; [exact B1|]. destruct (hits_order _ _ _ _ _ Hh) as (all & _ & ->). intros n Hn. apply elem_of_list_filter in Hn as ((e & He & _) & _). by exists e. }
      by eexists.
    - unfold on_down.
      assert (Hb : exists s1 t1, (match ev_focus s with Some focus => if memb focus (ev_under s) then Ok (s, t) else blur fmt m tr focus (s, t) | None => Ok (s, t) end) = Ok (s1, t1) /\ inv (s1, t1) /\ same_but_state t t1 /\ ev_under s1 = ev_under s).
      { destruct (ev_focus s) as [f|] eqn:Ef; [|eexists _, _; split; [done|]; split; [done|]; split; [apply sbs_refl|done]].
        destruct (memb f (ev_under s)); [eexists _, _; split; [done|]; split; [done|]; split; [apply sbs_refl|done]|].
        destruct (blur_ok f s t) as (s1 & t1 & Hb). { assert (focused t f) as (e2 & H2 & _). { apply (focus_in _ f Hi). exact Ef. } by exists e2. }
        pose proof (blur_sbs _ _ _ _ _ _ Hb) as Hbs. rewrite Hb. apply blur_effect in Hb as (Q & _ & Hi1); [|done|done]. injection Q as _ Q _ _ _. eexists _, _. split; [done|]. split; [done|]. split; [exact Hbs|done]. }
      destruct Hb as (s1 & t1 & -> & Hi1 & Hs1 & Eu). cbn [bindR].
      destruct (press_all_ok b (rev (ev_under s1)) s1 t1 Hi1) as (s2 & t2 & ->). { apply there_rev. by apply under_there. } by eexists.
    - unfold on_up. cbn [fst]. destruct (release_all_ok b (rev (ev_under s)) s t Hi (there_rev _ _ Hu)) as (s1 & H2). rewrite H2. cbn [bindR].
      apply release_fold in H2 as (Q & _ & _ & Hi1); [|done]. destruct (deactivate_all_ok (ev_action s1) t (action_there _ _ Hi1)) as (t2 & ->). by eexists.
    - unfold on_key. destruct (ev_focus s) as [f|] eqn:Ef; [|by eexists]. assert (focused t f) as (e & He & _). { apply (focus_in _ f Hi). exact Ef. }
      rewrite (proj2 (get_element_ctx _ _ _) He). cbn [bindR]. edestruct emit_ok as (s1 & ->). by eexists.
    - unfold on_key. destruct (ev_focus s) as [f|] eqn:Ef; [|by eexists]. assert (focused t f) as (e & He & _). { apply (focus_in _ f Hi). exact Ef. }
      rewrite (proj2 (get_element_ctx _ _ _) He). cbn [bindR]. edestruct emit_ok as (s1 & ->). by eexists.
    - unfold on_key. destruct (ev_focus s) as [f|] eqn:Ef; [|by eexists]. assert (focused t f) as (e & He & _). { apply (focus_in _ f Hi). exact Ef. }
      rewrite (proj2 (get_element_ctx _ _ _) He). cbn [bindR]. edestruct emit_ok as (s1 & ->). by eexists.
  Qed.
  Lemma events_ok depth evs : forall s t, inv (s, t) -> 1 < t_next t -> t_next t <= depth -> exists st', foldR (handle_event fmt depth m tr 1) (s, t) evs = Ok st'.
  Proof.
    induction evs as [|ev evs IH]; intros s t Hi H1 Hd; cbn [foldR]; [by eexists|]. destruct (event_ok depth ev s t Hi H1 Hd) as ([s1 t1] & H). rewrite H. cbn [bindR].
    pose proof (handle_event_sbs _ _ _ _ _ _ _ _ H) as [Hn _]. cbn [snd] in Hn. apply event_inv in H; [|done]. apply IH; [done|congruence|congruence].
  Qed.
End total.

Lemma input_total X fuel doc css hist v steps i x m t ids : session_of X fuel doc css hist v steps -> transformers_total (x_transformers X) ->
  prepare X fuel v i x = Ok (m, t, ids) -> exists v1 o, update X fuel v i x = Ok (v1, o).
Proof.
  intros Hs Ht Hp. destruct (session_ok _ _ _ _ _ _ _ Hs) as (Hr & _ & _ & Hb & _). unfold update. rewrite Hp. cbn [bindR].
  destruct (prepare_live _ _ _ _ _ _ _ _ (rd_sound _ _ Hr) Hp) as (Hl & Hd). pose proof (prepare_ss _ _ _ _ _ _ _ _ Hp) as Hss.
  rewrite (rd_tr _ _ Hr), Hb. unfold handle_output.
  destruct (match last_move (in_events i) None with Some p => (v_session v <| ev_mouse := p |>, in_events i) | None => (v_session v, IMouseMove (ev_mouse (v_session v)) :: in_events i) end) as [s evs] eqn:E.
  assert (Hi : inv (s <| ev_output := output_new |>, t)).
  { eapply ss_inv; [exact (rd_inv _ _ Hr)|exact Hss|done|]. destruct (last_move (in_events i) None); injection E as <- _; done. }
  assert (Hn : 1 < t_next t). { destruct Hd as [Hd _]. rewrite <- Hd. exact (rd_next _ _ Hr). }
  assert (Hdep : t_next t <= tree_depth t) by (unfold tree_depth; lia).
  destruct (events_ok (x_fmt_f64 X) m (x_transformers X) Ht (tree_depth t) evs _ _ Hi Hn Hdep) as ([s1 t1] & Hh).
  unfold handle_elements_input. rewrite Hh. cbn [bindR]. by eexists _, _.
Qed.

(** ** The order of delivery: innermost first *)
Lemma bubbling X fuel doc css hist v steps i x t pre sp post p U b : session_of X fuel doc css hist v steps ->
  input_steps X fuel v i x t (pre ++ sp :: post) -> list.last (moves (map sp_event pre)) = Some p -> elements_under t (v_body v) p U ->
  sp_event sp = IMouseButtonUp b -> no_drag (steps ++ pre) ->
  exists ls, Forall2 (release_of b (tree_of (sp_before sp))) (rev U) ls /\ calls sp = List.concat ls.
Proof.
  intros Hs Hin Hp HU Ev Hnd. destruct (update_at _ _ _ _ _ _ _ _ _ _ _ _ _ Hs Hin) as (Hok & Hsb & Hlog & Hu). specialize (Hu _ Hp).
  destruct (session_ok _ _ _ _ _ _ _ Hs) as (_ & _ & _ & Hb & _). rewrite Hb in HU. pose proof (elements_det _ _ _ _ _ HU Hu) as EU. clear HU Hu.
  pose proof (step_does _ _ Hok) as H. destruct Hok as (Hi & Hi' & _). unfold step_session in H. rewrite Ev in H. destruct H as (_ & H).
  unfold no_drag in Hnd. rewrite <- Hlog in Hnd. apply (drag_log _ None Hi) in Hnd. rewrite Hnd, up_none, <- EU in H.
  destruct (release_none (tree_of (sp_before sp)) b (rev U)) as (ls & H1 & H2). exists ls. split; [done|]. rewrite H. exact H2.
Qed.
Lemma drop_to_innermost X fuel doc css hist v steps i x t pre sp post p U source target : session_of X fuel doc css hist v steps ->
  input_steps X fuel v i x t (pre ++ sp :: post) -> list.last (moves (map sp_event pre)) = Some p -> elements_under t (v_body v) p U ->
  is_up sp -> dragging (steps ++ pre) source -> first_of (fun n => listens t n "ondrop") (rev U) (Some target) ->
  forall n, (n, "ondrop") ∈ calls sp <-> n = target.
Proof.
  intros Hs Hin Hp HU (b & Ev) Hnd Hf n. destruct (update_at _ _ _ _ _ _ _ _ _ _ _ _ _ Hs Hin) as (Hok & Hsb & Hlog & Hu). specialize (Hu _ Hp).
  destruct (session_ok _ _ _ _ _ _ _ Hs) as (_ & _ & _ & Hb & _). rewrite Hb in HU. pose proof (elements_det _ _ _ _ _ HU Hu) as EU. clear HU Hu.
  pose proof (step_does _ _ Hok) as H. destruct Hok as (Hi & Hi' & _). unfold step_session in H. rewrite Ev in H. destruct H as (_ & H).
  unfold dragging in Hnd. rewrite <- Hlog in Hnd. apply (drag_log _ (Some source) Hi) in Hnd. rewrite H, Hnd, <- EU.
  apply drop_innermost. by eapply first_sbs.
Qed.
(** moving: leaves from the inside out, then enters and moves from the inside out *)
Lemma move_in_order X fuel doc css hist v steps i x t pre sp post p U : session_of X fuel doc css hist v steps ->
  input_steps X fuel v i x t (pre ++ sp :: post) -> sp_event sp = IMouseMove p -> elements_under t (v_body v) p U -> no_drag (steps ++ pre) ->
  exists left_, (forall n, n ∈ left_ <-> hovered (tree_of (sp_before sp)) n /\ n ∉ U) /\ NoDup left_ /\ NoDup U /\
  exists ls, Forall2 (fun n l => (hovered (tree_of (sp_before sp)) n /\ l = [(n, "onmousemove")]) \/ (~ hovered (tree_of (sp_before sp)) n /\ l = [(n, "onmouseenter"); (n, "onmousemove")])) (rev U) ls /\
    calls sp = map (fun n => (n, "onmouseleave")) left_ ++ List.concat ls.
Proof.
  intros Hs Hin Ev HU Hnd. destruct (update_at _ _ _ _ _ _ _ _ _ _ _ _ _ Hs Hin) as (Hok & Hsb & Hlog & _).
  destruct (session_ok _ _ _ _ _ _ _ Hs) as (_ & _ & _ & Hb & _). rewrite Hb in HU.
  pose proof (step_does _ _ Hok) as H. destruct Hok as (Hi & Hi' & _). unfold step_session in H. rewrite Ev in H. destruct H as (Hu & _ & H).
  apply (sbs_elements _ _ _ _ _ Hsb) in HU. pose proof (elements_det _ _ _ _ _ HU Hu) as EU. rewrite <- EU in H. clear Hu.
  unfold no_drag in Hnd. rewrite <- Hlog in Hnd. apply (drag_log _ None Hi) in Hnd. pose proof (fun n => hover_in _ n Hi) as Hh. destruct (iv_hover _ Hi) as (Hnu & _). cbn [fst snd] in Hnu.
  set (s := fst (sp_before sp)) in *. exists (filter (fun n => n ∉ U) (rev (ev_under s))).
  split; [intros n; rewrite elem_of_list_filter, elem_of_rev_, Hh; tauto|]. split; [apply list.NoDup_filter; by apply NoDup_rev_|].
  split. { rewrite EU. destruct (iv_hover _ Hi') as (Hnu' & _). exact Hnu'. }
  exists (map (move_calls s (ev_under s)) (rev U)). split.
  - clear H. induction (rev U) as [|n l IH]; cbn; constructor; [|done]. unfold move_calls, drag_call. rewrite Hnd. destruct (decide (n ∈ ev_under s)) as [Hx|Hx]; [left|right]; (split; [by rewrite Hh|done]).
  - rewrite H. f_equal.
    + clear H. induction (rev (ev_under s)) as [|n l IH]; [done|]. cbn [flat_map]. rewrite filter_cons. unfold leave_calls at 1, drag_call. rewrite Hnd.
      destruct (decide (n ∈ U)) as [Hx|Hx]; [rewrite decide_False by tauto; exact IH|]. rewrite decide_True by done. cbn [map app]. by rewrite IH.
    + by rewrite flat_map_concat_map.
Qed.
