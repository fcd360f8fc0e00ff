(** * Animations and transitions on a page. *)
From Coq Require Import ZArith Lia Reals Lra.
From stdpp Require Import gmap.
From RecordUpdate Require Import RecordUpdate.
From Flocq Require Import Core.Core IEEE754.BinarySingleNaN.
From Verif Require Import Str StrFacts F32 Res ResFacts Json PropKey Html Css Element Tree ViewModel Render Update Matching
  Cascade Initial Animation Apply Styling Events View
  SpecLive SpecLog SpecView SpecRender SpecTree SpecEvents FrameFacts EventFacts EventFrame
  RenderTree RenderNode RenderProps RenderAny RenderMore LiveFacts LiveUpdate LiveView LiveHistory LiveOrder
  SpecSelect SelectFacts SelectLive SelectFresh SpecStyle SpecShow SpecPage ApplyFacts ShowFacts CascadeFacts AnimationFacts StyleTrace StyleView StylePage
  SpecAnim AnimFloat AnimProps FrameProps BlendProps SpecMove.
Close Scope R_scope.

(** ** One frame of the animations *)
Lemma play_animated fuel css time vars : forward_css css -> forall l done s r s', Forall (on_course fuel time) l ->
  foldR (fun '(done, s) a =>
      match css_animations css !! a_name a with
      | None => Ok (done ++ [a], s)
      | Some an =>
          do! tracks <- compute_animation_tracks fuel vars an s;
          do! (a, s) <- animator_play fuel time tracks a s;
          Ok (done ++ [a], s)
      end) (done, s) l = Ok (r, s') -> exists l', r = done ++ l' /\ animated fuel css time vars l s l' s'.
Proof.
  intros Hf. induction l as [|a l IH]; intros don s r s' Hc H; cbn [foldR] in H.
  - injection H as <- <-. exists []. split; [by rewrite app_nil_r|constructor].
  - inversion Hc as [|? ? Ha Hl]; subst. apply bindR_Ok in H as ([d1 s1] & H1 & H). destruct (css_animations css !! a_name a) as [an|] eqn:E.
    + apply bindR_Ok in H1 as (trs & Htr & H1). apply bindR_Ok in H1 as ([a1 s2] & H1 & [= <- <-]).
      destruct (IH _ _ _ _ Hl H) as (l' & -> & Hl'). exists (a1 :: l'). split; [by rewrite <- app_assoc|].
      pose proof H1 as Hp. unfold animator_play in H1. apply bindR_Ok in H1 as ([a2 [x|]] & Hu & H1).
      * destruct (Ha _ _ Hu) as [Fx Rx]. destruct (playing_shows _ _ _ _ _ _ _ _ _ (Hf _ _ E) Htr Hu Fx Rx) as (stops & s3 & Hst & Hpl & P1 & P2).
        assert (Hq : Ok (a2, s3) = Ok (a1, s2)) by (etransitivity; [symmetry; exact Hpl|exact Hp]). injection Hq as -> ->.
        eapply animated_plays; [exact E|exact Hu|exact Hst|split; [exact P1|exact P2]|exact Hl'].
      * injection H1 as <- <-. eapply animated_waits; [exact E|exact Hu|exact Hl'].
    + injection H1 as <- <-. destruct (IH _ _ _ _ Hl H) as (l' & -> & Hl'). exists (a :: l'). split; [by rewrite <- app_assoc|]. by apply animated_unknown.
Qed.
Lemma animators_animated fuel css time vars l s r s' : forward_css css -> Forall (on_course fuel time) l ->
  play_animators fuel css time vars (l, s) = Ok (r, s') -> animated fuel css time vars l s r s'.
Proof. intros Hf Hc H. unfold play_animators in H. cbn [fst snd] in H. by destruct (play_animated _ _ _ _ Hf _ _ _ _ _ Hc H) as (l' & -> & Hl'). Qed.

(** the clocks alone *)
Definition ticks (fuel : nat) (css : Css) (time : f32) (a a' : Animator) : Prop :=
  match css_animations css !! a_name a with None => a' = a | Some _ => exists x, animator_update fuel time a = Ok (a', x) end.
Lemma play_ticks fuel css time vars : forall l done s r s',
  foldR (fun '(done, s) a =>
      match css_animations css !! a_name a with
      | None => Ok (done ++ [a], s)
      | Some an =>
          do! tracks <- compute_animation_tracks fuel vars an s;
          do! (a, s) <- animator_play fuel time tracks a s;
          Ok (done ++ [a], s)
      end) (done, s) l = Ok (r, s') -> exists l', r = done ++ l' /\ Forall2 (ticks fuel css time) l l'.
Proof.
  induction l as [|a l IH]; intros don s r s' H; cbn [foldR] in H.
  - injection H as <- <-. exists []. split; [by rewrite app_nil_r|constructor].
  - apply bindR_Ok in H as ([d1 s1] & H1 & H). destruct (css_animations css !! a_name a) as [an|] eqn:E.
    + apply bindR_Ok in H1 as (trs & Htr & H1). apply bindR_Ok in H1 as ([a1 s2] & H1 & [= <- <-]).
      destruct (IH _ _ _ _ H) as (l' & -> & Hl'). exists (a1 :: l'). split; [by rewrite <- app_assoc|]. constructor; [|exact Hl'].
      unfold ticks. rewrite E. unfold animator_play in H1. apply bindR_Ok in H1 as ([a2 [x|]] & Hu & H1).
      * apply bindR_Ok in H1 as (s3 & _ & [= <- <-]). eauto.
      * injection H1 as <- <-. eauto.
    + injection H1 as <- <-. destruct (IH _ _ _ _ H) as (l' & -> & Hl'). exists (a :: l'). split; [by rewrite <- app_assoc|]. constructor; [|exact Hl']. unfold ticks. by rewrite E.
Qed.
Lemma animators_tick fuel css time vars l s r s' : play_animators fuel css time vars (l, s) = Ok (r, s') -> Forall2 (ticks fuel css time) l r.
Proof. intros H. unfold play_animators in H. cbn [fst snd] in H. by destruct (play_ticks _ _ _ _ _ _ _ _ _ H) as (l' & -> & Hl'). Qed.
Lemma after_settings t a : settings (after_frame t a) = settings a.
Proof. unfold after_frame. by destruct (_ && _). Qed.
Lemma tick_settings fuel css time a a' : ticks fuel css time a a' -> settings a' = settings a.
Proof. unfold ticks. destruct (css_animations css !! a_name a); [|by intros ->]. intros [x Hx]. apply update_frame in Hx as [-> _]. apply after_settings. Qed.
Lemma same_animator a b : settings a = settings b -> a_time a = a_time b -> a = b.
Proof. destruct a, b. unfold settings, set. cbn. intros [= -> -> -> -> -> -> -> ->] ->. done. Qed.

(** ** Transitions *)
Lemma play_transited fuel time tn s tn1 s1 l l' s' : single s -> (forall key, t_key tn = Some key -> listed key = false) ->
  transition_play fuel time tn s = Ok (tn1, s1) -> transited fuel time l s1 l' s' -> transited fuel time (tn :: l) s (tn1 :: l') s'.
Proof.
  intros Hs Hk H Ht. destruct (t_key tn) as [key|] eqn:E.
  2:{ unfold transition_play in H. rewrite E in H. injection H as <- <-. by apply transited_unnamed. }
  assert (H1 : s !! (key, 1) = None). { destruct (s !! (key, 1)) as [w|] eqn:E1; [|done]. destruct (Hs _ _ _ E1) as [Hx|Hx]; [|discriminate Hx]. by rewrite (Hk key eq_refl) in Hx. }
  destruct (s !! (key, 0)) as [v|] eqn:Ev.
  2:{ unfold transition_play in H. rewrite E in H. apply bindR_Ok in H as ([a [x|]] & Hu & H).
      - cbn [play_loop] in H. rewrite Ev in H. injection H as <- <-. by eapply transited_ungiven.
      - injection H as <- <-. by eapply transited_waits. }
  destruct (t_range tn) as [[from to]|] eqn:Er.
  2:{ unfold transition_play in H. rewrite E in H. apply bindR_Ok in H as ([a [x|]] & Hu & H).
      - cbn [play_loop] in H. rewrite Ev in H. unfold set in H. cbn [t_range] in H. rewrite Er in H. discriminate H.
      - injection H as <- <-. by eapply transited_waits. }
  rewrite (play_single fuel time tn key from to v s (conj E Er) (conj Ev H1)) in H. apply bindR_Ok in H as ([a [x|]] & Hu & H); [|injection H as <- <-; by eapply transited_waits].
  cbv zeta in H. injection H as <- <-. eapply (transited_moves _ _ key from to); [exact (conj E Er)|exact Hu|exact Ev| | | |exact Ht].
  - unfold SpecAnim.shown_value. destruct (cv_eq (animate from to x) v); [right; split; [exact Ev|done]|left]. exact (lookup_insert s (key, 0) _).
  - intros d Hd. destruct (cv_eq (animate from to x) v); [done|]. exact (lookup_insert_ne s (key, 0) d _ ltac:(congruence)).
  - unfold retargeted. destruct (cv_eq to v); done.
Qed.
Lemma transitions_transited fuel time : forall l done s r s', single s -> single_movers l ->
  foldR (fun '(done, s) tn => do! (tn, s) <- transition_play fuel time tn s; Ok (done ++ [tn], s)) (done, s) l = Ok (r, s') ->
  exists l', r = done ++ l' /\ transited fuel time l s l' s'.
Proof.
  induction l as [|tn l IH]; intros don s r s' Hs Hm H; cbn [foldR] in H.
  - injection H as <- <-. exists []. split; [by rewrite app_nil_r|constructor].
  - inversion Hm as [|? ? Hk Hl]; subst. apply bindR_Ok in H as ([d1 s1] & H1 & H). apply bindR_Ok in H1 as ([tn1 s2] & H1 & [= <- <-]).
    assert (Hs2 : single s2).
    { unfold transition_play in H1. destruct (t_key tn) as [key|]; [|by injection H1 as <- <-]. apply bindR_Ok in H1 as ([a x] & _ & H1).
      destruct x as [x|]; [|by injection H1 as <- <-]. by eapply play_loop_single. }
    destruct (IH _ _ _ _ Hs2 Hl H) as (l' & -> & Hl'). exists (tn1 :: l'). split; [by rewrite <- app_assoc|]. by eapply play_transited.
Qed.
Lemma movers_transited fuel time l s r s' : single s -> single_movers l -> play_transitions fuel time l s = Ok (r, s') -> transited fuel time l s r s'.
Proof. intros Hs Hm H. unfold play_transitions in H. by destruct (transitions_transited _ _ _ _ _ _ _ Hs Hm H) as (l' & -> & Hl'). Qed.
Lemma play_loop_mover f key x : forall index tn s tn' s', play_loop f key x index tn s = Ok (tn', s') -> same_mover tn tn'.
Proof.
  induction f as [|f IH]; intros index tn s tn' s' H; cbn [play_loop] in H; [discriminate H|].
  destruct (s !! (key, index)) as [v|]; [|by injection H as <- <-]. destruct (t_range tn) as [[from to]|]; [|discriminate H]. cbv zeta in H.
  apply IH in H as [H1 H2]. unfold same_mover. rewrite H1, H2. by destruct (cv_eq to v).
Qed.
Lemma mover_kept fuel time tn s tn' s' : transition_play fuel time tn s = Ok (tn', s') -> same_mover tn tn'.
Proof.
  unfold transition_play. intros H. destruct (t_key tn) as [key|] eqn:E; [|by injection H as <- <-]. apply bindR_Ok in H as ([a x] & Hu & H).
  assert (Ha : same_mover tn (tn <| t_animator := a |>)). { split; [done|]. apply update_frame in Hu as [-> _]. exact (after_settings _ _). }
  destruct x as [x|]; [|by injection H as <- <-]. apply play_loop_mover in H as [H1 H2]. destruct Ha as [A1 A2]. split; congruence.
Qed.
Lemma transitions_kept fuel time : forall l done s r s',
  foldR (fun '(done, s) tn => do! (tn, s) <- transition_play fuel time tn s; Ok (done ++ [tn], s)) (done, s) l = Ok (r, s') ->
  exists l', r = done ++ l' /\ Forall2 same_mover l l'.
Proof.
  induction l as [|tn l IH]; intros don s r s' H; cbn [foldR] in H.
  - injection H as <- <-. exists []. split; [by rewrite app_nil_r|constructor].
  - apply bindR_Ok in H as ([d1 s1] & H1 & H). apply bindR_Ok in H1 as ([tn1 s2] & H1 & [= <- <-]).
    destruct (IH _ _ _ _ H) as (l' & -> & Hl'). exists (tn1 :: l'). split; [by rewrite <- app_assoc|]. constructor; [by eapply mover_kept|exact Hl'].
Qed.
Lemma movers_kept fuel time l s r s' : play_transitions fuel time l s = Ok (r, s') -> Forall2 same_mover l r.
Proof. intros H. unfold play_transitions in H. by destruct (transitions_kept _ _ _ _ _ _ _ H) as (l' & -> & Hl'). Qed.

(** ** What the looks see of them *)
Lemma settings_fields a b : settings a = settings b -> a_name a = a_name b /\ a_delay a = a_delay b /\ a_direction a = a_direction b /\ a_duration a = a_duration b /\
  a_fill_mode a = a_fill_mode b /\ a_timing a = a_timing b /\ a_iterations a = a_iterations b /\ a_running a = a_running b.
Proof. destruct a, b. unfold settings, set. cbn. intros [= -> -> -> -> -> -> -> ->]. done. Qed.
Lemma look_moved k i l (e : Element) an tr : Forall2 (fun a a' => settings a' = settings a) (e_animators e) an -> Forall2 same_mover (e_transitions e) tr ->
  look k i (l, set e_transitions (fun _ => tr) (set e_animators (fun _ => an) e)) = look k i (l, e).
Proof.
  intros Ha Ht. set (e' := set e_transitions (fun _ => tr) (set e_animators (fun _ => an) e)).
  assert (H1 : settings (animator_at i e') = settings (animator_at i e)).
  { unfold animator_at. change (e_animators e') with an. destruct (e_animators e !! i) as [a|] eqn:E1, (an !! i) as [b|] eqn:E2; try done.
    - cbn. exact (Forall2_lookup_lr _ _ _ _ _ _ Ha E1 E2).
    - exfalso. apply lookup_lt_Some in E1. apply lookup_ge_None in E2. apply Forall2_length in Ha. lia.
    - exfalso. apply lookup_lt_Some in E2. apply lookup_ge_None in E1. apply Forall2_length in Ha. lia. }
  assert (H2 : same_mover (transition_at i e) (transition_at i e')).
  { unfold transition_at. change (e_transitions e') with tr. destruct (e_transitions e !! i) as [a|] eqn:E1, (tr !! i) as [b|] eqn:E2; try done.
    - cbn. exact (Forall2_lookup_lr _ _ _ _ _ _ Ht E1 E2).
    - exfalso. apply lookup_lt_Some in E1. apply lookup_ge_None in E2. apply Forall2_length in Ht. lia.
    - exfalso. apply lookup_lt_Some in E2. apply lookup_ge_None in E1. apply Forall2_length in Ht. lia. }
  apply settings_fields in H1 as (F1 & F2 & F3 & F4 & F5 & F6 & F7 & F8). destruct H2 as [G1 G2]. apply settings_fields in G2 as (K1 & K2 & K3 & K4 & K5 & K6 & K7 & K8).
  destruct k; try reflexivity; cbn [look]; congruence.
Qed.

(** ** Applying a style keeps the clocks *)
Lemma update_at_length {A} n (d : A) f l : List.length l <= List.length (update_at n d f l).
Proof. unfold update_at. rewrite alter_length, ensure_len_spec, app_length. lia. Qed.
Definition keeps_time (st st' : LE) : Prop :=
  List.length (e_animators (snd st)) <= List.length (e_animators (snd st')) /\ (forall j, a_time (animator_at j (snd st')) = a_time (animator_at j (snd st))) /\
  forall j, a_time (t_animator (transition_at j (snd st'))) = a_time (t_animator (transition_at j (snd st))) /\ t_range (transition_at j (snd st')) = t_range (transition_at j (snd st)).
Lemma kt_refl st : keeps_time st st. Proof. done. Qed.
Lemma kt_trans a b c : keeps_time a b -> keeps_time b c -> keeps_time a c.
Proof. intros (L1 & A1 & T1) (L2 & A2 & T2). split; [lia|]. split; [intros j; congruence|]. intros j. destruct (T1 j), (T2 j). split; congruence. Qed.
Lemma set_an_kt n f st : (forall a, a_time (f a) = a_time a) -> keeps_time st (set_an n f st).
Proof.
  intros Hf. split; [|split].
  - destruct st as [l e]. exact (update_at_length n animator_default f (e_animators e)).
  - intros j. rewrite an_at_set. destruct (decide (j = n)); [apply Hf|done].
  - intros j. by destruct st.
Qed.
Lemma set_tr_kt n f st : (forall a, a_time (t_animator (f a)) = a_time (t_animator a) /\ t_range (f a) = t_range a) -> keeps_time st (set_tr n f st).
Proof.
  intros Hf. split; [by destruct st|]. split; [intros j; by destruct st|]. intros j. rewrite tr_at_set. destruct (decide (j = n)); [apply Hf|done].
Qed.
Lemma put_kt p src st : p <> PlTransitions -> p <> PlAnimators -> keeps_time st (put p src st).
Proof. intros H1 H2. destruct src as [l1 e1], st as [l e]. destruct p; try done. Qed.
Lemma apply_kt sizes k i v st : keeps_time st (apply sizes k i v st).
Proof.
  destruct (decide (place_of k = PlTransitions)) as [Hp|H1]; [|destruct (decide (place_of k = PlAnimators)) as [Hp|H2]].
  - destruct k; try discriminate Hp; cbn [apply]; (match goal with |- keeps_time _ (assign ?o _ _) => generalize o; intros [x|] end); cbn [assign]; try apply kt_refl; apply set_tr_kt; intros a; done.
  - destruct k; try discriminate Hp; cbn [apply]; (match goal with |- keeps_time _ (assign ?o _ _) => generalize o; intros [x|] end); cbn [assign]; try apply kt_refl; apply set_an_kt; intros a; done.
  - rewrite apply_within. by apply put_kt.
Qed.
Lemma apply_all_kt sizes ps : forall st, keeps_time st (apply_all sizes ps st).
Proof. induction ps as [|[[k i] v] ps IH]; intros st; [apply kt_refl|]. rewrite apply_all_cons. eapply kt_trans; [apply apply_kt|apply IH]. Qed.

(** ** One element *)
Lemma init_loop_range f key s : listed key = false -> single s -> forall tn tn', init_loop (S (S f)) key 0 s tn = Ok tn' ->
  t_animator tn' = t_animator tn /\ t_range tn' = match s !! (key, 0) with Some v => Some (v, v) | None => t_range tn end.
Proof.
  intros Hl Hs tn tn' H. assert (H1 : s !! (key, 1) = None). { destruct (s !! (key, 1)) as [w|] eqn:E1; [|done]. destruct (Hs _ _ _ E1) as [Hx|Hx]; [|discriminate Hx]. by rewrite Hl in Hx. }
  cbn [init_loop] in H. destruct (s !! (key, 0)) as [v|]; [|by injection H as <-]. rewrite H1 in H. by injection H as <-.
Qed.
Lemma init_time f key s : forall index tn tn', init_loop f key index s tn = Ok tn' -> t_animator tn' = t_animator tn.
Proof. intros index tn tn' H. by apply init_loop_keeps in H as [_ ->]. Qed.
Lemma init_range s tn tn' : single s -> init_after_style_applied s tn = Ok tn' ->
  t_animator tn' = t_animator tn /\ t_key tn' = t_key tn /\
  match t_range tn with
  | Some r => t_range tn' = Some r
  | None => forall key, t_key tn' = Some key -> listed key = false -> t_range tn' = match s !! (key, 0) with Some v => Some (v, v) | None => None end
  end.
Proof.
  intros Hs H. destruct (init_keeps _ _ _ H) as [H1 H2]. split; [exact H2|]. split; [exact H1|]. unfold init_after_style_applied in H. destruct (t_range tn) as [r|] eqn:Er; [by injection H as <-|].
  intros key Hk Hl. rewrite H1 in Hk. rewrite Hk in H. destruct (size s) as [|f] eqn:Ez.
  - apply (map_size_empty_inv (M := gmap Descriptor)) in Ez.
    assert (Ee : s !! (key, 0) = None) by (rewrite Ez; exact (lookup_empty (key, 0))). cbn [init_loop] in H. rewrite Ee in H. rewrite Ee. by injection H as <-.
  - apply (init_loop_range _ _ _ Hl Hs) in H as [_ ->]. by rewrite Er.
Qed.
Definition keeps_ends_at (m : list Transition) (s : ComputedStyle) (e : Element) : Prop :=
  forall i, a_time (t_animator (mover_of (e_transitions e) i)) = a_time (t_animator (mover_of m i)) /\
  match t_range (mover_of m i) with
  | Some r => t_range (mover_of (e_transitions e) i) = Some r
  | None => forall key, t_key (mover_of (e_transitions e) i) = Some key -> listed key = false ->
      t_range (mover_of (e_transitions e) i) = match s !! (key, 0) with Some v => Some (v, v) | None => None end
  end.
Lemma mapR_range s l l' : single s -> mapR (init_after_style_applied s) l = Ok l' -> forall j,
  t_animator (mover_of l' j) = t_animator (mover_of l j) /\
  match t_range (mover_of l j) with
  | Some r => t_range (mover_of l' j) = Some r
  | None => forall key, t_key (mover_of l' j) = Some key -> listed key = false -> t_range (mover_of l' j) = match s !! (key, 0) with Some v => Some (v, v) | None => None end
  end.
Proof.
  intros Hs H j. pose proof (mapR_lookup _ _ _ H j) as Hj. unfold mover_of. destruct (l !! j) as [a|], (l' !! j) as [b|]; try done. cbn.
  destruct (init_range _ _ _ Hs Hj) as (A & B & C). done.
Qed.
(** an element after a frame, whatever its rules are *)
Lemma cascade_ticks fuel debug css order time sizes vars n t pe layout e l' e' vars' :
  cascade_apply_styles fuel debug css order time sizes vars n t pe layout e = Ok (l', e', vars') ->
  exists l, Forall2 (ticks fuel css time) (e_animators e) l /\ List.length l <= List.length (e_animators e') /\ forall i, clock_of (e_animators e') i = clock_of l i.
Proof.
  intros H. rewrite cascade_computes in H. apply bindR_Ok in H as ([[[an tr] s] vars1] & Hc & H).
  unfold computes in Hc. apply bindR_Ok in Hc as ([vars2 s2] & H1 & Hc). apply bindR_Ok in Hc as ([vars3 s3] & H2 & Hc).
  apply bindR_Ok in Hc as ([an1 s4] & H3 & Hc). apply bindR_Ok in Hc as ([tr1 s5] & H4 & [= <- <- <- <-]).
  match type of H with context [apply_all ?a ?b ?c] => pose proof (apply_all_kt a b c) as Hkt; destruct (apply_all a b c) as [l1 e1] eqn:Eap end.
  apply bindR_Ok in H as (ts & Hts & [= <- <- <-]). exists an1. split; [exact (animators_tick _ _ _ _ _ _ _ _ H3)|].
  destruct Hkt as (K1 & K2 & _). cbn [snd] in *. split; [exact K1|]. intros i. exact (K2 i).
Qed.

Section element.
  Context (fuel : nat) (debug : bool) (css : Css) (order : ComputedStyle -> list (Descriptor * ComputedValue)) (time : f32) (t : Tree) (root n : NodeId).
  Context (e : Element) (He : get_ctx t n = Some e).
  Context (Hrules : forall st st', cascade_rules fuel debug n t (e_styles e) st = Ok st' ->
    exists ds, declared t root n (css_styles css) ds /\ compute_declaration_block fuel ds st = Ok st').
  Lemma cascade_moves sizes vars pe layout l' e' vars' ds :
    tidy_css css -> tidy_element e -> forward_css css -> (forall s, order s ≡ₚ map_to_list s) ->
    Forall (on_course fuel time) (e_animators e) -> single_movers (e_transitions e) -> declarations css t root n ds ->
    cascade_apply_styles fuel debug css order time sizes vars n t pe layout e = Ok (l', e', vars') ->
    exists s0 l s1 m s, given_style vars ds s0 /\ animated fuel css time (variables_after vars ds) (e_animators e) s0 l s1 /\ transited fuel time (e_transitions e) s1 m s /\
    (forall k i, listed k = true \/ i = 0 ->
      (forall v, s !! (k, i) = Some v -> look k i (l', e') = match SpecShow.meaning sizes k v with Some x => Some x | None => look k i (layout, inherit pe (reset_element_style e)) end) /\
      (s !! (k, i) = None -> look k i (l', e') = look k i (layout, inherit pe (reset_element_style e)))) /\
    (List.length l <= List.length (e_animators e') /\ forall i, clock_of (e_animators e') i = clock_of l i) /\ keeps_ends_at m s e'.
  Proof.
    intros Htc Hte Hfw Ho Hon Hsm Hds H. rewrite cascade_computes in H. apply bindR_Ok in H as ([[[an tr] s] vars1] & Hc & H).
    pose proof (computes_single _ _ _ _ _ _ _ _ _ _ _ _ Htc Hte Hc) as Hs.
    unfold computes in Hc. apply bindR_Ok in Hc as ([vars2 s2] & H1 & Hc). apply bindR_Ok in Hc as ([vars3 s3] & H2 & Hc).
    apply bindR_Ok in Hc as ([an1 s4] & H3 & Hc). apply bindR_Ok in Hc as ([tr1 s5] & H4 & [= <- <- <- <-]).
    destruct (Hrules _ _ H1) as (rs & Hd & Hb). assert (ds = rs ++ e_style e) as ->. { eapply declarations_fun; [exact Hds|]. by exists rs, e. }
    assert (Hall : compute_declaration_block fuel (rs ++ e_style e) (vars, ∅) = Ok (vars3, s3)) by (by rewrite block_app, Hb).
    destruct (block_wins _ _ _ _ _ _ Hall) as (Hva & W1 & W2 & W3).
    assert (Hs4 : single s4).
    { eapply animators_single; [exact Htc|exact H3|]. destruct Hte as [T1 T2]. apply (block_single _ _ _ _ T1 H2). apply (rules_single _ _ _ _ _ T2 _ _ H1). apply single_empty. }
    match type of H with context [apply_all ?a ?b ?c] => pose proof (apply_all_kt a b c) as Hkt; destruct (apply_all a b c) as [l1 e1] eqn:Eap end.
    apply bindR_Ok in H as (ts & Hts & [= <- <- <-]). cbn [snd] in Hkt. destruct Hkt as (K1 & K2 & K3).
    exists s3, an1, s4, tr1, s5. split; [|split; [|split; [|split; [|split]]]].
    - intros k i. split; [apply W1|]. intros Hu. etransitivity; [exact (W2 _ _ Hu)|exact (lookup_empty (k, i))].
    - rewrite <- Hva. by apply animators_animated.
    - by apply movers_transited.
    - intros k i Hki.
      assert (Hlook : look k i (l1, set e_transitions (fun _ => ts) e1) = look k i (l1, e1)).
      { pose proof (mapR_lookup _ _ _ Hts) as Hm. apply look_transitions; intros j; specialize (Hm j); destruct (e_transitions e1 !! j), (ts !! j); try done;
          apply init_keeps in Hm as [? ?]; cbn; congruence. }
      assert (Hb0 : look k i (layout, set e_transitions (fun _ => tr1) (set e_animators (fun _ => an1) (inherit pe (reset_element_style e)))) = look k i (layout, inherit pe (reset_element_style e))).
      { apply look_moved; [|exact (movers_kept _ _ _ _ _ _ H4)].
        pose proof (animators_tick _ _ _ _ _ _ _ _ H3) as Hti. eapply Forall2_impl; [exact Hti|]. intros a a'. apply tick_settings. }
      destruct (apply_all_look sizes (order s5) k i (single_apart _ _ Hs (Ho s5)) (layout, set e_transitions (fun _ => tr1) (set e_animators (fun _ => an1) (inherit pe (reset_element_style e))))) as [L1 L2].
      rewrite Hlook, <- Eap. rewrite Hb0 in L1, L2. split.
      + intros v Hv. apply L1. rewrite Ho. by apply elem_of_map_to_list.
      + intros Hn. apply L2; [|exact Hki]. intros v Hv. rewrite Ho in Hv. apply elem_of_map_to_list in Hv. assert (Some v = None) as [=]. etransitivity; [symmetry; exact Hv|exact Hn].
    - split; [exact K1|]. intros i. exact (K2 i).
    - intros i. destruct (mapR_range _ _ _ Hs Hts i) as [R1 R2]. destruct (K3 i) as [K4 K5]. cbn [snd] in K4, K5.
      change (e_transitions (set e_transitions (fun _ => ts) e1)) with ts. change (transition_at i e1) with (mover_of (e_transitions e1) i) in *.
      change (transition_at i (set e_transitions (fun _ => tr1) (set e_animators (fun _ => an1) (inherit pe (reset_element_style e))))) with (mover_of tr1 i) in *.
      split; [congruence|]. rewrite K5 in R2. exact R2.
  Qed.
End element.

(** ** What leaves animations and transitions alone *)
Definition same_moves (t t' : Tree) : Prop := forall n, animators t' n = animators t n /\ movers t' n = movers t n.
Lemma sm_refl t : same_moves t t. Proof. done. Qed.
Lemma sm_trans a b c : same_moves a b -> same_moves b c -> same_moves a c.
Proof. intros H1 H2 n. destruct (H1 n), (H2 n). split; congruence. Qed.
Lemma sm_put n e0 e t : get_ctx t n = Some e0 -> e_animators e = e_animators e0 -> e_transitions e = e_transitions e0 -> same_moves t (put_element n e t).
Proof.
  intros H0 Ha Ht m. unfold animators, movers. rewrite get_ctx_put. destruct (decide (n = m)) as [<-|]; [|done].
  destruct (ctx_node _ _ _ H0) as [y Hy]. rewrite Hy. rewrite H0. done.
Qed.
Lemma positions_moves depth : forall n loc op clip t t', compute_final_positions depth n loc op clip t = Ok t' -> same_moves t t'.
Proof.
  induction depth as [|depth IH]; intros n loc op clip t t' H; cbn [compute_final_positions] in H; [done|].
  apply bindR_Ok in H as (lay & Hlay & H). apply bindR_Ok in H as (e & He & H). apply get_element_ctx in He. cbv zeta in H.
  match type of H with context [match ?m with (_, _) => _ end] => destruct m as [clip' loc'] end.
  apply bindR_Ok in H as (cs & Hcs & H). clear Hcs.
  match type of H with foldR _ ?a _ = _ => assert (Ha : same_moves t a) by (eapply sm_put; [exact He|done|done]); revert Ha H; generalize a end.
  clear He. induction cs as [|c cs IHc]; intros a Ha H; cbn [foldR] in H; [by injection H as <-|]. apply bindR_Ok in H as (b & Hb & H).
  eapply IHc; [|exact H]. eapply sm_trans; [exact Ha|by eapply IH].
Qed.
Lemma layout_moves X t : same_moves t (run_layout X t).
Proof.
  intros n. unfold animators, movers, get_ctx, run_layout, set. cbn [t_nodes]. rewrite map_lookup_imap. by destruct (t_nodes t !! n) as [x|].
Qed.
Lemma drawn_moves t t' n : drawn <$> t_nodes t' !! n = drawn <$> t_nodes t !! n -> animators t' n = animators t n /\ movers t' n = movers t n.
Proof.
  intros H. unfold animators, movers, get_ctx. destruct (t_nodes t' !! n) as [x|], (t_nodes t !! n) as [y|]; try done. cbn in H. unfold drawn in H. injection H as _ H. cbn [mbind option_bind].
  destruct (n_ctx x) as [e'|], (n_ctx y) as [e|]; try done. cbn in H. unfold paint_of in H. injection H as _ _ _ _ _ _ _ H1 H2. done.
Qed.
Lemma sbs_moves t t' : same_but_state t t' -> same_moves t t'.
Proof.
  intros [_ H] n. specialize (H n). unfold animators, movers, get_ctx. destruct (t_nodes t !! n) as [a|], (t_nodes t' !! n) as [b|]; try done. cbn in *.
  assert (Hn : node_no_state a = node_no_state b) by congruence. assert (H2 : no_state <$> n_ctx a = no_state <$> n_ctx b) by exact (f_equal n_ctx Hn).
  destruct (n_ctx a) as [ea|], (n_ctx b) as [eb|]; try done. cbn in *. assert (H3 : no_state ea = no_state eb) by congruence. split; [exact (eq_sym (f_equal e_animators H3))|exact (eq_sym (f_equal e_transitions H3))].
Qed.

(** ** From the body down *)
Section page.
  Context (fuel : nat) (debug : bool) (css : Css) (order : ComputedStyle -> list (Descriptor * ComputedValue)) (time : f32) (t t' : Tree) (viewport : vec2).
  Context (Hl : live t 0) (Hal : alike t t').
  Context (N : NodeId) (Hrules : forall m e, at_or_above t 1 m -> at_or_above t m N -> get_ctx t m = Some e -> forall st st', cascade_rules fuel debug m t (e_styles e) st = Ok st' ->
    exists ds, declared t 0 m (css_styles css) ds /\ compute_declaration_block fuel ds st = Ok st').
  Notation first_sizes := (mkSizes f16 f16 rgba0 (fst viewport) (snd viewport)).
  Lemma moves_styled before : let n := N in tidy_css css -> forward_css css -> (forall e, get_ctx t n = Some e -> tidy_element e) ->
    Forall (on_course fuel time) (animators before n) -> single_movers (movers before n) -> (forall s, order s ≡ₚ map_to_list s) ->
    styled fuel debug css order time t t' 1 first_sizes ∅ -> styled_element t 1 n -> animators t n = animators before n -> movers t n = movers before n ->
    (forall k i, place_of k <> PlBackgrounds -> shows_at t n k i = shows_at before n k i) -> shows_moving fuel css time viewport 0 1 before t' n.
  Proof.
    intros n Htc Hfw Hte Hon Hsm Ho H1 (Hn & (e0 & He0 & Htx) & Hc) Han Hmv Hbef. assert (HnN : at_or_above t n N) by reflexivity.
    destruct (descend fuel debug css order time t t' viewport Hl Hal N Hrules (body_reached fuel debug css order time t t' viewport H1) n Hn HnN Hc) as (vars & Hs & Hst).
    inversion Hst as [? q pe e spans ? ? Hq Hpe He Ht He'|? q pe x e layout' e' vars' x' ? ? Hq Hpe Hx He Ht Hcs Hx' He' Hlay Hch]; subst; [congruence|].
    assert (Hg : get_ctx t n = Some e) by (unfold get_ctx; by rewrite Hx). pose proof (Hte e Hg) as Hti.
    assert (Hg' : get_ctx t' n = Some e') by (unfold get_ctx; by rewrite Hx').
    destruct (cascade_scope fuel debug css order time t 0 n e Hg (Hrules n e Hn HnN Hg) _ _ _ _ _ _ _ Hcs) as (ds & Hd & ->).
    destruct (ctx_node _ _ _ Hpe) as [xp Hxp]. assert (Hxpe : n_ctx xp = Some pe) by (unfold get_ctx in Hpe; by rewrite Hxp in Hpe).
    assert (Ea : e_animators e = animators before n) by (rewrite <- Han; unfold animators; by rewrite Hg).
    assert (Et : e_transitions e = movers before n) by (rewrite <- Hmv; unfold movers; by rewrite Hg).
    destruct (cascade_moves fuel debug css order time t 0 n e Hg (Hrules n e Hn HnN Hg) _ _ _ _ _ _ _ _ Htc Hti Hfw Ho ltac:(by rewrite Ea) ltac:(by rewrite Et) Hd Hcs)
      as (s0 & l & s1 & m & s & M1 & M2 & M3 & M4 & M5 & M6).
    exists ds, vars, q, xp, pe, s0, l, s1, m, s. split; [by eapply declarations_alike|]. split; [by eapply scope_alike|]. split; [by rewrite (alike_parent _ _ _ Hal)|]. split; [done|]. split; [done|].
    split; [exact M1|]. rewrite <- Ea, <- Et. split; [exact M2|]. split; [exact M3|]. split; [|split].
    - intros k i Hki. cbv zeta. destruct (M4 k i Hki) as [C1 C2].
      assert (Hsh : shows_at t' n k i = look k i (n_style x', e')). { unfold shows_at. rewrite Hx'. cbn. by rewrite He'. }
      assert (Hrest : look k i (n_style x, inherit pe (reset_element_style e)) = rest_value k (n_style xp, pe) (shows_at before n k i)).
      { rewrite (rest_settle k i (n_style xp) pe (n_style x) e Hki). destruct (decide (place_of k = PlBackgrounds)) as [Hb|Hb].
        - by destruct k.
        - f_equal. rewrite <- Hbef by done. unfold shows_at. rewrite Hx. cbn. by rewrite He. }
      rewrite Hsh, <- Hrest. split; [exact C1|exact C2].
    - unfold keeps_clocks, animators. by rewrite Hg'.
    - unfold keeps_ends, movers. by rewrite Hg'.
  Qed.
End page.

Theorem moving_page X fuel doc css v0 hist v os input value m t ids n :
  from_document X fuel doc css = Ok v0 -> updates X fuel v0 hist = Ok (v, os) -> prepare X fuel v input value = Ok (m, t, ids) ->
  tidy_css css -> forward_css css -> tidy_inline t -> (forall s, x_order X s ≡ₚ map_to_list s) ->
  styled_element t (v_body v) n -> Forall (on_course fuel (in_time input)) (animators (v_tree v) n) -> single_movers (movers (v_tree v) n) -> plain_selectors css t n ->
  (forall a s, at_or_above t (v_body v) a -> at_or_above t a n -> s ∈ css_styles css -> rule_settled (v_bindings v) t a s) ->
  shows_moving fuel css (in_time input) (in_viewport input) (v_root v) (v_body v) (v_tree v) t n.
Proof.
  intros H0 H Hpr Htc Hfw Hric Ho Hel Hon Hsm Hplain Hse. destruct (kept_history _ _ _ _ _ _ _ _ H0 H) as (rn & t0 & Hm & Hre & Hfl & Hk & Hc & Hbody & Hbs & Hs).
  pose proof (reached_sound _ _ _ _ _ _ _ _ H0 H) as Hso.
  pose proof (so_live _ Hso) as Hl. rewrite (so_root _ Hso) in *. rewrite Hbody in *.
  unfold prepare in Hpr. apply bindR_Ok in Hpr as ([m0 rs] & Hb & Hpr). apply bindR_Ok in Hpr as ([ta ids0] & Hu & Hpr).
  apply bindR_Ok in Hpr as (t1 & H1 & Hpr). apply bindR_Ok in Hpr as (t2 & H2 & Hpr). apply bindR_Ok in Hpr as (t3 & H3 & Hpr). injection Hpr as <- <- <-. rewrite Hbody, (so_root _ Hso), Hc in *.
  assert (Hok : Forall (reaction_ok (v_tree v)) rs) by (by eapply view_bind_reactions_ok).
  assert (Hk1 : kept (x_debug X) (css_styles css) (v_bindings v) t0 ta) by (eapply kept_reactions; [exact Hk|exact Hok|by eapply view_bind_from|exact Hu]).
  pose proof (set_viewport_same _ _ _ _ H1) as Hv.
  pose proof (kept_content _ _ _ _ _ _ Hk1 Hv) as Hk2. pose proof (k_live _ _ _ _ _ Hk2) as Hl1.
  destruct (rendered_live _ _ _ Hm Hre) as (Hl0 & Hat0 & Hr0).
  destruct (styles_trace _ _ _ _ _ _ _ _ _ _ _ Hl1 H2) as (Htr & _ & Hal12).
  assert (Hal23 : alike t2 t3).
  { split; [eapply same_trans; [apply run_layout_same|by eapply final_positions_same]|eapply ss_trans; [apply run_layout_ss|by eapply final_positions_ss]]. }
  assert (Hal13 : alike t1 t3) by (by eapply alike_trans). pose proof (alike_sym _ _ Hal13) as Hal31.
  assert (Hlooks : same_looks t2 t3) by (eapply looks_trans; [apply layout_looks|by eapply positions_looks]).
  assert (Hmoves : same_moves t2 t3) by (eapply sm_trans; [apply layout_moves|by eapply positions_moves]).
  assert (Htt : tidy_tree t1).
  { apply (kept_tidy _ _ _ _ _ (proj1 Htc)) in Hk2; [done|]. intros k ds Hk'. apply (Hric k). by rewrite (inline_content _ _ _ (proj1 Hal13)). }
  pose proof (styled_element_alike _ _ _ _ Hal31 Hel) as Hel1.
  assert (Hn0 : n <> 0). { intros ->. destruct Hel1 as [Hx _]. apply (above_le _ _ _ _ Hl1) in Hx. lia. }
  assert (Hdr : drawn <$> t_nodes t1 !! n = drawn <$> t_nodes (v_tree v) !! n).
  { rewrite (viewport_drawn _ _ _ _ H1 n Hn0). pose proof (update_trees_drawn _ _ _ _ _ _ Hu) as Hd. apply Hd. }
  destruct (drawn_moves _ _ _ Hdr) as [Han Hmv].
  assert (Hres : shows_moving fuel css (in_time input) (in_viewport input) 0 1 (v_tree v) t2 n).
  { eapply (moves_styled fuel (x_debug X) css (x_order X) (in_time input) t1 t2 (in_viewport input) Hl1 Hal12 n); [|exact Htc|exact Hfw| |exact Hon|exact Hsm|exact Ho|exact Htr|exact Hel1|exact Han|exact Hmv|].
    - intros a e Ha Han' He st st' Hcr.
      assert (Hrf : cascade_rules fuel (x_debug X) a t1 (e_styles e) st = cascade_rules fuel (x_debug X) a t1 (map EDynamic (css_styles css)) st).
      { eapply (rules_afresh _ _ _ _ _ Hl0 Hat0 Hr0 Hk2); [|exact He|exact Ha|].
        - intros k f key (p & b & Hin & Hpb). eapply stands_hints; [exact (re_stands _ _ _ Hre)| |exact Hpb].
          apply elem_of_list_In. rewrite <- Hfl. by apply elem_of_list_In.
        - intros s Hs'. eapply settled_content; [exact (proj1 Hal31)|]. apply Hse; [by eapply above_alike|by eapply above_alike|done]. }
      rewrite Hrf in Hcr. eapply rules_declared; [exact Hl1|by eexists| |exact Hcr].
      intros s sel Hs' Hsel. destruct (plain_alike _ _ _ _ Hal31 Hplain s sel Hs' Hsel) as [P1 P2]. split; [done|]. intros b c Hb'. apply P2. by etransitivity.
    - intros e He. by apply (Htt n).
    - intros k i Hk'. rewrite (viewport_looks _ _ _ _ H1 n k i Hn0). apply drawn_shows; [by eapply update_trees_drawn|done]. }
  (* from the styled tree to the placed one *)
  destruct Hres as (ds & vars & p & parent & pe & s0 & l & s1 & mv & s & R1 & R2 & R3 & R4 & R5 & R6 & R7 & R8 & R9 & R10 & R11).
  assert (Hnode : exists parent' pe', t_nodes t3 !! p = Some parent' /\ n_ctx parent' = Some pe' /\
    (forall k b, rest_value k (n_style parent', pe') b = rest_value k (n_style parent, pe) b) /\ f_size (e_font pe') = f_size (e_font pe) /\ e_color pe' = e_color pe).
  { assert (Hgp : get_ctx t2 p = Some pe) by (unfold get_ctx; by rewrite R4).
    pose proof (alike_ctx _ _ p Hal23) as Hp. rewrite Hgp in Hp. destruct (get_ctx t3 p) as [pe'|] eqn:Hpe'; [|done]. destruct (ctx_node _ _ _ Hpe') as [y Hy].
    assert (Hye : n_ctx y = Some pe') by (unfold get_ctx in Hpe'; by rewrite Hy in Hpe').
    assert (Hlk : forall k i, look k i (n_style y, pe') = look k i (n_style parent, pe)).
    { intros k i. specialize (Hlooks p k i). unfold shows_at in Hlooks. rewrite Hy, R4 in Hlooks. cbn in Hlooks. rewrite Hye, R5 in Hlooks. exact Hlooks. }
    exists y, pe'. split; [done|]. split; [done|]. split; [|split].
    - intros k b. unfold rest_value. replace (start_value k (n_style y, pe')) with (start_value k (n_style parent, pe)); [done|]. destruct k; try reflexivity; symmetry; apply Hlk.
    - specialize (Hlk KFontSize 0). cbn [look] in Hlk. by injection Hlk.
    - specialize (Hlk KColor 0). cbn [look] in Hlk. by injection Hlk. }
  destruct Hnode as (parent' & pe' & N1 & N2 & N3 & N4 & N5).
  exists ds, vars, p, parent', pe', s0, l, s1, mv, s. split; [exact (declarations_alike _ _ _ _ _ _ Hal23 R1)|]. split; [exact (scope_alike _ _ _ _ _ _ _ Hal23 R2)|]. split; [by rewrite (alike_parent _ _ _ Hal23)|]. split; [done|].
  split; [done|]. split; [exact R6|]. split; [exact R7|]. split; [exact R8|]. split; [|split].
  - intros k i Hki. specialize (R9 k i Hki). cbv zeta in *. rewrite Hlooks, N3. 
    replace (sizes_at (in_viewport input) t3 1 n) with (sizes_at (in_viewport input) t2 1 n); [exact R9|].
    unfold sizes_at. destruct (decide (n = 1)); [done|]. rewrite (alike_parent _ _ _ Hal23), R3. unfold get_ctx. rewrite R4, N1. cbn [mbind option_bind]. rewrite R5, N2, N4, N5. done.
  - unfold keeps_clocks. destruct (Hmoves n) as [-> _]. exact R10.
  - unfold keeps_ends. destruct (Hmoves n) as [_ ->]. exact R11.
Qed.

(** ** The clocks over many updates *)
Lemma descend_styled fuel debug css order time t t' : live t 0 -> (exists sizes vars, styled fuel debug css order time t t' 1 sizes vars) ->
  forall n, at_or_above t 1 n -> (forall m, at_or_above t 1 m -> above t m n -> ~ contentless t m) -> exists sizes vars, styled fuel debug css order time t t' n sizes vars.
Proof.
  intros Hl H1. apply (rtc_ind_r (fun n => (forall m, at_or_above t 1 m -> above t m n -> ~ contentless t m) -> exists sizes vars, styled fuel debug css order time t t' n sizes vars) 1); [done|].
  intros p n Hap Hpn IH Hc. destruct IH as (sizes & vars & Hst). { intros m Hm Hmp. apply Hc; [done|]. eapply tc_r; [exact Hmp|exact Hpn]. }
  assert (Hpc : ~ contentless t p) by (apply Hc; [done|by apply tc_once]).
  inversion Hst as [? q pe e spans ? ? Hq Hpe He Ht He'|? q pe x e layout' e' vars' x' ? ? Hq Hpe Hx He Ht Hcs Hx' He' Hlay Hch]; subst.
  { exfalso. apply Hpc. exists e. rewrite Ht. eauto. }
  assert (Hg : get_ctx t p = Some e) by (unfold get_ctx; by rewrite Hx).
  assert (Hv : String.eqb (e_tag e) "img" || is_void (e_tag e) = false). { destruct (_ || _) eqn:E; [|done]. exfalso. apply Hpc. exists e. eauto. }
  specialize (Hch Hv n ltac:(by apply (live_parent _ _ Hl))). eauto.
Qed.
Lemma styled_same t t' body n : same_content t t' -> styled_element t body n -> styled_element t' body n.
Proof.
  intros H (H1 & (e & He & Ht) & H3). pose proof (content_shown _ _ H) as Hsh.
  assert (Hup : forall a b, above t' a b -> above t a b).
  { intros a b Hab. induction Hab as [x y Hxy|x y z Hxy _ IH]; [apply tc_once|eapply tc_l; [|exact IH]]; by rewrite <- (shown_parent _ _ _ Hsh). }
  split; [apply (above_content t' t); [by apply same_sym|exact H1]|]. split.
  - destruct (same_ctx _ _ _ _ H He) as (e' & He' & Hc). exists e'. split; [done|]. unfold content in Hc. injection Hc as G1 G2 G3 G4 G5 G6 G7 G8 G9 G10. by rewrite G4.
  - intros m Hm Hmn (e' & He' & Hx). apply (H3 m); [apply (above_content t t'); [done|exact Hm]|by apply Hup|].
    destruct (same_ctx _ _ _ _ (same_sym _ _ H) He') as (e1 & He1 & Hc). exists e1. split; [done|]. unfold content in Hc. injection Hc as G1 G2 G3 G4 G5 G6 G7 G8 G9 G10. by rewrite G3, G4.
Qed.
Lemma update_ticks X fuel doc css v0 hist v os input value v' o n :
  from_document X fuel doc css = Ok v0 -> updates X fuel v0 hist = Ok (v, os) -> update X fuel v input value = Ok (v', o) -> styled_element (v_tree v') (v_body v') n ->
  exists l, Forall2 (ticks fuel css (in_time input)) (animators (v_tree v) n) l /\ keeps_clocks l (v_tree v') n.
Proof.
  intros H0 H Hup Hel. destruct (kept_history _ _ _ _ _ _ _ _ H0 H) as (rn & t0 & Hm & Hre & Hfl & Hk & Hc & Hbody & Hbs & Hs).
  pose proof (reached_sound _ _ _ _ _ _ _ _ H0 H) as Hso. pose proof (so_live _ Hso) as Hl.
  unfold update in Hup. apply bindR_Ok in Hup as ([[m t] ids] & Hpr & Hup). apply bindR_Ok in Hup as ([[ss t'] o'] & Hho & [= <- <-]).
  apply handle_output_sbs in Hho. cbn [fst snd] in Hho.
  match type of Hel with styled_element ?a ?b _ => change a with t' in Hel; change b with (v_body v) in Hel end.
  match goal with |- context [keeps_clocks _ ?a _] => change a with t' end.
  pose proof (styled_same _ _ _ _ (same_sym _ _ (sbs_same _ _ Hho)) Hel) as Hel3. pose proof (sbs_moves _ _ Hho) as Hmo. clear Hel Hho.
  unfold prepare in Hpr. apply bindR_Ok in Hpr as ([m0 rs] & Hb & Hpr). apply bindR_Ok in Hpr as ([ta ids0] & Hu & Hpr).
  apply bindR_Ok in Hpr as (t1 & H1 & Hpr). apply bindR_Ok in Hpr as (t2 & H2 & Hpr). apply bindR_Ok in Hpr as (t3 & H3 & Hpr). injection Hpr as <- <- <-. rewrite Hbody, ?(so_root _ Hso), Hc in *.
  assert (Hok : Forall (reaction_ok (v_tree v)) rs) by (by eapply view_bind_reactions_ok).
  assert (Hk1 : kept (x_debug X) (css_styles css) (v_bindings v) t0 ta) by (eapply kept_reactions; [exact Hk|exact Hok|by eapply view_bind_from|exact Hu]).
  pose proof (set_viewport_same _ _ _ _ H1) as Hv.
  pose proof (kept_content _ _ _ _ _ _ Hk1 Hv) as Hk2. pose proof (k_live _ _ _ _ _ Hk2) as Hl1.
  destruct (styles_trace _ _ _ _ _ _ _ _ _ _ _ Hl1 H2) as (Htr & _ & Hal12).
  assert (Hc23 : same_content t2 t3) by (eapply same_trans; [apply run_layout_same|by eapply final_positions_same]).
  assert (Hmoves : same_moves t2 t3) by (eapply sm_trans; [apply layout_moves|by eapply positions_moves]).
  pose proof (styled_same _ _ _ _ (same_trans _ _ _ (same_sym _ _ Hc23) (same_sym _ _ (proj1 Hal12))) Hel3) as (Hn & (e0 & He0 & Htx) & Hcl).
  assert (Hn0 : n <> 0). { intros ->. apply (above_le _ _ _ _ Hl1) in Hn. lia. }
  assert (Hdr : drawn <$> t_nodes t1 !! n = drawn <$> t_nodes (v_tree v) !! n).
  { rewrite (viewport_drawn _ _ _ _ H1 n Hn0). pose proof (update_trees_drawn _ _ _ _ _ _ Hu) as Hd. apply Hd. }
  destruct (drawn_moves _ _ _ Hdr) as [Han _].
  destruct (descend_styled _ _ _ _ _ _ _ Hl1 (ex_intro _ _ (ex_intro _ _ Htr)) n Hn Hcl) as (sizes & vars & Hst).
  inversion Hst as [? q pe e spans ? ? Hq Hpe He Ht He'|? q pe x e layout' e' vars' x' ? ? Hq Hpe Hx He Ht Hcs Hx' He' Hlay Hch]; subst; [congruence|].
  destruct (cascade_ticks _ _ _ _ _ _ _ _ _ _ _ _ _ _ _ Hcs) as (l & T1 & T2). exists l.
  assert (Ea : e_animators e = animators (v_tree v) n) by (rewrite <- Han; unfold animators, get_ctx; rewrite Hx; cbn [mbind option_bind]; by rewrite He).
  assert (Eb : e_animators e' = animators t' n). { destruct (Hmo n) as [-> _], (Hmoves n) as [-> _]. unfold animators, get_ctx. rewrite Hx'. cbn [mbind option_bind]. by rewrite He'. }
  rewrite <- Ea. split; [exact T1|]. unfold keeps_clocks. by rewrite <- Eb.
Qed.

Lemma updates_more X fuel : forall hist v v1 os i x v2 o, updates X fuel v hist = Ok (v1, os) -> update X fuel v1 i x = Ok (v2, o) -> updates X fuel v (hist ++ [(i, x)]) = Ok (v2, os ++ [o]).
Proof.
  induction hist as [|[i0 x0] hist IH]; intros v v1 os i x v2 o H H1; cbn [app updates] in *.
  - injection H as <- <-. rewrite H1. reflexivity.
  - apply bindR_Ok in H as ([va oa] & Ha & H). apply bindR_Ok in H as ([vb ob] & Hb & H). injection H as <- <-. rewrite Ha. cbn [bindR]. rewrite (IH _ _ _ _ _ _ _ Hb H1). reflexivity.
Qed.
Lemma frames_reached X fuel P v0 hist v os ts v' : updates X fuel v0 hist = Ok (v, os) -> frames X fuel P v ts v' -> exists hist' os', updates X fuel v0 hist' = Ok (v', os').
Proof. intros H Hf. revert H. induction Hf as [v|v ts v1 i x v2 o _ IH Hu _]; intros H; [eauto|]. destruct (IH H) as (h & o1 & H1). do 2 eexists. exact (updates_more _ _ _ _ _ _ _ _ _ _ H1 Hu). Qed.
Lemma frames_last X fuel (P : View -> Prop) v ts v' : P v -> frames X fuel P v ts v' -> P v'.
Proof. by intros H; destruct 1. Qed.

(** a new animation begins at 0 *)
Theorem clocks_begin X fuel doc css v0 hist v os input value v' o n :
  from_document X fuel doc css = Ok v0 -> updates X fuel v0 hist = Ok (v, os) -> update X fuel v input value = Ok (v', o) -> styled_element (v_tree v') (v_body v') n ->
  animators (v_tree v) n = [] -> Forall (fun a => a_time a = f0) (animators (v_tree v') n).
Proof.
  intros H0 H Hu Hel Hr. destruct (update_ticks _ _ _ _ _ _ _ _ _ _ _ _ _ H0 H Hu Hel) as (l & Hl & _ & Hc). rewrite Hr in Hl. inversion Hl; subst.
  apply list.Forall_forall. intros a Ha. apply elem_of_list_lookup in Ha as [i Hi]. specialize (Hc i). unfold clock_of in Hc. rewrite Hi in Hc. exact Hc.
Qed.
Lemma settings_name a b : settings a = settings b -> a_name a = a_name b. Proof. intros H. by apply settings_fields in H as [H _]. Qed.
Lemma ticks_played fuel css time l0 l l' ts : settings <$> l = l0 -> Forall2 (ticks fuel css time) l l' ->
  (forall i a0, l0 !! i = Some a0 -> exists a, l !! i = Some a /\ match css_animations css !! a_name a0 with None => a = a0 | Some _ => played fuel a0 ts a end) ->
  forall i a0, l0 !! i = Some a0 -> exists a, l' !! i = Some a /\ settings a = settings a0 /\ match css_animations css !! a_name a0 with None => a = a0 | Some _ => played fuel a0 (ts ++ [time]) a end.
Proof.
  intros Hs Hl Hp i a0 Hi. destruct (Hp i a0 Hi) as (a & Ha & Hpl). destruct (Forall2_lookup_l _ _ _ _ _ Hl Ha) as (a' & Ha' & Ht). exists a'. split; [exact Ha'|].
  assert (Hsa : settings a = a0). { rewrite <- Hs, list_lookup_fmap, Ha in Hi. cbn in Hi. congruence. }
  assert (Hss : settings (settings a) = settings a) by done.
  split; [rewrite (tick_settings _ _ _ _ _ Ht), <- Hsa; done|]. unfold ticks in Ht. assert (Hna : a_name a = a_name a0) by (by rewrite <- Hsa). rewrite Hna in Ht.
  destruct (css_animations css !! a_name a0); [|congruence]. destruct Ht as [x Hx]. by eapply played_frame.
Qed.
Theorem clocks_run X fuel doc css v0 hist v os n ts v' : 
  from_document X fuel doc css = Ok v0 -> updates X fuel v0 hist = Ok (v, os) -> Forall (fun a => a_time a = f0) (animators (v_tree v) n) ->
  frames X fuel (animates n (animators (v_tree v) n)) v ts v' ->
  forall i a0, animators (v_tree v) n !! i = Some a0 ->
  exists a, animators (v_tree v') n !! i = Some a /\ match css_animations css !! a_name a0 with None => a = a0 | Some _ => played fuel a0 ts a end.
Proof.
  intros H0 H Hz Hf. remember (animators (v_tree v) n) as l0 eqn:El0.
  assert (Hz' : settings <$> l0 = l0).
  { clear -Hz. induction Hz as [|a l Ha _ IH]; [done|]. cbn. rewrite IH. f_equal. destruct a. cbn in Ha. subst. done. }
  assert (Hmain : settings <$> animators (v_tree v') n = l0 /\ forall i a0, l0 !! i = Some a0 -> exists a, animators (v_tree v') n !! i = Some a /\ match css_animations css !! a_name a0 with None => a = a0 | Some _ => played fuel a0 ts a end); [|exact (proj2 Hmain)].
  induction Hf as [v|v ts v1 input value v2 o Hf IH Hu HP].
  - subst l0. split; [exact Hz'|]. intros i a0 Hi. exists a0. split; [exact Hi|]. destruct (css_animations css !! a_name a0); [constructor|done].
  - destruct (IH H El0) as [I1 I2]. destruct (frames_reached _ _ _ _ _ _ _ _ _ H Hf) as (h & os1 & H1). destruct HP as [Hel Hset]. split; [exact Hset|].
    destruct (update_ticks _ _ _ _ _ _ _ _ _ _ _ _ _ H0 H1 Hu Hel) as (l & Hl & Hlen & Hc). intros i a0 Hi.
    destruct (ticks_played _ _ _ _ _ _ _ I1 Hl I2 i a0 Hi) as (a & Ha & Hs & Hp).
    assert (Hlt : i < List.length (animators (v_tree v2) n)) by (apply lookup_lt_Some in Ha; lia). destruct (lookup_lt_is_Some_2 _ _ Hlt) as [b Hb].
    exists b. split; [exact Hb|]. assert (b = a) as ->; [|exact Hp]. apply same_animator.
    + rewrite Hs. assert (Hb' : settings b = a0). { rewrite <- Hset, list_lookup_fmap, Hb in Hi. cbn in Hi. congruence. } rewrite <- Hb'. done.
    + specialize (Hc i). unfold clock_of in Hc. rewrite Hb, Ha in Hc. exact Hc.
Qed.

Lemma clock_course fuel css a0 ts a time : timed a0 -> a_time a0 = f0 -> Forall frame_time ts -> frame_time time ->
  match css_animations css !! a_name a0 with None => a = a0 | Some _ => played fuel a0 ts a end -> on_course fuel time a.
Proof.
  intros Ht H0 Hts Htime Hp a' x Hu. destruct (css_animations css !! a_name a0).
  - exact (progress_in_range _ _ _ _ _ _ _ Ht H0 Hts Htime Hp Hu).
  - subst a. refine (progress_in_range _ _ _ _ _ _ _ Ht H0 (List.Forall_nil _) Htime _ Hu). constructor.
Qed.
(** the whole way: from the update in which the animations appear *)
Theorem plays_page X fuel doc css v0 hist v os i x v1 o n ts v2 input value m t ids :
  from_document X fuel doc css = Ok v0 -> updates X fuel v0 hist = Ok (v, os) -> animators (v_tree v) n = [] ->
  update X fuel v i x = Ok (v1, o) -> styled_element (v_tree v1) (v_body v1) n -> Forall timed (animators (v_tree v1) n) ->
  frames X fuel (animates n (animators (v_tree v1) n)) v1 ts v2 -> Forall frame_time ts ->
  prepare X fuel v2 input value = Ok (m, t, ids) -> frame_time (in_time input) ->
  tidy_css css -> forward_css css -> tidy_inline t -> (forall s, x_order X s ≡ₚ map_to_list s) ->
  styled_element t (v_body v2) n -> single_movers (movers (v_tree v2) n) -> plain_selectors css t n ->
  (forall a s, at_or_above t (v_body v2) a -> at_or_above t a n -> s ∈ css_styles css -> rule_settled (v_bindings v2) t a s) ->
  shows_moving fuel css (in_time input) (in_viewport input) (v_root v2) (v_body v2) (v_tree v2) t n /\
  Forall (fun a => a_time a = f0) (animators (v_tree v1) n) /\ List.length (animators (v_tree v2) n) = List.length (animators (v_tree v1) n) /\
  forall j a0, animators (v_tree v1) n !! j = Some a0 -> exists a, animators (v_tree v2) n !! j = Some a /\
    match css_animations css !! a_name a0 with None => a = a0 | Some _ => played fuel a0 ts a end.
Proof.
  intros H0 H Hr Hu Hel1 Htm Hf Hts Hpr Hti Htc Hfw Hric Ho Hel Hsm Hpl Hse.
  pose proof (clocks_begin _ _ _ _ _ _ _ _ _ _ _ _ _ H0 H Hu Hel1 Hr) as Hz. pose proof (updates_more _ _ _ _ _ _ _ _ _ _ H Hu) as H1.
  pose proof (clocks_run _ _ _ _ _ _ _ _ _ _ _ H0 H1 Hz Hf) as Hrun. destruct (frames_reached _ _ _ _ _ _ _ _ _ H1 Hf) as (h & os2 & H2).
  assert (Hlen : List.length (animators (v_tree v2) n) = List.length (animators (v_tree v1) n)).
  { inversion Hf as [|? ? ? ? ? ? ? _ _ HP]; subst; [done|]. destruct HP as [_ HP]. rewrite <- HP. by rewrite fmap_length. }
  split; [|split; [exact Hz|split; [exact Hlen|exact Hrun]]].
  eapply moving_page; [exact H0|exact H2|exact Hpr|exact Htc|exact Hfw|exact Hric|exact Ho|exact Hel| |exact Hsm|exact Hpl|exact Hse].
  apply list.Forall_forall. intros a Ha. apply elem_of_list_lookup in Ha as [j Hj].
  assert (Hlt : j < List.length (animators (v_tree v1) n)) by (apply lookup_lt_Some in Hj; lia). destruct (lookup_lt_is_Some_2 _ _ Hlt) as [a0 Ha0].
  destruct (Hrun j a0 Ha0) as (a' & Ha' & Hp). assert (a' = a) as -> by congruence.
  eapply clock_course; [|exact (Forall_lookup_1 _ _ _ _ Hz Ha0)|exact Hts|exact Hti|exact Hp]. exact (Forall_lookup_1 _ _ _ _ Htm Ha0).
Qed.
(** one animation and no transition *)
Lemma moving_single fuel css time viewport root body before t n a a' an shown : shows_moving fuel css time viewport root body before t n ->
  animators before n = [a] -> movers before n = [] -> css_animations css !! a_name a = Some an -> animator_update fuel time a = Ok (a', shown) ->
  shows_playing css an viewport root body before t n fuel shown.
Proof.
  intros (ds & vars & p & parent & pe & s0 & l & s1 & mv & s & R1 & R2 & R3 & R4 & R5 & R6 & R7 & R8 & R9 & _) Ha Hm Han Hu.
  rewrite Ha in R7. rewrite Hm in R8. inversion R8; subst.
  assert (Hnil : forall x y l', animated fuel css time (variables_after vars ds) [] x l' y -> y = x) by (intros x y l' Hx; by inversion Hx).
  inversion R7 as [|? ? ? ? ? E0|an1 a0 a1 ? ? l1 ? E1 Hu1 Hrest|an1 a0 a1 x stops ? ? s2 l1 ? E1 Hu1 Hst Hfr Hrest]; subst.
  - congruence.
  - apply Hnil in Hrest as ->. assert (shown = None) as -> by congruence. exists ds, vars, p, parent, pe, s0, []. do 6 (split; [done|]). split; [by left|].
    intros k i Hki. cbv zeta. destruct (R9 k i Hki) as [C1 C2]. cbv zeta in C1, C2. destruct (R6 k i) as [G1 G2]. split; [done|]. intros _. split; [intros v Hv; apply C1; by apply G1|intros Hv; apply C2; by apply G2].
  - apply Hnil in Hrest as ->. assert (shown = Some x) as -> by congruence. assert (an1 = an) as -> by congruence.
    exists ds, vars, p, parent, pe, s0, stops. do 6 (split; [done|]). split; [by right|].
    intros k i Hki. cbv zeta. destruct (R9 k i Hki) as [C1 C2]. cbv zeta in C1, C2. destruct (R6 k i) as [G1 G2]. destruct Hfr as [F1 F2]. split.
    + intros Hme. destruct (F1 _ Hme) as (v & Hv & Hs). exists v. split; [exact Hs|]. by apply C1.
    + intros [[=]|Hno]. pose proof (F2 _ Hno) as Hsame. split; [intros v Hv; apply C1; etransitivity; [exact Hsame|by apply G1]|intros Hv; apply C2; etransitivity; [exact Hsame|by apply G2]].
Qed.

(** ** Transitions over many updates *)
Lemma fair_moving X fuel doc css v0 hist v os input value m t ids n : from_document X fuel doc css = Ok v0 -> updates X fuel v0 hist = Ok (v, os) ->
  tidy_css css -> forward_css css -> (forall s, x_order X s ≡ₚ map_to_list s) ->
  prepare X fuel v input value = Ok (m, t, ids) -> fair css v t n -> animators (v_tree v) n = [] -> single_movers (movers (v_tree v) n) ->
  shows_moving fuel css (in_time input) (in_viewport input) (v_root v) (v_body v) (v_tree v) t n.
Proof.
  intros H0 H Htc Hfw Ho Hpr (F1 & F2 & F3 & F4) Ha Hm. eapply moving_page; [exact H0|exact H|exact Hpr|exact Htc|exact Hfw|exact F1|exact Ho|exact F2| |exact Hm|exact F3|exact F4].
  rewrite Ha. constructor.
Qed.
Lemma update_prepared X fuel v i x v' o m t ids : update X fuel v i x = Ok (v', o) -> prepare X fuel v i x = Ok (m, t, ids) -> same_moves t (v_tree v') /\ same_looks t (v_tree v').
Proof.
  intros Hup Hpr. split.
  - unfold update in Hup. rewrite Hpr in Hup. cbn [bindR] in Hup. apply bindR_Ok in Hup as ([[ss t'] o'] & Hho & [= <- <-]).
    apply handle_output_sbs in Hho. cbn [fst snd] in Hho. exact (sbs_moves _ _ Hho).
  - destruct (update_looks _ _ _ _ _ _ _ Hup) as (m' & t' & ids' & Hpr' & Hl). rewrite Hpr in Hpr'. injection Hpr' as <- <- <-. exact Hl.
Qed.
Lemma mover_eq tn tn' : t_key tn = t_key tn' -> settings (t_animator tn) = settings (t_animator tn') -> a_time (t_animator tn) = a_time (t_animator tn') -> t_range tn = t_range tn' -> tn = tn'.
Proof. intros H1 H2 H3 H4. pose proof (same_animator _ _ H2 H3). destruct tn, tn'. cbn in *. by subst. Qed.
(** one frame of one transition, without animations *)
Lemma moving_transition fuel css time viewport root body before t n tn key from to v : shows_moving fuel css time viewport root body before t n ->
  animators before n = [] -> movers before n = [tn] -> transitions tn key from to -> listed key = false -> gives_value css t root body n key v -> 
  exists a shown s tn1, animator_update fuel time (t_animator tn) = Ok (a, shown) /\ keeps_ends [tn1] s t n /\
  (forall w, s !! (key, 0) = Some w -> shows_at t n key 0 = match SpecShow.meaning (sizes_at viewport t body n) key w with Some x => Some x | None => shows_rest before t n key end) /\
  match shown with
  | None => s !! (key, 0) = Some v /\ tn1 = tn <| t_animator := a |>
  | Some x => SpecAnim.shown_value key (animate from to x) v s /\ retargeted (animate from to x) v to (tn <| t_animator := a |>) tn1
  end.
Proof.
  intros (ds & vars & p & parent & pe & s0 & l & s1 & mv & s & R1 & R2 & R3 & R4 & R5 & R6 & R7 & R8 & R9 & _ & R11) Ha Hm [Hk Hr] Hl Hg.
  rewrite Ha in R7. rewrite Hm in R8. inversion R7; subst. assert (Hv : s1 !! (key, 0) = Some v) by (apply R6; by apply Hg).
  assert (Hrest : shows_rest before t n key = rest_value key (n_style parent, pe) (shows_at before n key 0)). { unfold shows_rest. rewrite R3. cbn [mbind option_bind]. rewrite R4. cbn [mbind option_bind]. by rewrite R5. }
  assert (Hsh : forall w, s !! (key, 0) = Some w -> shows_at t n key 0 = match SpecShow.meaning (sizes_at viewport t body n) key w with Some x => Some x | None => shows_rest before t n key end).
  { intros w Hw. rewrite Hrest. apply (proj1 (R9 key 0 ltac:(by right))). exact Hw. }
  assert (Hnil : forall x y l', transited fuel time [] x l' y -> l' = [] /\ y = x) by (intros x y l' Hx; by inversion Hx).
  inversion R8 as [|? ? ? ? ? E0|key1 ? a ? ? l1 ? E1 Hu Hn|key1 ? a x ? ? l1 ? E1 Hu Hun Hn|key1 from1 to1 ? tn1 a x v1 ? ? s2 l1 ? Ht1 Hu Hv1 Hsv Hoth Hre Hn]; subst.
  - congruence.
  - destruct (Hnil _ _ _ Hn) as [-> ->]. exists a, None, s1, (tn <| t_animator := a |>). split; [exact Hu|]. split; [exact R11|]. split; [exact Hsh|]. done.
  - exfalso. assert (key1 = key) as -> by congruence. assert (Some v = None) as [=]. etransitivity; [symmetry; exact Hv|exact Hun].
  - destruct (Hnil _ _ _ Hn) as [-> ->]. destruct Ht1 as [K1 K2]. assert (key1 = key) as -> by congruence. rewrite Hr in K2. injection K2 as <- <-.
    assert (v1 = v) as ->. { assert (Some v1 = Some v) as [=]; [|done]. etransitivity; [symmetry; exact Hv1|exact Hv]. }
    exists a, (Some x), s2, tn1. split; [exact Hu|]. split; [exact R11|]. split; [exact Hsh|]. split; [exact Hsv|exact Hre].
Qed.
Lemma after_update fuel time tn a shown : animator_update fuel time (t_animator tn) = Ok (a, shown) -> settings a = settings (t_animator tn).
Proof. intros H. apply update_frame in H as [-> _]. apply after_settings. Qed.
Lemma kept_mover m s t n tn : keeps_ends [m] s t n -> movers t n = [tn] -> t_key tn = t_key m -> settings (t_animator tn) = settings (t_animator m) -> is_Some (t_range m) -> tn = m.
Proof.
  intros Hk Hm H1 H2 [r Hr]. destruct (Hk 0) as [K1 K2]. rewrite Hm in K1, K2. unfold mover_of in K1, K2. cbn [lookup list_lookup default] in K1, K2. change (default transition_default (Some ?x)) with x in *. cbn in K1, K2. rewrite Hr in K2.
  apply mover_eq; [done|done|exact K1|congruence].
Qed.
Lemma moving_clock fuel css time viewport root body before t n tn key from v tn2 : shows_moving fuel css time viewport root body before t n ->
  animators before n = [] -> movers before n = [tn] -> transitions tn key from v -> listed key = false -> gives_value css t root body n key v -> cv_eq v v = true ->
  movers t n = [tn2] -> same_mover tn tn2 -> exists a shown, animator_update fuel time (t_animator tn) = Ok (a, shown) /\ tn2 = tn <| t_animator := a |>.
Proof.
  intros Hsm Ha Hm Ht Hl Hg Hv Hm2 [S1 S2]. destruct (moving_transition _ _ _ _ _ _ _ _ _ _ _ _ _ _ Hsm Ha Hm Ht Hl Hg) as (a & shown & s & tn1 & Hu & Hke & _ & Hx). exists a, shown. split; [exact Hu|].
  assert (E1 : tn1 = tn <| t_animator := a |>). { destruct shown as [x|]; [|exact (proj2 Hx)]. destruct Hx as (_ & _ & _ & Hx & _). by apply Hx. }
  subst tn1. pose proof (after_update _ _ _ _ _ Hu) as Has. destruct Ht as [K1 K2].
  eapply kept_mover; [exact Hke|exact Hm2|exact S1| |exists (from, v); exact K2]. unfold set. cbn [t_animator]. congruence.
Qed.
Theorem held_runs X fuel doc css v0 n key v tn from : from_document X fuel doc css = Ok v0 -> tidy_css css -> forward_css css -> (forall s, x_order X s ≡ₚ map_to_list s) ->
  transitions tn key from v -> listed key = false -> cv_eq v v = true ->
  forall w ts w', held X fuel css n key v tn w ts w' -> forall hist os, updates X fuel v0 hist = Ok (w, os) -> movers (v_tree w) n = [tn] ->
  exists tn' hist' os', updates X fuel v0 hist' = Ok (w', os') /\ movers (v_tree w') n = [tn'] /\ transitions tn' key from v /\ played fuel (t_animator tn) ts (t_animator tn') /\ same_mover tn tn'.
Proof.
  intros H0 Htc Hfw Ho Htn Hlk Hvv. induction 1 as [w|w ts w1 i x m t ids w2 o tn2 Hh IH Hpr Hup Hf Hg Ha Hm2 Hsame]; intros hist os H Hm.
  - exists tn, hist, os. split; [exact H|]. split; [exact Hm|]. split; [exact Htn|]. split; [constructor|done].
  - destruct (IH hist os H Hm) as (tn1 & h1 & os1 & H1 & M1 & T1 & P1 & S1).
    assert (Hsin : single_movers (movers (v_tree w1) n)). { rewrite M1. constructor; [|constructor]. intros k Hk. destruct T1 as [T1 _]. congruence. }
    pose proof (fair_moving _ _ _ _ _ _ _ _ _ _ _ _ _ _ H0 H1 Htc Hfw Ho Hpr Hf Ha Hsin) as Hmov.
    destruct (update_prepared _ _ _ _ _ _ _ _ _ _ Hup Hpr) as [Hmo _]. destruct (Hmo n) as [_ Hmn]. rewrite Hm2 in Hmn. symmetry in Hmn.
    assert (S12 : same_mover tn1 tn2) by (destruct S1, Hsame; split; congruence).
    destruct (moving_clock _ _ _ _ _ _ _ _ _ _ _ _ _ _ Hmov Ha M1 T1 Hlk Hg Hvv Hmn S12) as (a & shown & Hu & ->).
    eexists _, _, _. split; [exact (updates_more _ _ _ _ _ _ _ _ _ _ H1 Hup)|]. split; [exact Hm2|]. split; [exact T1|]. split; [|exact Hsame]. eapply played_frame; [exact P1|exact Hu].
Qed.
Lemma between_same_tame u c : between u u c -> tame_value u -> tame_value c.
Proof.
  assert (W : forall a x : f32, within a a x -> tame a -> tame x). { intros a x [Fx Rx] [Fa Ra]. split; [done|]. rewrite Rmin_left, Rmax_left in Rx by lra. replace (B2R x) with (B2R a) by lra. done. }
  assert (C : forall a x, channel_within a a x -> byte a -> byte x). { unfold channel_within, byte. intros. lia. }
  intros H Hu. inversion H as [a b x Hw|a b x un Hw|va vb vx a b x Ea Eb Ex Hw|a0 a1 a2 a3 b0 b1 b2 b3 x0 x1 x2 x3 W0 W1 W2 W3|a b|a b]; subst; cbn [tame_value d_value] in *; try done; eauto.
  - assert (b = a) as -> by congruence. destruct u; try discriminate; destruct c; try discriminate Ex; cbn in *; try done; injection Ex as ->; [injection Ea as <-|injection Ea as <-]; eapply W; eauto using tame_0.
  - destruct Hu as (U0 & U1 & U2 & U3). repeat split; eauto; try (eapply C; eassumption); unfold byte in *; unfold channel_within in *; lia.
Qed.
Lemma played_fun fuel q ts b : played fuel q ts b -> forall b', played fuel q ts b' -> b' = b.
Proof.
  induction 1 as [q|q ts b1 t b2 y _ IH Hu]; intros b' Hb'.
  - remember [] as l eqn:E. destruct Hb' as [|q ts' c1 t1 c2 y' Hc Hu']; [done|by destruct ts'].
  - remember (ts ++ [t]) as l eqn:E. destruct Hb' as [q|q ts' c1 t1 c2 y' Hc Hu']; [by destruct ts|]. apply app_inj_tail in E as [-> ->]. rewrite (IH _ Hc) in Hu'. congruence.
Qed.
(** the first value, seen for a while; then another: it moves there *)
Theorem transition_page X fuel doc css v0 hist w os n key u v i x m t ids w1 o tn ts w2 i2 x2 m2 t2 ids2 w3 o3 tn3 ts3 w4 input value m5 t5 ids5 :
  from_document X fuel doc css = Ok v0 -> updates X fuel v0 hist = Ok (w, os) -> tidy_css css -> forward_css css -> (forall s, x_order X s ≡ₚ map_to_list s) -> listed key = false ->
  tame_value u -> cv_eq u u = true -> tame_value v -> cv_eq v v = true -> cv_eq u v = false ->
  (* the transition appears *)
  movers (v_tree w) n = [] -> animators (v_tree w) n = [] -> prepare X fuel w i x = Ok (m, t, ids) -> update X fuel w i x = Ok (w1, o) -> fair css w t n -> gives_value css t (v_root w) (v_body w) n key u ->
  movers (v_tree w1) n = [tn] -> t_key tn = Some key -> timed (t_animator tn) -> a_iterations (t_animator tn) = AINumber f1 -> (B2R (a_delay (t_animator tn)) <= 0)%R ->
  (* for some time the value is [u] *)
  held X fuel css n key u tn w1 ts w2 -> Forall frame_time ts ->
  (* then it is [v] *)
  prepare X fuel w2 i2 x2 = Ok (m2, t2, ids2) -> update X fuel w2 i2 x2 = Ok (w3, o3) -> frame_time (in_time i2) -> fair css w2 t2 n -> gives_value css t2 (v_root w2) (v_body w2) n key v ->
  animators (v_tree w2) n = [] -> movers (v_tree w3) n = [tn3] -> same_mover tn tn3 ->
  held X fuel css n key v tn3 w3 ts3 w4 -> Forall frame_time ts3 ->
  (* a frame after that *)
  prepare X fuel w4 input value = Ok (m5, t5, ids5) -> frame_time (in_time input) -> fair css w4 t5 n -> gives_value css t5 (v_root w4) (v_body w4) n key v -> animators (v_tree w4) n = [] ->
  exists c e f, between u u c /\ between c v f /\
    (c = e \/ (e = v /\ cv_eq c v = true)) /\ 
    shows_at t2 n key 0 = match SpecShow.meaning (sizes_at (in_viewport i2) t2 (v_body w2) n) key e with Some y => Some y | None => shows_rest (v_tree w2) t2 n key end /\
    shows_at t5 n key 0 = match SpecShow.meaning (sizes_at (in_viewport input) t5 (v_body w4) n) key f with Some y => Some y | None => shows_rest (v_tree w4) t5 n key end /\
    exists a', played fuel (settings (t_animator tn)) (ts3 ++ [in_time input]) a' /\
      (is_finite (elapsed a') = true -> (B2R (a_duration (t_animator tn)) <= B2R (elapsed a'))%R -> f = v).
Proof.
  intros H0 H Htc Hfw Ho Hlk Htu Huu Htv Hvv Huv Hmw Haw Hpr Hup Hf Hg Hm1 Hkey Htm Hit Hdl Hh1 Hts Hpr2 Hup2 Hft2 Hf2 Hg2 Ha2 Hm3 Hs3 Hh3 Hts3 Hpr5 Hft5 Hf5 Hg5 Ha5.
  (* it begins *)
  assert (Hsin : single_movers (movers (v_tree w) n)) by (rewrite Hmw; constructor).
  pose proof (fair_moving _ _ _ _ _ _ _ _ _ _ _ _ _ _ H0 H Htc Hfw Ho Hpr Hf Haw Hsin) as Hmov.
  destruct (update_prepared _ _ _ _ _ _ _ _ _ _ Hup Hpr) as [Hmo1 _]. 
  assert (Hbeg : transitions tn key u u /\ a_time (t_animator tn) = f0).
  { destruct Hmov as (ds & vars & p & parent & pe & s0 & l & s1 & mv & s & R1 & R2 & R3 & R4 & R5 & R6 & R7 & R8 & R9 & _ & R11). rewrite Haw in R7. rewrite Hmw in R8. inversion R7; subst. inversion R8; subst.
    assert (Hv : s !! (key, 0) = Some u) by (apply R6; by apply Hg). destruct (R11 0) as [E1 E2]. destruct (Hmo1 n) as [_ Hmn]. rewrite Hm1 in Hmn. rewrite <- Hmn in E1, E2. cbn in E1, E2.
    split; [|exact E1]. split; [exact Hkey|]. rewrite (E2 key Hkey Hlk). by rewrite Hv. }
  destruct Hbeg as [T1 Z1]. pose proof (updates_more _ _ _ _ _ _ _ _ _ _ H Hup) as H1.
  destruct (held_runs _ _ _ _ _ _ _ _ _ _ H0 Htc Hfw Ho T1 Hlk Huu _ _ _ Hh1 _ _ H1 Hm1) as (tn2 & h2 & os2 & H2 & M2 & T2 & P2 & S2).
  (* the turn *)
  assert (Hsin2 : single_movers (movers (v_tree w2) n)). { rewrite M2. constructor; [|constructor]. intros k Hk. destruct T2 as [T2 _]. congruence. }
  pose proof (fair_moving _ _ _ _ _ _ _ _ _ _ _ _ _ _ H0 H2 Htc Hfw Ho Hpr2 Hf2 Ha2 Hsin2) as Hmov2.
  destruct (moving_transition _ _ _ _ _ _ _ _ _ _ _ _ _ _ Hmov2 Ha2 M2 T2 Hlk Hg2) as (a2 & shown2 & s2 & tm & Hu2 & Hke2 & Hsh2 & Hx2).
  assert (Hsmo : smooth (t_animator tn)) by done.
  destruct (smooth_progress _ _ _ _ _ _ _ Hsmo Hts Hft2 P2 Hu2) as [y ->]. destruct (progress_in_range _ _ _ _ _ _ _ Htm Z1 Hts Hft2 P2 Hu2) as [Fy Ry].
  destruct Hx2 as (Hsv2 & Q1 & Q2 & _ & Q3). destruct (Q3 Huv) as [Q4 Q5]. set (c := animate u u y) in *.
  assert (Bc : between u u c) by (by apply animate_between). pose proof (between_same_tame _ _ Bc Htu) as Htc2.
  destruct (update_prepared _ _ _ _ _ _ _ _ _ _ Hup2 Hpr2) as [Hmo2 _]. destruct (Hmo2 n) as [_ Hmn2]. rewrite Hm3 in Hmn2. symmetry in Hmn2.
  assert (tn3 = tm) as ->.
  { eapply kept_mover; [exact Hke2|exact Hmn2| | |by rewrite Q4].
    - rewrite Q1. destruct Hs3 as [A1 _], S2 as [B1 _]. unfold set. cbn [t_key]. congruence.
    - rewrite Q2. unfold set. cbn [t_animator]. rewrite (after_update _ _ _ _ _ Hu2). destruct Hs3 as [_ A1], S2 as [_ B1]. congruence. }
  assert (T3 : transitions tm key c v). { split; [|exact Q4]. rewrite Q1. unfold set. cbn [t_key]. by destruct T2. }
  pose proof (updates_more _ _ _ _ _ _ _ _ _ _ H2 Hup2) as H3.
  destruct (held_runs _ _ _ _ _ _ _ _ _ _ H0 Htc Hfw Ho T3 Hlk Hvv _ _ _ Hh3 _ _ H3 Hm3) as (tn4 & h4 & os4 & H4 & M4 & T4 & P4 & S4).
  (* the frame after *)
  assert (Hsin4 : single_movers (movers (v_tree w4) n)). { rewrite M4. constructor; [|constructor]. intros k Hk. destruct T4 as [T4 _]. congruence. }
  pose proof (fair_moving _ _ _ _ _ _ _ _ _ _ _ _ _ _ H0 H4 Htc Hfw Ho Hpr5 Hf5 Ha5 Hsin4) as Hmov5.
  destruct (moving_transition _ _ _ _ _ _ _ _ _ _ _ _ _ _ Hmov5 Ha5 M4 T4 Hlk Hg5) as (a5 & shown5 & s5 & tm5 & Hu5 & _ & Hsh5 & Hx5).
  destruct Hs3 as [_ Hset3]. pose proof (settings_fields _ _ Hset3) as (_ & F2 & _ & F4 & _ & _ & F7 & F8).
  assert (Htm3 : timed (t_animator tm)). { unfold timed in *. by rewrite F4, F2, F7. }
  assert (Hsmo3 : smooth (t_animator tm)). { split; [done|]. rewrite F7, F2. done. }
  destruct (smooth_progress _ _ _ _ _ _ _ Hsmo3 Hts3 Hft5 P4 Hu5) as [z ->]. destruct (progress_in_range _ _ _ _ _ _ _ Htm3 Q5 Hts3 Hft5 P4 Hu5) as [Fz Rz].
  destruct Hx5 as [Hsv5 _]. set (d := animate c v z) in *. assert (Bd : between c v d) by (by apply animate_between).
  assert (He2 : exists e, s2 !! (key, 0) = Some e /\ (c = e \/ (e = v /\ cv_eq c v = true))). { destruct Hsv2 as [E|[E E']]; [exists c|exists v]; auto. }
  assert (He5 : exists f, s5 !! (key, 0) = Some f /\ (f = d \/ f = v)). { destruct Hsv5 as [E|[E E']]; [exists d|exists v]; auto. }
  destruct He2 as (e & E2 & E2'), He5 as (f & E5 & E5'). exists c, e, f. split; [exact Bc|]. split; [destruct E5' as [->| ->]; [exact Bd|apply between_second]|]. split; [exact E2'|].
  split; [by apply Hsh2|]. split; [by apply Hsh5|].
  assert (Es : settings (t_animator tn) = t_animator tm). { rewrite <- Hset3. apply same_animator; [done|]. exact (eq_sym Q5). }
  exists a5. split; [rewrite Es; eapply played_frame; [exact P4|exact Hu5]|]. intros Fe Re. destruct E5' as [->| ->]; [|done].
  assert (Hov : over a5).
  { pose proof Hu5 as Hx. apply update_frame in Hx as [Hx _]. destruct (played_clock _ _ _ _ P4 (fresh_is_clock _ Q5) Hts3) as (_ & Sm & _).
    pose proof (same_timing_trans _ _ _ Sm (after_same (in_time input) (t_animator tn4))) as Sm5. rewrite <- Hx in Sm5. pose proof (same_timing_timed _ _ Sm5 Htm3) as T5. destruct Sm5 as (Sd & _ & Si & _).
    apply over_enough; [exact T5|congruence|exact Fe|]. rewrite <- Sd, F4. exact Re. }
  destruct (ends_at_one _ _ _ _ _ _ _ _ Htm3 Q5 (one_iteration _ Htm3 ltac:(congruence)) Hts3 Hft5 P4 Hu5 Hov) as [_ E1]. by apply animate_ends.
Qed.

(** ** An animation that is not given any more *)
Lemma animated_other fuel css time vars l s l' s' (d : Descriptor) : animated fuel css time vars l s l' s' ->
  (forall name an stops, css_animations css !! name = Some an -> stops_of fuel vars an stops -> ~ mentioned stops d) -> s' !! d = s !! d.
Proof.
  intros H Hno. induction H as [s|a l s l' s' _ _ IH|an a a' l s l' s' _ _ _ IH|an a a' x stops l s s1 l' s' Hk _ Hst [_ Hf] _ IH]; [done|exact IH|exact IH|].
  etransitivity; [exact IH|]. apply Hf. exact (Hno _ _ _ Hk Hst).
Qed.
Lemma transited_other fuel time l s l' s' (d : Descriptor) : transited fuel time l s l' s' -> single_movers l -> listed (fst d) = true -> s' !! d = s !! d.
Proof.
  intros H Hs Hd. induction H as [s|tn l s l' s' _ _ IH|key tn a l s l' s' _ _ _ IH|key tn a x l s l' s' _ _ _ _ IH|key from to tn tn1 a x v l s s1 l' s' Ht _ _ _ Hf _ _ IH]; [done|..].
  all: inversion Hs as [|? ? Hx Hs']; subst.
  1-3: by apply IH.
  etransitivity; [exact (IH Hs')|]. apply Hf. intros ->. cbn [fst] in Hd. destruct Ht as [Ht _]. specialize (Hx _ Ht). congruence.
Qed.
Lemma animated_at fuel css time vars l s l' s' : animated fuel css time vars l s l' s' -> forall j a, l !! j = Some a -> exists a', l' !! j = Some a' /\ settings a' = settings a /\
  match css_animations css !! a_name a with Some _ => exists shown, animator_update fuel time a = Ok (a', shown) | None => a' = a end.
Proof.
  induction 1 as [s|a l s l' s' Hk _ IH|an a a' l s l' s' Hk Hu _ IH|an a a' x stops l s s1 l' s' Hk Hu Hst _ _ IH]; intros j b Hj; [done|..]; destruct j as [|j]; try exact (IH j b Hj); injection Hj as <-; rewrite Hk.
  - by exists a.
  - exists a'. split; [done|]. apply update_frame in Hu as Hx. split; [|by eexists]. destruct Hx as [-> _]. apply after_settings.
  - exists a'. split; [done|]. apply update_frame in Hu as Hx. split; [|by eexists]. destruct Hx as [-> _]. apply after_settings.
Qed.
Theorem moving_goes_on fuel css time viewport root body before t n : shows_moving fuel css time viewport root body before t n -> single_movers (movers before n) ->
  (forall ds vars k i, declarations css t root n ds -> scope css t root body n vars -> place_of k = PlAnimators -> ungiven vars ds k i) ->
  (forall name an vars stops d, css_animations css !! name = Some an -> stops_of fuel vars an stops -> mentioned stops d -> place_of (fst d) <> PlAnimators) ->
  forall j a, animators before n !! j = Some a -> exists a', animators t n !! j = Some a' /\
    match css_animations css !! a_name a with Some _ => exists shown, animator_update fuel time a = Ok (a', shown) | None => a' = a end.
Proof.
  intros (ds & vars & p & parent & pe & s0 & l & s1 & mv & s & R1 & R2 & R3 & R4 & R5 & R6 & R7 & R8 & R9 & [R10 R10'] & _) Hsm Hun Hst j a Hj.
  destruct (animated_at _ _ _ _ _ _ _ _ R7 j a Hj) as (a1 & Ha1 & Hset & Hup).
  assert (Hlt : j < List.length (animators t n)) by (apply lookup_lt_Some in Ha1; lia). destruct (lookup_lt_is_Some_2 _ _ Hlt) as [b Hb].
  exists b. split; [exact Hb|]. assert (b = a1) as ->; [|exact Hup].
  assert (Hlook : forall k, place_of k = PlAnimators -> shows_at t n k j = shows_at before n k j).
  { intros k Hk. assert (Hlk : listed k = true) by (unfold listed; by rewrite Hk). destruct (R9 k j ltac:(by left)) as [_ C2]. cbv zeta in C2. rewrite C2.
    - unfold rest_value. by destruct k.
    - etransitivity; [exact (transited_other _ _ _ _ _ _ (k, j) R8 Hsm Hlk)|]. etransitivity; [apply (animated_other _ _ _ _ _ _ _ _ (k, j) R7)|].
      + intros name an stops Hn Hs Hm. exact (Hst _ _ _ _ _ Hn Hs Hm Hk).
      + apply R6. by apply Hun. }
  assert (HA : forall x c, animators x n !! j = Some c -> exists y e, t_nodes x !! n = Some y /\ n_ctx y = Some e /\ animator_at j e = c).
  { intros x c Hx. unfold animators in Hx. destruct (get_ctx x n) as [e|] eqn:E; [|done]. destruct (ctx_node _ _ _ E) as [y Hy]. exists y, e. split; [done|]. split; [unfold get_ctx in E; by rewrite Hy in E|].
    unfold animator_at. by rewrite Hx. }
  destruct (HA t b Hb) as (y & e & Y1 & Y2 & Y3). destruct (HA before a Hj) as (z & e' & Z1 & Z2 & Z3).
  assert (Hlk2 : forall k, place_of k = PlAnimators -> look k j (n_style y, e) = look k j (n_style z, e')).
  { intros k Hk. specialize (Hlook k Hk). unfold shows_at in Hlook. rewrite Y1, Z1 in Hlook. cbn in Hlook. rewrite Y2, Z2 in Hlook. exact Hlook. }
  apply same_animator.
  - rewrite Hset. pose proof (Hlk2 KAnimationName eq_refl) as L1. pose proof (Hlk2 KAnimationDelay eq_refl) as L2. pose proof (Hlk2 KAnimationDirection eq_refl) as L3. pose proof (Hlk2 KAnimationDuration eq_refl) as L4.
    pose proof (Hlk2 KAnimationFillMode eq_refl) as L5. pose proof (Hlk2 KAnimationIterationCount eq_refl) as L6. pose proof (Hlk2 KAnimationPlayState eq_refl) as L7. pose proof (Hlk2 KAnimationTimingFunction eq_refl) as L8.
    cbn [look] in *. rewrite Y3, Z3 in *. destruct a, b. cbn in *. unfold settings, set. cbn. by simplify_eq.
  - specialize (R10' j). unfold clock_of in R10'. rewrite Hb, Ha1 in R10'. exact R10'.
Qed.
