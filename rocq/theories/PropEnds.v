(** * Updates end: C39.

    Vocabulary: SpecEnds.v ([ends], [never_ends], [ranked], [tame_timers]),
    SpecAnim.v ([elapsed], [active_time]), SpecPage.v ([quiet_css], [styled_element]). *)
From Coq Require Import ZArith Reals Lia Lra.
From stdpp Require Import gmap.
From RecordUpdate Require Import RecordUpdate.
From Flocq Require Import Core.Core IEEE754.BinarySingleNaN.
From Verif Require Import Str F32 Res ResFacts Json PropKey Html Css Element Tree ViewModel Render Update Matching
  Cascade Initial Animation Apply Styling Events View SpecLive SpecView SpecTree SpecSelect SpecStyle SpecShow SpecPage SpecAnim SpecEnds
  FloatFacts AnimFloat AnimProps StyleView StyleRest EndsTimer EndsFacts EndsPage EndsMore Samples PropSelect StyleSamples PropStyle PropAnim.
Close Scope R_scope.

Lemma history_page X fuel css t0 : forall hist v v' os, page_inv X css t0 v -> updates X fuel v hist = Ok (v', os) -> page_inv X css t0 v'.
Proof.
  induction hist as [|[i x] hist IH]; intros v v' os Hp H; cbn [updates] in H; [by injection H as <- <-|].
  apply bindR_Ok in H as ([v1 o] & Hu & H). apply bindR_Ok in H as ([v2 os'] & H' & [= <- <-]). eapply IH; [|exact H']. by eapply update_inv.
Qed.

(** ** When updates end *)
(** On every page, after every history, an update ends if the application's
    transformers do, no custom property refers to itself and no timer has gone
    round too often; missing: the timers, see below. *)
Theorem C39_update_ends_partial X fuel doc css v0 hist v os i x :
  from_document X fuel doc css = Ok v0 -> updates X fuel v0 hist = Ok (v, os) ->
  halting (x_transformers X) -> tame_timers (in_time i) (v_tree v) ->
  forall rank, ranked rank css -> inline_along (ranked_declaration rank) X v [(i, x)] ->
  ends (fun fuel => update X fuel v i x).
Proof.
  intros H0 H Ht Hm rank Hr Hi. destruct (loaded_inv _ _ _ _ _ H0) as (t0 & Hp). eapply update_ends; [by eapply history_page|exact Ht|exact Hr|exact Hi|exact Hm].
Qed.
Print Assumptions C39_update_ends_partial.
(** If nothing asks for an animation or a transition, every history ends. *)
Theorem C39_quiet_pages_end X fuel doc css v0 hist rank :
  from_document X fuel doc css = Ok v0 -> halting (x_transformers X) -> (forall s, x_order X s ≡ₚ map_to_list s) ->
  ranked rank css -> inline_along (ranked_declaration rank) X v0 hist -> quiet_css css -> inline_along quiet_declaration X v0 hist ->
  ends (fun fuel => updates X fuel v0 hist).
Proof.
  intros H0 Ht Ho Hr Hri Hq Hqi. destruct (loaded_inv _ _ _ _ _ H0) as (t0 & Hp). eapply quiet_from; [done..|exact Hp|by eapply loaded_rest].
Qed.
Print Assumptions C39_quiet_pages_end.
(** An animation with a number of iterations, up to 2^23 of them, always ends... *)
Theorem C39_counted_animation_ends time a n : a_iterations a = AINumber n -> is_finite n = true -> (0 <= B2R n <= bpow radix2 23)%R ->
  is_finite (a_duration a) = true -> (0 <= B2R (a_duration a))%R -> is_finite (elapsed (advanced time a)) = true ->
  ends (fun fuel => animator_update fuel time a).
Proof. intros H1 H2 H3 H4 H5 H6. apply few_end. by eapply counted_few. Qed.
Print Assumptions C39_counted_animation_ends.
(** ...and an endless one while it has not run for more than 2^23 times its
    duration. *)
Theorem C39_endless_animation_ends time a : a_iterations a = AIInfinite ->
  is_finite (a_duration a) = true -> (0 < B2R (a_duration a))%R -> is_finite (elapsed (advanced time a)) = true ->
  (B2R (elapsed (advanced time a)) <= bpow radix2 23 * B2R (a_duration a))%R ->
  ends (fun fuel => animator_update fuel time a).
Proof.
  intros H1 H2 H3 H4 H5. apply few_end. right. right.
  assert (E : a_duration (advanced time a) = a_duration a /\ a_iterations (advanced time a) = AIInfinite) by (unfold advanced; by destruct (_ && _)).
  destruct E as [E1 E2]. unfold active_time. by rewrite E1, E2.
Qed.
Print Assumptions C39_endless_animation_ends.

(** ** When they do not *)
(** An endless animation whose duration is zero or negative. *)
Theorem C39_no_duration_refuted time a : a_iterations a = AIInfinite -> is_finite (a_duration a) = true -> (B2R (a_duration a) <= 0)%R ->
  flt (elapsed (advanced time a)) f0 = false -> fgt (elapsed (advanced time a)) (a_duration a) = true ->
  never_ends (fun fuel => animator_update fuel time a).
Proof.
  intros H1 H2 H3 H4 H5. apply animator_never; [exact H4|].
  assert (E : active_time (advanced time a) = elapsed (advanced time a)) by (unfold active_time, advanced; destruct (_ && _); unfold set; cbn [a_iterations]; by rewrite H1).
  rewrite E. assert (N : is_nan (elapsed (advanced time a)) = false) by (destruct (elapsed (advanced time a)); try done; by destruct (a_duration a)).
  apply back_never; [exact H2|exact H3|exact N|]. unfold fgt in H5. apply (flt_wide _ _ (finite_not_nan _ H2) N) in H5. by rewrite (wide_finite _ H2) in H5.
Qed.
Print Assumptions C39_no_duration_refuted.
(** An endless animation that has run for more than 2^26 times its duration. *)
Theorem C39_short_duration_refuted time a : a_iterations a = AIInfinite -> is_finite (a_duration a) = true -> (0 < B2R (a_duration a))%R ->
  is_finite (elapsed (advanced time a)) = true -> (bpow radix2 26 * B2R (a_duration a) < B2R (elapsed (advanced time a)))%R ->
  never_ends (fun fuel => animator_update fuel time a).
Proof.
  intros H1 H2 H3 H4 H5. apply animator_never.
  - destruct (flt _ _) eqn:E; [|done]. apply (flt_real _ f0 H4 eq_refl) in E. change (B2R f0) with 0%R in E. assert (B26 : bpow radix2 26 = 67108864%R) by reflexivity. rewrite B26 in H5. lra.
  - assert (E : active_time (advanced time a) = elapsed (advanced time a)) by (unfold active_time, advanced; destruct (_ && _); unfold set; cbn [a_iterations]; by rewrite H1).
    rewrite E. by apply short_never.
Qed.
Print Assumptions C39_short_duration_refuted.
(** A transition of a property the element had no value for, when it gets one. *)
Theorem C39_transition_refuted fuel time tn k (style : ComputedStyle) x a : t_key tn = Some k -> t_range tn = None ->
  animator_update fuel time (t_animator tn) = Ok (a, Some x) -> is_Some (style !! ((k, 0) : Descriptor)) ->
  transition_play fuel time tn style = Hang.
Proof. exact (range_never fuel time tn k style x a). Qed.
Print Assumptions C39_transition_refuted.
(** A page that shows an element with such a timer is stuck: no update succeeds,
    whatever the bound. *)
Theorem C39_stuck_animation_refuted X fuel doc css v0 hist v os fuel' i x m t ids n e a :
  from_document X fuel doc css = Ok v0 -> updates X fuel v0 hist = Ok (v, os) ->
  get_ctx (v_tree v) n = Some e -> a ∈ e_animators e -> is_Some (css_animations css !! a_name a) ->
  never_ends (fun fuel => animator_update fuel (in_time i) a) -> styled_element t (v_body v) n -> prepare X fuel' v i x <> Ok (m, t, ids).
Proof.
  intros H0 H He Hin Ha Hn Hel. destruct (loaded_inv _ _ _ _ _ H0) as (t0 & Hp). pose proof (history_page _ _ _ _ _ _ _ _ Hp H) as Hp'.
  rewrite (pi_body _ _ _ _ Hp') in Hel. by eapply stuck_animation.
Qed.
Print Assumptions C39_stuck_animation_refuted.
Theorem C39_stuck_transition_refuted X fuel doc css v0 hist v os fuel' i x m t ids n e tn :
  from_document X fuel doc css = Ok v0 -> updates X fuel v0 hist = Ok (v, os) ->
  get_ctx (v_tree v) n = Some e -> tn ∈ e_transitions e -> is_Some (t_key tn) ->
  never_ends (fun fuel => animator_update fuel (in_time i) (t_animator tn)) -> styled_element t (v_body v) n -> prepare X fuel' v i x <> Ok (m, t, ids).
Proof.
  intros H0 H He Hin Ha Hn Hel. destruct (loaded_inv _ _ _ _ _ H0) as (t0 & Hp). pose proof (history_page _ _ _ _ _ _ _ _ Hp H) as Hp'.
  rewrite (pi_body _ _ _ _ Hp') in Hel. by eapply stuck_transition.
Qed.
Print Assumptions C39_stuck_transition_refuted.

(** ** Cases *)
(** a quiet page with a custom property *)
Example ink_ends : exists v rank, from_document inks 20 ink_page ink_css = Ok v /\ halting (x_transformers inks) /\ ranked rank ink_css /\
  quiet_css ink_css /\ (forall s, x_order inks s ≡ₚ map_to_list s) /\
  forall hist, inline_along (ranked_declaration rank) inks v hist /\ inline_along quiet_declaration inks v hist.
Proof.
  destruct ink_parts as (v & m & t & ids & H0 & _). exists v, (fun _ => 0). split; [exact H0|]. destruct ink_tidy as (_ & _ & Q1 & Q2). split; [intros name f w Hf; assert (E : Some f = None) by (etransitivity; [symmetry; exact Hf|exact (lookup_empty name)]); discriminate E|].
  split; [|split; [exact Q1|split; [done|intros hist; split; [|exact (along_read inks 20 _ _ v [] v [] _ _ H0 eq_refl Q2)]]]].
  - intros s Hs. unfold ink_css, ink_rules in Hs. cbn [css_styles] in Hs. rewrite !elem_of_cons in Hs. destruct Hs as [->|[->|Hs]]; [| |by apply elem_of_nil in Hs].
    + constructor; [intros ref []|]. constructor; [done|constructor].
    + repeat constructor.
  - apply (along_read inks 20 _ _ v [] v [] _ _ H0 eq_refl). intros s ds Hs. unfold inks in Hs. cbn [x_read_inline_css] in Hs. destruct (String.eqb s "visibility: hidden"); [|done]. injection Hs as <-. repeat constructor.
Qed.
(** a page with an endless animation of two seconds: it runs, and its timers are tame *)
Definition seconds (n : Z) : ComputedValue := CTime (f32_of_Z n).
Definition grow : Animation := mkAnimation "grow" [mkKeyframe 0 [give KWidth (px 0)]; mkKeyframe 100 [give KWidth (px 50)]].
Definition spin_css (duration delay : Z) : Css :=
  mkCss [rule [[SType "p"]] [give KAnimationName (CKeyword "grow"); give KAnimationDuration (seconds duration); give KAnimationDelay (seconds delay); give KAnimationIterationCount (CKeyword "infinite")]]
    {["grow" := grow]}.
Definition spin_page : Html := document [elem "p" [] []].
Definition second : Input := mkInput f1 (f100, f100) [].
Definition calm_timer (time : f32) (a : Animator) : bool := flt (elapsed (advanced time a)) f0 || negb (fgt (active_time (advanced time a)) (a_duration (advanced time a))).
Definition calm_tree (time : f32) (t : Tree) : bool :=
  forallb (fun kn => match n_ctx (snd kn) with None => true | Some e => forallb (calm_timer time) (e_animators e) && match e_transitions e with [] => true | _ => false end end) (map_to_list (t_nodes t)).
Lemma calm_tame time t : calm_tree time t = true -> tame_timers time t.
Proof.
  intros H n e He. unfold calm_tree in H. rewrite forallb_forall in H. unfold get_ctx in He. destruct (t_nodes t !! n) as [nd|] eqn:E; [|done]. cbn in He.
  specialize (H (n, nd)). cbn [snd] in H. rewrite He in H. apply andb_prop in H as [Ha Ht]; [|apply elem_of_list_In, elem_of_map_to_list; exact E].
  destruct (e_transitions e); [|done]. split; [|constructor]. rewrite forallb_forall in Ha. apply list.Forall_forall. intros a Hin. apply elem_of_list_In in Hin. specialize (Ha a Hin).
  unfold calm_timer in Ha. unfold few_laps. apply orb_prop in Ha as [Ha|Ha]; [by left|]. right. left. by apply negb_true_iff.
Qed.
Definition timers (t : Tree) : nat := List.length (List.concat (map (fun kn => match n_ctx (snd kn) with None => [] | Some e => e_animators e end) (map_to_list (t_nodes t)))).
Example spin_tame : exists v0 v os, from_document world 20 spin_page (spin_css 2 0) = Ok v0 /\ updates world 20 v0 [(second, JObj []); (second, JObj [])] = Ok (v, os) /\
  tame_timers f1 (v_tree v) /\ timers (v_tree v) = 1.
Proof.
  assert (H : match run world spin_page (spin_css 2 0) [(second, JObj []); (second, JObj [])] with Ok (v, _) => calm_tree f1 (v_tree v) && Nat.eqb (timers (v_tree v)) 1 | _ => false end = true) by (vm_compute; reflexivity).
  unfold run in H. destruct (from_document world 20 spin_page (spin_css 2 0)) as [v0| | |] eqn:E0; try discriminate H. cbn [bindR] in H.
  destruct (updates world 20 v0 [(second, JObj []); (second, JObj [])]) as [[v os]| | |] eqn:E; try discriminate H.
  apply andb_prop in H as [H1 H2]. exists v0, v, os. split; [done|]. split; [exact E|]. split; [by apply calm_tame|]. by apply Nat.eqb_eq.
Qed.
(** the page is stuck in its second update when the duration is negative, or zero
    with a negative delay *)
Example spin_stuck : outcome_kind (run world spin_page (spin_css (-1) 0) [(second, JObj [])]) = "ok" /\
  outcome_kind (run world spin_page (spin_css (-1) 0) [(second, JObj []); (second, JObj [])]) = "hang" /\
  outcome_kind (run world spin_page (spin_css 0 (-1)) [(second, JObj []); (second, JObj [])]) = "hang".
Proof. vm_compute. done. Qed.
Definition backwards : Animator := animator (f32_of_Z (-1)) f0 AIInfinite.
Example backwards_never : never_ends (fun fuel => animator_update fuel f1 backwards).
Proof.
  apply C39_no_duration_refuted; [done|vm_compute; reflexivity| |vm_compute; reflexivity..].
  assert (H : flt (a_duration backwards) f0 = true) by (vm_compute; reflexivity). assert (F : is_finite (a_duration backwards) = true) by (vm_compute; reflexivity). apply (flt_real (a_duration backwards) f0 F eq_refl) in H. change (B2R f0) with 0%R in H. lra.
Qed.
(** one millisecond, after 2^17 seconds (36 hours) *)
Definition flicker : Animator := animator (f32_num 1 (-10)) f0 AIInfinite <| a_time := f32_num 1 17 |>.
Example flicker_never : never_ends (fun fuel => animator_update fuel f1 flicker).
Proof.
  assert (Hf : (B2R (f32_num 1 17) <= B2R (elapsed (advanced f1 flicker)))%R).
  { assert (H : fle (f32_num 1 17) (elapsed (advanced f1 flicker)) = true) by (vm_compute; reflexivity). apply fle_real in H; [exact H|vm_compute; reflexivity..]. }
  apply C39_short_duration_refuted; [done|vm_compute; reflexivity| |vm_compute; reflexivity|].
  - change (a_duration flicker) with (f32_num 1 (-10)). rewrite power by lia. apply bpow_gt_0.
  - change (a_duration flicker) with (f32_num 1 (-10)). rewrite power by lia. rewrite power in Hf by lia. eapply Rlt_le_trans; [|exact Hf]. rewrite <- bpow_plus. apply bpow_lt. lia.
Qed.
(** a transition of the colour, with a duration, of an element that gets its
    colour only when hovered *)
Definition fade_css : Css := mkCss [rule [[SType "p"]] [give KTransitionProperty (CKeyword "color"); give KTransitionDuration (seconds 1)];
  rule [[SType "p"; SPseudoClass "hover"]] [give KColor (CColor blue)]] ∅.
Example fade_stuck : outcome_kind (run boxes spin_page fade_css [(second, JObj [])]) = "ok" /\
  outcome_kind (run boxes spin_page fade_css [(second, JObj []); (second, JObj [])]) = "hang".
Proof. vm_compute. done. Qed.
