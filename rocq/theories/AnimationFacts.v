(** * Animation tracks and transitions: what they write, and that the order of the
      tracks does not matter. *)
From Coq Require Import ZArith Lia.
From stdpp Require Import gmap.
From RecordUpdate Require Import RecordUpdate.
From Verif Require Import Str F32 Res ResFacts PropKey Css Element Tree Matching Cascade Initial Animation Apply Styling SpecStyle SpecShow
  ApplyFacts CascadeFacts ShowFacts.

(** ** Tracks *)
Definition track_value (tr : AnimationTrack) (t : Z) : res ComputedValue :=
  let '(a, b) := neighbours t (map fst (tr_frames tr)) 0 0 in
  if (a <? b)%Z then
    do! va <- unwrap (z_get a (tr_frames tr));
    do! vb <- unwrap (z_get b (tr_frames tr));
    Ok (animate va vb (fdiv (f_of (t - a)) (f_of (b - a))))
  else unwrap (z_get a (tr_frames tr)).
Lemma play_track_value tr t s : play_track tr t s = do! v <- track_value tr t; Ok (<[tr_descriptor tr := v]> s).
Proof.
  unfold play_track, track_value. destruct (neighbours _ _ _ _) as [a b]. destruct (a <? b)%Z.
  - destruct (z_get a _); cbn [unwrap bindR]; [|done]. by destruct (z_get b _).
  - by destruct (z_get a _).
Qed.
Lemma track_value_cases tr t : (exists v, track_value tr t = Ok v) \/ track_value tr t = Panic.
Proof.
  unfold track_value. destruct (neighbours _ _ _ _) as [a b]. destruct (a <? b)%Z.
  - destruct (z_get a _); cbn [unwrap bindR]; [|by right]. destruct (z_get b _); cbn [unwrap bindR]; [|by right]. left. eauto.
  - destruct (z_get a _); cbn [unwrap bindR]; [|by right]. left. eauto.
Qed.
(** playing does not depend on the order of the tracks *)
Lemma play_tracks_perm trs trs' t : trs ≡ₚ trs' -> NoDup (map tr_descriptor trs) -> forall s,
  foldR (fun s tr => play_track tr t s) s trs = foldR (fun s tr => play_track tr t s) s trs'.
Proof.
  assert (Hp : forall trs s, (exists tr, tr ∈ trs /\ track_value tr t = Panic) -> foldR (fun s tr => play_track tr t s) s trs = Panic).
  { clear. induction trs as [|tr trs IH]; intros s (x & Hx & Hp); [by apply elem_of_nil in Hx|]. cbn [foldR]. rewrite play_track_value.
    destruct (track_value_cases tr t) as [[v Hv]|Hv]; rewrite Hv; [|done]. cbn [bindR]. apply IH.
    apply elem_of_cons in Hx as [->|Hx]; [congruence|]. by exists x. }
  induction 1 as [|tr trs trs' Hperm IH|tr tr' trs|trs1 trs2 trs3 H1 IH1 H2 IH2]; intros Hnd s.
  - done.
  - cbn [foldR]. rewrite play_track_value. destruct (track_value tr t); cbn [bindR]; try done. apply IH. by inversion Hnd.
  - cbn [foldR]. rewrite !play_track_value. destruct (track_value_cases tr t) as [[v Hv]|Hv], (track_value_cases tr' t) as [[v' Hv']|Hv']; rewrite Hv, Hv'; cbn [bindR];
      rewrite ?play_track_value, ?Hv, ?Hv'; cbn [bindR]; try done.
    f_equal. apply insert_commute. cbn [map] in Hnd. apply list.NoDup_cons in Hnd as [Hnd _]. intros He. apply Hnd. rewrite He. apply elem_of_list_here.
  - rewrite IH1 by done. apply IH2. by rewrite <- H1.
Qed.
(** nor do the tracks on the order of the animated properties *)
Definition fill1 (style fr : ComputedStyle) (d : Descriptor) : ComputedStyle :=
  match fr !! d with
  | Some _ => fr
  | None => <[d := match style !! d with Some v => v | None => initial (fst d) end]> fr
  end.
Lemma fill1_at style fr d d' : fill1 style fr d !! d' =
  match fr !! d' with Some x => Some x | None => if decide (d = d') then Some (match style !! d with Some v => v | None => initial (fst d) end) else None end.
Proof.
  unfold fill1. destruct (fr !! d) as [x|] eqn:E.
  - destruct (fr !! d') eqn:E'; [done|]. destruct (decide (d = d')) as [->|]; [congruence|done].
  - destruct (decide (d = d')) as [<-|Hne].
    + rewrite E. exact (lookup_insert fr d _).
    + transitivity (fr !! d'); [exact (lookup_insert_ne fr d d' _ Hne)|]. by destruct (fr !! d').
Qed.
Lemma fill_frame_perm ds ds' style frame : ds ≡ₚ ds' -> fill_frame ds style frame = fill_frame ds' style frame.
Proof.
  intros H. change (foldl (fill1 style) frame ds = foldl (fill1 style) frame ds'). revert frame.
  induction H as [|d ds ds' _ IH|d d' ds|ds1 ds2 ds3 H1 IH1 H2 IH2]; intros frame; cbn [foldl].
  - done.
  - apply IH.
  - f_equal. apply (map_eq (M := gmap Descriptor)). intros x. change (fill1 style (fill1 style frame d') d !! x = fill1 style (fill1 style frame d) d' !! x).
    rewrite !fill1_at. destruct (frame !! x); [done|]. by destruct (decide (d = x)), (decide (d' = x)); subst.
  - by rewrite IH1, IH2.
Qed.
Lemma tracks_of_descriptors ds style kfs : map tr_descriptor (tracks_of ds style kfs) = ds.
Proof. unfold tracks_of. cbv zeta. rewrite map_map. apply map_id. Qed.
Theorem tracks_perm ds ds' style kfs t s : ds ≡ₚ ds' -> NoDup ds ->
  foldR (fun s tr => play_track tr t s) s (tracks_of ds style kfs) = foldR (fun s tr => play_track tr t s) s (tracks_of ds' style kfs).
Proof.
  intros Hp Hnd. apply play_tracks_perm; [|by rewrite tracks_of_descriptors].
  unfold tracks_of. cbv zeta.
  assert (Hf : forall step kfs, fill_step ds style step kfs = fill_step ds' style step kfs).
  { intros step k. unfold fill_step. by rewrite (fill_frame_perm ds ds'). }
  rewrite !Hf. by apply Permutation_map.
Qed.

(** ** One entry for each property that has room for one *)
Lemma single_insert (s : ComputedStyle) d v : single s -> (listed (fst d) = true \/ snd d = 0) -> single (<[d := v]> s).
Proof.
  intros Hs Hd k i w H. destruct (decide (d = (k, i))) as [->|Hne]; [exact Hd|].
  assert (Hx : (<[d := v]> s : ComputedStyle) !! (k, i) = s !! (k, i)) by by apply lookup_insert_ne. rewrite Hx in H. by eapply Hs.
Qed.
Lemma single_empty : single ∅.
Proof. intros k i v H. assert (Hx : (∅ : ComputedStyle) !! (k, i) = None) by apply lookup_empty. congruence. Qed.
Lemma keyframe_single fuel vars ds : Forall tidy_declaration ds -> forall s, keyframe_style fuel vars ds = Ok s -> single s.
Proof.
  intros Ht. unfold keyframe_style. assert (H0 := single_empty). revert H0. generalize (∅ : ComputedStyle) as s0.
  induction Ht as [|d ds Hd _ IH]; intros s0 H0 s H; cbn [foldR] in H; [by injection H as <-|].
  apply bindR_Ok in H as (s1 & H1 & H). apply (IH s1); [|exact H]. destruct d as [v|p]; [by injection H1 as <-|]. by eapply values_single.
Qed.
Lemma tracks_single fuel vars an style trs : (forall kf, kf ∈ an_keyframes an -> Forall tidy_declaration (kf_declaration kf)) ->
  compute_animation_tracks fuel vars an style = Ok trs -> forall tr, tr ∈ trs -> listed (fst (tr_descriptor tr)) = true \/ snd (tr_descriptor tr) = 0.
Proof.
  intros Ht H tr Htr. unfold compute_animation_tracks in H. apply bindR_Ok in H as ([animated kfs] & Hf & [= <-]).
  assert (Hin : tr_descriptor tr ∈ elements animated).
  { rewrite <- (tracks_of_descriptors (elements animated) style kfs). apply elem_of_list_fmap. by exists tr. }
  apply elem_of_elements in Hin.
  assert (Hall : forall l an0 k0 an1 k1, (forall kf, kf ∈ l -> Forall tidy_declaration (kf_declaration kf)) ->
    foldR (fun '(animated, kfs) kf => do! s <- keyframe_style fuel vars (kf_declaration kf); Ok (animated ∪ dom s, z_insert (kf_step kf) s kfs)) (an0, k0) l = Ok (an1, k1) ->
    (forall d : Descriptor, d ∈ an0 -> listed (fst d) = true \/ snd d = 0) -> forall d : Descriptor, d ∈ an1 -> listed (fst d) = true \/ snd d = 0).
  { clear. induction l as [|kf l IH]; intros an0 k0 an1 k1 Hl H H0; cbn [foldR] in H; [by injection H as <- <-|].
    apply bindR_Ok in H as ([an2 k2] & H2 & H). apply bindR_Ok in H2 as (s & Hs & [= <- <-]). eapply IH; [|exact H|].
    - intros kf' Hk. apply Hl. by apply elem_of_list_further.
    - intros [k i] Hd. apply elem_of_union in Hd as [Hd|Hd]; [by apply H0|]. apply elem_of_dom in Hd as [v Hv].
      apply (keyframe_single _ _ _ (Hl kf ltac:(apply elem_of_list_here)) _ Hs k i v Hv). }
  eapply Hall; [exact Ht|exact Hf| |exact Hin]. intros d Hd. by apply not_elem_of_empty in Hd.
Qed.
Lemma foldR_keeps {A B} (P : A -> Prop) (f : A -> B -> res A) l : (forall a b a', b ∈ l -> f a b = Ok a' -> P a -> P a') ->
  forall a a', foldR f a l = Ok a' -> P a -> P a'.
Proof.
  induction l as [|b l IH]; intros Hf a a' H Ha; cbn [foldR] in H; [by injection H as <-|]. apply bindR_Ok in H as (a1 & H1 & H).
  eapply IH; [|exact H|]; [|eapply Hf; [apply elem_of_list_here|exact H1|exact Ha]]. intros x y z Hy. apply Hf. by apply elem_of_list_further.
Qed.
Lemma animators_single fuel css time vars l s l' s' : tidy_css css -> play_animators fuel css time vars (l, s) = Ok (l', s') -> single s -> single s'.
Proof.
  intros [_ Ht] H Hs. unfold play_animators in H. cbn [fst snd] in H.
  apply (foldR_keeps (fun st => single (snd st))) in H; [exact H| |exact Hs]. clear -Ht. intros [acc s] a [acc1 s1] _ H1 Hs. cbn [snd] in *.
  destruct (css_animations css !! a_name a) as [an|] eqn:E; [|by injection H1 as <- <-].
  apply bindR_Ok in H1 as (trs & Htr & H1). apply bindR_Ok in H1 as ([a1 s2] & H1 & [= <- <-]).
  unfold animator_play in H1. apply bindR_Ok in H1 as ([a2 x] & _ & H1). destruct x as [x|]; [|by injection H1 as <- <-].
  apply bindR_Ok in H1 as (s3 & H3 & [= <- <-]).
  apply (foldR_keeps single) in H3; [exact H3| |exact Hs]. intros s0 tr s4 Hin H4 H0. rewrite play_track_value in H4. apply bindR_Ok in H4 as (v & _ & [= <-]).
  apply single_insert; [done|]. exact (tracks_single _ _ _ _ _ (fun kf => Ht _ an kf E) Htr _ Hin).
Qed.
Lemma play_loop_single n key time : forall index tn s tn' s', play_loop n key time index tn s = Ok (tn', s') -> single s -> single s'.
Proof.
  induction n as [|n IH]; intros index tn s tn' s' H Hs; cbn [play_loop] in H; [done|].
  destruct (s !! (key, index)) as [v|] eqn:E; [|by injection H as <- <-]. destruct (t_range tn) as [[from to]|]; [|done]. cbv zeta in H.
  eapply IH; [exact H|]. destruct (cv_eq (animate from to time) v); [exact Hs|]. apply single_insert; [done|]. exact (Hs _ _ _ E).
Qed.
Lemma transitions_single fuel time l s l' s' : play_transitions fuel time l s = Ok (l', s') -> single s -> single s'.
Proof.
  unfold play_transitions. intros H Hs. apply (foldR_keeps (fun st => single (snd st))) in H; [exact H| |exact Hs]. clear. intros [acc s] tn [acc1 s1] _ H1 Hs. cbn [snd] in *.
  apply bindR_Ok in H1 as ([tn1 s2] & H1 & [= <- <-]).
  unfold transition_play in H1. destruct (t_key tn) as [key|]; [|by injection H1 as <- <-]. apply bindR_Ok in H1 as ([a x] & _ & H1).
  destruct x as [x|]; [|by injection H1 as <- <-]. by eapply play_loop_single.
Qed.

(** ** The style of an element *)
Definition tidy_rule (es : ElementStyle) : Prop := Forall tidy_declaration (s_declaration (style_of es)).
Definition tidy_element (e : Element) : Prop := Forall tidy_declaration (e_style e) /\ Forall tidy_rule (e_styles e).
Lemma rules_single fuel debug n t l : Forall tidy_rule l -> forall st st', cascade_rules fuel debug n t l st = Ok st' -> single (snd st) -> single (snd st').
Proof.
  intros Hl. unfold cascade_rules. induction Hl as [|es l Ht _ IH]; intros st st' H Hs; cbn [foldR] in H; [by injection H as <-|].
  apply bindR_Ok in H as (st1 & H1 & H). apply (IH _ _ H). destruct es as [s|s]; [by eapply block_single|].
  apply bindR_Ok in H1 as (b & _ & H1). destruct b; [by eapply block_single|by injection H1 as <-].
Qed.
(** the computed style of an element, up to the order in which it is applied *)
Definition computes (fuel : nat) (debug : bool) (css : Css) (time : f32) (vars : Variables) (n : NodeId) (t : Tree) (e : Element) : res (list Animator * list Transition * ComputedStyle * Variables) :=
  do! (vars, s) <- cascade_rules fuel debug n t (e_styles e) (vars, ∅);
  do! (vars, s) <- compute_declaration_block fuel (e_style e) (vars, s);
  do! (animators, s) <- play_animators fuel css time vars (e_animators e, s);
  do! (transitions, s) <- play_transitions fuel time (e_transitions e) s;
  Ok (animators, transitions, s, vars).
Lemma cascade_computes fuel debug css order time sizes vars n t pe layout e :
  cascade_apply_styles fuel debug css order time sizes vars n t pe layout e =
  do! (c, vars) <- computes fuel debug css time vars n t e;
  let '(animators, transitions, s) := c in
  let (layout, e) := apply_all sizes (order s) (layout, set e_transitions (fun _ => transitions) (set e_animators (fun _ => animators) (inherit pe (reset_element_style e)))) in
  do! transitions <- mapR (init_after_style_applied s) (e_transitions e);
  Ok (layout, set e_transitions (fun _ => transitions) e, vars).
Proof.
  unfold cascade_apply_styles, computes. cbv zeta.
  change (e_styles (inherit pe (reset_element_style e))) with (e_styles e). change (e_style (inherit pe (reset_element_style e))) with (e_style e).
  change (e_animators (inherit pe (reset_element_style e))) with (e_animators e). change (e_transitions (inherit pe (reset_element_style e))) with (e_transitions e).
  destruct (cascade_rules fuel debug n t (e_styles e) (vars, ∅)) as [[vars1 s1]| | |]; cbn [bindR]; [|done..].
  destruct (compute_declaration_block fuel (e_style e) (vars1, s1)) as [[vars2 s2]| | |]; cbn [bindR]; [|done..].
  destruct (play_animators fuel css time vars2 (e_animators e, s2)) as [[an s3]| | |]; cbn [bindR]; [|done..].
  destruct (play_transitions fuel time (e_transitions e) s3) as [[tr s4]| | |]; cbn [bindR]; done.
Qed.
Lemma computes_single fuel debug css time vars n t e an tr s vars' : tidy_css css -> tidy_element e ->
  computes fuel debug css time vars n t e = Ok (an, tr, s, vars') -> single s.
Proof.
  intros Hc [He Hr] H. unfold computes in H. apply bindR_Ok in H as ([vars1 s1] & H1 & H). apply bindR_Ok in H as ([vars2 s2] & H2 & H).
  apply bindR_Ok in H as ([an1 s3] & H3 & H). apply bindR_Ok in H as ([tr1 s4] & H4 & [= <- <- <- <-]).
  eapply transitions_single; [exact H4|]. eapply animators_single; [exact Hc|exact H3|]. apply (block_single _ _ _ _ He H2). apply (rules_single _ _ _ _ _ Hr _ _ H1). apply single_empty.
Qed.
Lemma cascade_order fuel debug css order order' time sizes vars n t pe layout e : tidy_css css -> tidy_element e ->
  (forall s, order s ≡ₚ map_to_list s) -> (forall s, order' s ≡ₚ map_to_list s) ->
  cascade_apply_styles fuel debug css order time sizes vars n t pe layout e = cascade_apply_styles fuel debug css order' time sizes vars n t pe layout e.
Proof.
  intros Hc He Ho Ho'. rewrite !cascade_computes. destruct (computes fuel debug css time vars n t e) as [[[[an tr] s] vars']| | |] eqn:E; cbn [bindR]; try done.
  pose proof (computes_single _ _ _ _ _ _ _ _ _ _ _ _ Hc He E) as Hs.
  by rewrite (apply_all_perm sizes (order s) (order' s)) by (try (by rewrite Ho, Ho'); by eapply single_apart).
Qed.
