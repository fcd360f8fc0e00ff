(** * Animations and transitions on a page: C78, C79. *)
From Coq Require Import ZArith Reals Lia Lra.
From Flocq Require Import Core.Core IEEE754.BinarySingleNaN.
From stdpp Require Import gmap.
From RecordUpdate Require Import RecordUpdate.
From Verif Require Import Str F32 Res Json PropKey Html Css Element Tree ViewModel Render Update Matching
  Cascade Initial Animation Apply Styling Events View SpecLive SpecView SpecTree SpecSelect SpecStyle SpecShow SpecPage SpecAnim SpecMove
  ResFacts EventFrame LiveView StylePage Samples PropSelect StyleSamples FloatFacts MoveFacts MoveSamples.
Close Scope R_scope.

(** ** C78: animations of a page *)
(** After any history, one update shows an element as the cascade with one frame of
    its animations, in order, the next on top of the one before, and then of its
    transitions; clocks are kept, new ones start at 0. *)
Theorem C78_one_update X fuel doc css v0 hist v os input value m t ids n :
  from_document X fuel doc css = Ok v0 -> updates X fuel v0 hist = Ok (v, os) -> prepare X fuel v input value = Ok (m, t, ids) ->
  tidy_css css -> forward_css css -> (forall s, x_order X s ≡ₚ map_to_list s) ->
  fair css v t n -> Forall (on_course fuel (in_time input)) (animators (v_tree v) n) -> single_movers (movers (v_tree v) n) ->
  shows_moving fuel css (in_time input) (in_viewport input) (v_root v) (v_body v) (v_tree v) t n.
Proof. intros H0 H Hp Htc Hfw Ho (F1 & F2 & F3 & F4) Hc Hm. exact (moving_page _ _ _ _ _ _ _ _ _ _ _ _ _ _ H0 H Hp Htc Hfw F1 Ho F2 Hc Hm F3 F4). Qed.
Print Assumptions C78_one_update.

(** An animation begins with the update that gives it to an element without one. *)
Theorem C78_begins X fuel doc css v0 hist v os input value v' o n :
  from_document X fuel doc css = Ok v0 -> updates X fuel v0 hist = Ok (v, os) -> update X fuel v input value = Ok (v', o) -> styled_element (v_tree v') (v_body v') n ->
  animators (v_tree v) n = [] -> Forall (fun a => a_time a = f0) (animators (v_tree v') n).
Proof. exact (clocks_begin X fuel doc css v0 hist v os input value v' o n). Qed.
Print Assumptions C78_begins.

(** While the element keeps its animations, each of them is played with every update
    by the time since the one before; one without key frames stands still. *)
Theorem C78_clock X fuel doc css v0 hist v os n ts v' :
  from_document X fuel doc css = Ok v0 -> updates X fuel v0 hist = Ok (v, os) -> Forall (fun a => a_time a = f0) (animators (v_tree v) n) ->
  frames X fuel (animates n (animators (v_tree v) n)) v ts v' ->
  forall i a0, animators (v_tree v) n !! i = Some a0 ->
  exists a, animators (v_tree v') n !! i = Some a /\ match css_animations css !! a_name a0 with None => a = a0 | Some _ => played fuel a0 ts a end.
Proof. exact (clocks_run X fuel doc css v0 hist v os n ts v'). Qed.
Print Assumptions C78_clock.

(** The whole way: animations appear, are kept for the times [ts], and are shown
    in one more update. *)
Theorem C78_plays X fuel doc css v0 hist v os i x v1 o n ts v2 input value m t ids :
  from_document X fuel doc css = Ok v0 -> updates X fuel v0 hist = Ok (v, os) -> animators (v_tree v) n = [] ->
  update X fuel v i x = Ok (v1, o) -> styled_element (v_tree v1) (v_body v1) n -> Forall timed (animators (v_tree v1) n) ->
  frames X fuel (animates n (animators (v_tree v1) n)) v1 ts v2 -> Forall frame_time ts ->
  prepare X fuel v2 input value = Ok (m, t, ids) -> frame_time (in_time input) ->
  tidy_css css -> forward_css css -> (forall s, x_order X s ≡ₚ map_to_list s) -> fair css v2 t n -> single_movers (movers (v_tree v2) n) ->
  shows_moving fuel css (in_time input) (in_viewport input) (v_root v2) (v_body v2) (v_tree v2) t n /\
  Forall (fun a => a_time a = f0) (animators (v_tree v1) n) /\ List.length (animators (v_tree v2) n) = List.length (animators (v_tree v1) n) /\
  forall j a0, animators (v_tree v1) n !! j = Some a0 -> exists a, animators (v_tree v2) n !! j = Some a /\
    match css_animations css !! a_name a0 with None => a = a0 | Some _ => played fuel a0 ts a end.
Proof.
  intros H0 H Hr Hu Hel1 Htm Hf Hts Hpr Hti Htc Hfw Ho (F1 & F2 & F3 & F4) Hsm.
  exact (plays_page _ _ _ _ _ _ _ _ _ _ _ _ _ _ _ _ _ _ _ _ H0 H Hr Hu Hel1 Htm Hf Hts Hpr Hti Htc Hfw F1 Ho F2 Hsm F3 F4).
Qed.
Print Assumptions C78_plays.

(** With one animation and no transition: the element shows what its rules give it,
    and in place of that, for the properties its key frames mention, the key frames
    at the progress the animation has after the times since it appeared (C35, C36). *)
Theorem C78_single X fuel doc css v0 hist v os i x v1 o n a0 an ts v2 input value m t ids :
  from_document X fuel doc css = Ok v0 -> updates X fuel v0 hist = Ok (v, os) -> animators (v_tree v) n = [] ->
  update X fuel v i x = Ok (v1, o) -> styled_element (v_tree v1) (v_body v1) n -> animators (v_tree v1) n = [a0] -> timed a0 -> css_animations css !! a_name a0 = Some an ->
  frames X fuel (animates n [a0]) v1 ts v2 -> Forall frame_time ts ->
  prepare X fuel v2 input value = Ok (m, t, ids) -> frame_time (in_time input) ->
  tidy_css css -> forward_css css -> (forall s, x_order X s ≡ₚ map_to_list s) -> fair css v2 t n -> movers (v_tree v2) n = [] ->
  a_time a0 = f0 /\
  exists a a' shown, played fuel a0 ts a /\ animator_update fuel (in_time input) a = Ok (a', shown) /\
    shows_playing css an (in_viewport input) (v_root v2) (v_body v2) (v_tree v2) t n fuel shown.
Proof.
  intros H0 H Hr Hu Hel1 Ha0 Htm Han Hf Hts Hpr Hti Htc Hfw Ho Hfair Hmv. rewrite <- Ha0 in Hf.
  destruct (C78_plays _ _ _ _ _ _ _ _ _ _ _ _ _ _ _ _ _ _ _ _ H0 H Hr Hu Hel1 ltac:(rewrite Ha0; apply List.Forall_cons; [exact Htm|apply List.Forall_nil]) Hf Hts Hpr Hti Htc Hfw Ho Hfair ltac:(rewrite Hmv; apply List.Forall_nil)) as (Hs & Hz & Hlen & Hp).
  rewrite Ha0 in Hz, Hlen, Hp. split; [by inversion Hz|]. destruct (Hp 0 a0 eq_refl) as (a & Ha & Hpl). rewrite Han in Hpl.
  assert (Hl : animators (v_tree v2) n = [a]). { destruct (animators (v_tree v2) n) as [|b [|? ?]]; try discriminate Hlen. by injection Ha as ->. }
  assert (Hup : exists a' shown, animator_update fuel (in_time input) a = Ok (a', shown)).
  { pose proof Hs as (ds & vars & p & parent & pe & s0 & l & s1 & mv & s & R1 & R2 & R3 & R4 & R5 & R6 & R7 & _). rewrite Hl in R7.
    assert (Hna : a_name a = a_name a0).
    { inversion Hf as [|? ? ? ? ? ? ? _ _ HP]; subst; [congruence|]. destruct HP as [_ HP]. rewrite Hl, Ha0 in HP. injection HP as HP. by rewrite <- HP. }
    inversion R7 as [|? ? ? ? ? E0| |]; subst; [rewrite Hna in E0; congruence|eauto..]. }
  destruct Hup as (a' & shown & Hup). exists a, a', shown. split; [exact Hpl|]. split; [exact Hup|].
  assert (Hna : a_name a = a_name a0).
  { inversion Hf as [|? ? ? ? ? ? ? _ _ HP]; subst; [congruence|]. destruct HP as [_ HP]. rewrite Hl, Ha0 in HP. injection HP as HP. by rewrite <- HP. }
  eapply moving_single; [exact Hs|exact Hl|exact Hmv|by rewrite Hna|exact Hup].
Qed.
Print Assumptions C78_single.

(** An animation goes on when nothing gives it any more (in CSS it would end: see
    C34_animation_leaks_refuted). *)
Theorem C78_goes_on X fuel doc css v0 hist v os input value m t ids n :
  from_document X fuel doc css = Ok v0 -> updates X fuel v0 hist = Ok (v, os) -> prepare X fuel v input value = Ok (m, t, ids) ->
  tidy_css css -> forward_css css -> (forall s, x_order X s ≡ₚ map_to_list s) ->
  fair css v t n -> Forall (on_course fuel (in_time input)) (animators (v_tree v) n) -> single_movers (movers (v_tree v) n) ->
  (forall ds vars k i, declarations css t (v_root v) n ds -> scope css t (v_root v) (v_body v) n vars -> place_of k = PlAnimators -> ungiven vars ds k i) ->
  (forall name an vars stops d, css_animations css !! name = Some an -> stops_of fuel vars an stops -> mentioned stops d -> place_of (fst d) <> PlAnimators) ->
  forall j a, animators (v_tree v) n !! j = Some a -> exists a', animators t n !! j = Some a' /\
    match css_animations css !! a_name a with Some _ => exists shown, animator_update fuel (in_time input) a = Ok (a', shown) | None => a' = a end.
Proof.
  intros H0 H Hp Htc Hfw Ho Hf Hc Hm. exact (moving_goes_on _ _ _ _ _ _ _ _ _ (C78_one_update _ _ _ _ _ _ _ _ _ _ _ _ _ _ H0 H Hp Htc Hfw Ho Hf Hc Hm) Hm).
Qed.
Print Assumptions C78_goes_on.

(** A page that meets the hypotheses: [p { width: 10px; animation-name: grow, widen;
    animation-duration: 2s, 4s; }] two seconds after the animations appeared; both
    animations set the width, and the second is the one that shows: half way from 100px to 300px. *)
Definition pair_given (k : PropertyKey) (x y : ComputedValue) : Declaration := DeclProperty (mkProperty k [[DExplicit x]; [DExplicit y]]).
Definition grow : Animation := mkAnimation "grow" [mkKeyframe 0 [give KWidth (px 0); give KHeight (px 0)]; mkKeyframe 100 [give KWidth (px 50); give KHeight (px 50)]].
Definition widen : Animation := mkAnimation "widen" [mkKeyframe 0 [give KWidth (px 100)]; mkKeyframe 100 [give KWidth (px 300)]].
Definition both_css : Css := p_css [give KWidth (px 10); pair_given KAnimationName (CKeyword "grow") (CKeyword "widen"); pair_given KAnimationDuration (seconds 2) (seconds 4)] {["grow" := grow; "widen" := widen]}.
Definition grow_css : Css := p_css [give KWidth (px 10); give KAnimationName (CKeyword "grow"); give KAnimationDuration (seconds 4)] {["grow" := grow; "widen" := widen]}.
Definition filmed (css : Css) : res (View * (View * Output) * (View * Output) * (json * Tree * gmap string NodeId)) :=
  do! v0 <- from_document world 20 (p_page []) css; do! r1 <- update world 20 v0 (second []) (JObj []); do! r2 <- update world 20 (fst r1) (second []) (JObj []);
  do! p <- prepare world 20 (fst r2) (second []) (JObj []); Ok (v0, r1, r2, p).
Definition empty_list {A} (l : list A) : Prop := match l with [] => True | _ => False end.
Definition alike_settings (l l' : list Animator) : Prop := match l, l' with [a], [a'] => set_same a a' = true | [a; b], [a'; b'] => set_same a a' && set_same b b' = true | _, _ => False end.
Definition wide (z : Z) (x : option SpecShow.shown_value) : Prop := match x with Some (VDimension (DimLength f)) => feq f (f32_of_Z z) = true | _ => False end.
Lemma p_tidy ds ans : Forall tidy_declaration ds -> (forall name an, ans !! name = Some an -> Forall (fun kf => Forall tidy_declaration (kf_declaration kf) /\ (0 <= kf_step kf)%Z) (an_keyframes an)) ->
  tidy_css (p_css ds ans) /\ forward_css (p_css ds ans).
Proof.
  intros H1 H2. split; [split|].
  - intros s Hs. unfold p_css in Hs. cbn [css_styles] in Hs. apply elem_of_list_singleton in Hs as ->. exact H1.
  - intros name an kf Ha Hk. specialize (H2 name an Ha). rewrite List.Forall_forall in H2. apply H2. by apply elem_of_list_In.
  - intros name an Ha. specialize (H2 name an Ha). eapply List.Forall_impl; [|exact H2]. by intros kf [_ H].
Qed.
Lemma both_animations name an : ({["grow" := grow; "widen" := widen]} : gmap string Animation) !! name = Some an -> Forall (fun kf => Forall tidy_declaration (kf_declaration kf) /\ (0 <= kf_step kf)%Z) (an_keyframes an).
Proof.
  intros H. apply lookup_insert_Some in H as [[_ <-]|[_ H]]; [|apply lookup_singleton_Some in H as [_ <-]].
  all: apply List.Forall_cons; [split; [cbn [kf_declaration]; tidy|cbn; lia]|apply List.Forall_cons; [split; [cbn [kf_declaration]; tidy|cbn; lia]|apply List.Forall_nil]].
Qed.
Lemma Ok_inj {A} (a b : A) : Ok a = Ok b -> a = b.
Proof. intros H. by injection H. Qed.
Lemma film_meets css (Q : View -> View -> Tree -> Prop) : tidy_css css /\ forward_css css -> (exists ds ans, css = p_css ds ans) ->
  succeeds (filmed css) (fun '(v0, (v1, _), (v2, _), (_, t, _)) => p_tree [] (v_tree v1) /\ p_tree [] (v_tree v2) /\ p_tree [] t /\ empty_list (animators (v_tree v0) 2) /\
    forallb timedb (animators (v_tree v1) 2) = true /\ alike_settings (animators (v_tree v2) 2) (animators (v_tree v1) 2) /\ empty_list (movers (v_tree v2) 2) /\ Q v1 v2 t) ->
  exists v0 v1 o v2 m t ids, from_document world 20 (p_page []) css = Ok v0 /\ updates world 20 v0 [] = Ok (v0, []) /\ animators (v_tree v0) 2 = [] /\
  update world 20 v0 (second []) (JObj []) = Ok (v1, o) /\ styled_element (v_tree v1) (v_body v1) 2 /\ Forall timed (animators (v_tree v1) 2) /\
  frames world 20 (animates 2 (animators (v_tree v1) 2)) v1 [f1] v2 /\ Forall frame_time [f1] /\
  prepare world 20 v2 (second []) (JObj []) = Ok (m, t, ids) /\ frame_time (in_time (second [])) /\
  tidy_css css /\ forward_css css /\ (forall s, x_order world s ≡ₚ map_to_list s) /\ fair css v2 t 2 /\ movers (v_tree v2) 2 = [] /\ Q v1 v2 t.
Proof.
  intros [Htc Hfw] (ds & ans & Hcss) ([[[v0 [v1 o]] [v2 o2]] [[m t] ids]] & H & T1 & T2 & T3 & Hz & Htm & Hs & Hmv & HQ).
  unfold filmed in H. apply bindR_Ok in H as (v0' & H0 & H). apply bindR_Ok in H as (r1 & H1 & H). apply bindR_Ok in H as (r2 & H2 & H). apply bindR_Ok in H as (p & H3 & H).
  apply Ok_inj in H. apply pair_equal_spec in H as [H ->]. apply pair_equal_spec in H as [H ->]. apply pair_equal_spec in H as [-> ->]. cbn [fst] in H2, H3.
  assert (Hu : updates world 20 v0 [] = Ok (v0, [])) by reflexivity.
  pose proof (updates_more _ _ _ _ _ _ _ _ _ _ Hu H1) as Hu1. pose proof (updates_more _ _ _ _ _ _ _ _ _ _ Hu1 H2) as Hu2.
  assert (Hel : styled_element (v_tree v1) (v_body v1) 2) by exact (p_body _ _ _ _ _ _ _ _ _ H0 Hu1 T1).
  assert (Hel2 : styled_element (v_tree v2) (v_body v2) 2) by exact (p_body _ _ _ _ _ _ _ _ _ H0 Hu2 T2).
  assert (Hz0 : animators (v_tree v0) 2 = []) by (destruct (animators (v_tree v0) 2); [reflexivity|destruct Hz]).
  pose proof (clocks_begin _ _ _ _ _ _ _ _ _ _ _ _ _ H0 Hu H1 Hel Hz0) as Hc.
  assert (Hset : settings <$> animators (v_tree v2) 2 = animators (v_tree v1) 2).
  { assert (K : forall a : Animator, a_time a = f0 -> settings a = a) by (intros [] E; cbn in E; subst; reflexivity).
    destruct (animators (v_tree v2) 2) as [|a [|b [|? ?]]], (animators (v_tree v1) 2) as [|a' [|b' [|? ?]]]; try (exfalso; exact Hs); cbn [fmap list_fmap].
    - inversion Hc; subst. rewrite (set_same_eq _ _ Hs), K; [reflexivity|assumption].
    - apply andb_prop in Hs as [S1 S2]. inversion Hc as [|? ? C1 C2]; subst. inversion C2; subst. rewrite (set_same_eq _ _ S1), (set_same_eq _ _ S2), !K; [reflexivity|assumption..]. }
  exists v0, v1, o, v2, m, t, ids. split; [exact H0|]. split; [exact Hu|]. split; [exact Hz0|]. split; [exact H1|]. split; [exact Hel|].
  split. { apply List.Forall_forall. intros a Ha. rewrite forallb_forall in Htm. apply timedb_timed. exact (Htm a Ha). }
  split. { exact (frames_more world 20 _ v1 [] v1 (second []) (JObj []) v2 o2 (frames_none _ _ _ v1) H2 (conj Hel2 Hset)). }
  split; [apply List.Forall_cons; [exact second_time|apply List.Forall_nil]|]. split; [exact H3|]. split; [exact second_time|]. split; [exact Htc|]. split; [exact Hfw|]. split; [intros s; exact (Permutation_refl _)|].
  assert (Hr : forall s ds, x_read_inline_css world s = Some ds -> Forall tidy_declaration ds) by (intros s ds' Hx; cbn in Hx; discriminate Hx).
  split; [exact (proj1 (p_fair _ _ _ _ _ _ _ _ _ _ _ _ _ _ _ _ Hcss H0 Hu2 H3 Hr T3))|]. split; [|exact HQ]. destruct (movers (v_tree v2) 2); [reflexivity|destruct Hmv].
Qed.
Example C78_meets : exists v0 v1 o v2 m t ids, from_document world 20 (p_page []) both_css = Ok v0 /\ updates world 20 v0 [] = Ok (v0, []) /\ animators (v_tree v0) 2 = [] /\
  update world 20 v0 (second []) (JObj []) = Ok (v1, o) /\ styled_element (v_tree v1) (v_body v1) 2 /\ Forall timed (animators (v_tree v1) 2) /\
  frames world 20 (animates 2 (animators (v_tree v1) 2)) v1 [f1] v2 /\ Forall frame_time [f1] /\
  prepare world 20 v2 (second []) (JObj []) = Ok (m, t, ids) /\ frame_time (in_time (second [])) /\
  tidy_css both_css /\ forward_css both_css /\ (forall s, x_order world s ≡ₚ map_to_list s) /\ fair both_css v2 t 2 /\ movers (v_tree v2) 2 = [] /\
  (a_name <$> animators (v_tree v1) 2 = ["grow"; "widen"] /\ wide 10 (shows_at (v_tree v1) 2 KWidth 0) /\ wide 150 (shows_at (v_tree v2) 2 KWidth 0) /\ wide 25 (shows_at (v_tree v2) 2 KHeight 0) /\
   wide 200 (shows_at t 2 KWidth 0) /\ wide 50 (shows_at t 2 KHeight 0)).
Proof.
  apply (film_meets both_css (fun v1 v2 t => a_name <$> animators (v_tree v1) 2 = ["grow"; "widen"] /\ wide 10 (shows_at (v_tree v1) 2 KWidth 0) /\ wide 150 (shows_at (v_tree v2) 2 KWidth 0) /\ wide 25 (shows_at (v_tree v2) 2 KHeight 0) /\
   wide 200 (shows_at t 2 KWidth 0) /\ wide 50 (shows_at t 2 KHeight 0))).
  - apply p_tidy; [tidy|exact both_animations].
  - by eexists _, _.
  - witness.
Qed.
(** the same with one animation, one second later: 25px of 50px in 4 seconds *)
Example C78_single_meets : exists v0 v1 o v2 m t ids a0, from_document world 20 (p_page []) grow_css = Ok v0 /\ updates world 20 v0 [] = Ok (v0, []) /\ animators (v_tree v0) 2 = [] /\
  update world 20 v0 (second []) (JObj []) = Ok (v1, o) /\ styled_element (v_tree v1) (v_body v1) 2 /\ animators (v_tree v1) 2 = [a0] /\ timed a0 /\ css_animations grow_css !! a_name a0 = Some grow /\
  frames world 20 (animates 2 [a0]) v1 [f1] v2 /\ Forall frame_time [f1] /\
  prepare world 20 v2 (second []) (JObj []) = Ok (m, t, ids) /\ frame_time (in_time (second [])) /\
  tidy_css grow_css /\ forward_css grow_css /\ (forall s, x_order world s ≡ₚ map_to_list s) /\ fair grow_css v2 t 2 /\ movers (v_tree v2) 2 = [] /\ wide 25 (shows_at t 2 KWidth 0).
Proof.
  destruct (film_meets grow_css (fun v1 v2 t => match animators (v_tree v1) 2 with [a0] => a_name a0 = "grow" | _ => False end /\ wide 25 (shows_at t 2 KWidth 0)))
    as (v0 & v1 & o & v2 & m & t & ids & E1 & E2 & E3 & E4 & E5 & E6 & E7 & E8 & E9 & E10 & E11 & E12 & E13 & E14 & E15 & E16 & E17).
  - apply p_tidy; [tidy|exact both_animations].
  - by eexists _, _.
  - witness.
  - destruct (animators (v_tree v1) 2) as [|a0 [|? ?]] eqn:Ea; try (exfalso; exact E16). exists v0, v1, o, v2, m, t, ids, a0.
    split; [exact E1|]. split; [exact E2|]. split; [exact E3|]. split; [exact E4|]. split; [exact E5|]. split; [exact Ea|]. split; [inversion E6; assumption|].
    split; [rewrite E16; exact (lookup_insert _ "grow" grow)|]. split; [exact E7|]. split; [exact E8|]. split; [exact E9|]. split; [exact E10|]. split; [exact E11|]. split; [exact E12|]. split; [exact E13|]. split; [exact E14|]. split; [exact E15|exact E17].
Qed.

(** [<p style={s}>] with [p { width: 10px }]; the style attribute gives the animation
    [grow], then nothing *)
Definition switch : Externals :=
  mkExternals (fun _ => "float") (fun s => s) (fun s => Some (if String.eqb s "on" then [give KAnimationName (CKeyword "grow"); give KAnimationDuration (seconds 2)] else []))
    (fun s => map_to_list s) (fun _ _ => layout_zero) ∅ false.
Definition switch_page : Html := p_page [EBAttribute "style" [TSBinder (get ["s"])]].
Definition switch_css : Css := p_css [give KWidth (px 10)] {["grow" := grow]}.
Definition switched (s : string) : json := JObj [("s", str s)].
Definition switching : res (View * (View * Output) * (json * Tree * gmap string NodeId)) :=
  do! v0 <- from_document switch 20 switch_page switch_css; do! r <- update switch 20 v0 (second []) (switched "on"); do! p <- prepare switch 20 (fst r) (second []) (switched "off"); Ok (v0, r, p).
Definition on_coursb (time : f32) (a : Animator) : bool := match animator_update 20 time a with Ok (_, Some x) => is_finite x && fle f0 x && fle x f1 | _ => true end.
Lemma on_coursb_ok time a : on_coursb time a = true -> on_course 20 time a.
Proof.
  intros H a' x Hu. unfold on_coursb in H. rewrite Hu in H. apply andb_prop in H as [H H3]. apply andb_prop in H as [H1 H2]. destruct (f32_int 1 ltac:(lia)) as [F1 E1]. fold f1 in *.
  apply (fle_real f0 x eq_refl H1) in H2. apply (fle_real x f1 H1 F1) in H3. rewrite E1 in H3. split; [exact H1|]. split; [exact H2|exact H3].
Qed.
Lemma grow_mentions fuel vars stops d : stops_of fuel vars grow stops -> mentioned stops d -> place_of (fst d) <> PlAnimators.
Proof.
  intros H (st & s & Hin & x & Hx). unfold stops_of, grow in H. cbn [an_keyframes] in H.
  assert (K : forall a b s', keyframe_style fuel vars [give KWidth a; give KHeight b] = Ok s' -> forall y, s' !! d = Some y -> place_of (fst d) <> PlAnimators).
  { intros a b s' Hs y Hy. destruct fuel as [|f]; cbn in Hs; [try discriminate Hs|]; apply Ok_inj in Hs; subst s'.
    all:
    assert (Hd : d = (KHeight, 0) \/ d = (KWidth, 0)).
    { destruct (decide (d = (KHeight, 0))) as [E1|E1]; [by left|]. destruct (decide (d = (KWidth, 0))) as [E2|E2]; [by right|]. exfalso.
      assert (E : Some y = None); [|discriminate E]. etransitivity; [symmetry; exact Hy|]. etransitivity; [exact (lookup_insert_ne _ _ _ _ (not_eq_sym E1))|]. etransitivity; [exact (lookup_insert_ne _ _ _ _ (not_eq_sym E2))|]. exact (lookup_empty d). }
    destruct Hd as [-> | ->]; discriminate. }
  inversion H as [|? [] ? ? [_ K1] H2]; subst. inversion H2 as [|? [] ? ? [_ K2] H3]; subst. inversion H3; subst. cbn in Hin. destruct Hin as [E|[E|[]]]; injection E as <- <-; [exact (K _ _ _ K1 _ Hx)|exact (K _ _ _ K2 _ Hx)].
Qed.
Example C78_goes_on_meets : exists v0 v os m t ids a, from_document switch 20 switch_page switch_css = Ok v0 /\ updates switch 20 v0 [(second [], switched "on")] = Ok (v, os) /\
  prepare switch 20 v (second []) (switched "off") = Ok (m, t, ids) /\ tidy_css switch_css /\ forward_css switch_css /\ (forall s, x_order switch s ≡ₚ map_to_list s) /\
  fair switch_css v t 2 /\ Forall (on_course 20 (in_time (second []))) (animators (v_tree v) 2) /\ single_movers (movers (v_tree v) 2) /\
  (forall ds vars k i, declarations switch_css t (v_root v) 2 ds -> scope switch_css t (v_root v) (v_body v) 2 vars -> place_of k = PlAnimators -> ungiven vars ds k i) /\
  (forall name an vars stops d, css_animations switch_css !! name = Some an -> stops_of 20 vars an stops -> mentioned stops d -> place_of (fst d) <> PlAnimators) /\
  animators (v_tree v) 2 = [a] /\ a_name a = "grow" /\ wide 25 (shows_at t 2 KWidth 0).
Proof.
  assert (Hrun : succeeds switching (fun '(v0, (v, _), (_, t, _)) => p_tree [] t /\ forallb (on_coursb f1) (animators (v_tree v) 2) = true /\ empty_list (movers (v_tree v) 2) /\
    match animators (v_tree v) 2 with [a] => a_name a = "grow" | _ => False end /\ wide 25 (shows_at t 2 KWidth 0))) by witness.
  destruct Hrun as ([[v0 [v o]] [[m t] ids]] & H & T & Hc & Hm & Ha & Hw).
  unfold switching in H. apply bindR_Ok in H as (v0' & H0 & H). apply bindR_Ok in H as (r & Hu & H). apply bindR_Ok in H as (p & Hp & H).
  apply Ok_inj in H. apply pair_equal_spec in H as [H ->]. apply pair_equal_spec in H as [-> ->]. cbn [fst] in Hp.
  assert (K0 : updates switch 20 v0 [] = Ok (v0, [])) by reflexivity. pose proof (updates_more _ _ _ _ _ _ _ _ _ _ K0 Hu) as K1.
  assert (Hr : forall s ds, x_read_inline_css switch s = Some ds -> Forall tidy_declaration ds).
  { intros s ds Hx. cbn [x_read_inline_css switch] in Hx. injection Hx as <-. destruct (String.eqb s "on"); tidy. }
  destruct (p_fair _ _ _ _ _ _ _ _ _ _ _ _ _ _ _ _ eq_refl H0 K1 Hp Hr T) as (F & R & B).
  assert (Hans : forall name an, ({["grow" := grow]} : gmap string Animation) !! name = Some an -> an = grow) by (intros name an Hx; apply lookup_singleton_Some in Hx as [_ <-]; reflexivity).
  assert (Htf : tidy_css switch_css /\ forward_css switch_css).
  { apply p_tidy; [tidy|]. intros name an Hx. apply Hans in Hx as ->. apply (both_animations "grow"). exact (lookup_insert _ "grow" grow). }
  destruct (animators (v_tree v) 2) as [|a [|? ?]] eqn:Ea; try (exfalso; exact Ha).
  exists v0, v, [o], m, t, ids, a. rewrite Ea. split; [exact H0|]. split; [exact K1|]. split; [exact Hp|]. split; [exact (proj1 Htf)|]. split; [exact (proj2 Htf)|]. split; [intros s; exact (Permutation_refl _)|]. split; [exact F|].
  split. { cbn in Hc. apply andb_prop in Hc as [Hc _]. apply List.Forall_cons; [exact (on_coursb_ok _ _ Hc)|apply List.Forall_nil]. }
  split. { destruct (movers (v_tree v) 2); [apply List.Forall_nil|destruct Hm]. }
  split. { intros ds vars k i Hd _ Hk. rewrite R in Hd. destruct (p_declared [give KWidth (px 10)] [] {["grow" := grow]} t T) as [Hd' _]. assert (ds = [give KWidth (px 10)]) as -> by exact (declarations_fun _ _ _ _ _ _ Hd Hd').
    intros pre d post y E (q & sh & vs & Eq & Esh & Hmean & Hlast). destruct pre as [|? pre]; [|by destruct pre]. injection E as <- <-. injection Eq as <-. cbn [p_key] in Hlast. unfold last_given in Hlast.
    destruct vs as [|v1 [|? ?]]; cbn in Hlast; try discriminate Hlast; repeat (destruct (decide _); [subst k; discriminate Hk|]); discriminate Hlast. }
  split. { intros name an vars stops d Hx Hs Hmt. apply Hans in Hx as ->. exact (grow_mentions _ _ _ _ Hs Hmt). }
  split; [reflexivity|]. split; [exact Ha|exact Hw].
Qed.

(** ** C79: transitions of a page *)
(** A transition that an element gets starts with the value shown at both ends, and
    its clock at 0: nothing moves yet. *)
Theorem C79_begins X fuel doc css v0 hist v os input value m t ids v' o n key u tn :
  from_document X fuel doc css = Ok v0 -> updates X fuel v0 hist = Ok (v, os) -> prepare X fuel v input value = Ok (m, t, ids) -> update X fuel v input value = Ok (v', o) ->
  tidy_css css -> forward_css css -> (forall s, x_order X s ≡ₚ map_to_list s) -> fair css v t n -> animators (v_tree v) n = [] -> movers (v_tree v) n = [] ->
  gives_value css t (v_root v) (v_body v) n key u -> listed key = false -> tn ∈ movers (v_tree v') n -> t_key tn = Some key ->
  transitions tn key u u /\ a_time (t_animator tn) = f0 /\
  shows_at t n key 0 = match SpecShow.meaning (sizes_at (in_viewport input) t (v_body v) n) key u with Some y => Some y | None => shows_rest (v_tree v) t n key end.
Proof.
  intros H0 H Hp Hu Htc Hfw Ho Hf Ha Hm Hg Hl Hin Hk.
  pose proof (fair_moving _ _ _ _ _ _ _ _ _ _ _ _ _ _ H0 H Htc Hfw Ho Hp Hf Ha ltac:(rewrite Hm; apply List.Forall_nil)) as Hmov.
  destruct (update_prepared _ _ _ _ _ _ _ _ _ _ Hu Hp) as [Hmo _]. destruct (Hmo n) as [_ Hmn]. apply elem_of_list_lookup in Hin as [j Hj]. rewrite Hmn in Hj.
  destruct Hmov as (ds & vars & p & parent & pe & s0 & l & s1 & mv & s & R1 & R2 & R3 & R4 & R5 & R6 & R7 & R8 & R9 & _ & R11). rewrite Ha in R7. rewrite Hm in R8. inversion R7; subst. inversion R8; subst.
  assert (Hv : s !! (key, 0) = Some u) by (apply R6; by apply Hg). destruct (R11 j) as [E1 E2]. unfold mover_of in E1, E2. rewrite Hj in E1, E2. cbn in E1, E2.
  split; [split; [exact Hk|rewrite (E2 key Hk Hl); by rewrite Hv]|]. split; [exact E1|]. destruct (R9 key 0 ltac:(by right)) as [C1 _]. cbv zeta in C1. specialize (C1 u Hv).
  unfold shows_rest. rewrite R3. cbn [mbind option_bind]. rewrite R4. cbn [mbind option_bind]. rewrite R5. exact C1.
Qed.
Print Assumptions C79_begins.

(** The whole way of one transition of a property with one value: it appears while
    the value is [u], which is shown then and stays for the times [ts]; in the update
    in which the value becomes [v] still [u] is shown; after the times [ts3] a value
    between the two is, and [v] itself as soon as the duration is over.  Partial:
    without a delay (with one it jumps: C38), for an element with this one transition
    and no animation. *)
Theorem C79_page_partial X fuel doc css v0 hist w os n key u v i x m t ids w1 o tn ts w2 i2 x2 m2 t2 ids2 w3 o3 tn3 ts3 w4 input value m5 t5 ids5 :
  from_document X fuel doc css = Ok v0 -> updates X fuel v0 hist = Ok (w, os) -> tidy_css css -> forward_css css -> (forall s, x_order X s ≡ₚ map_to_list s) -> listed key = false ->
  tame_value u -> cv_eq u u = true -> tame_value v -> cv_eq v v = true -> cv_eq u v = false ->
  (* the transition appears *)
  movers (v_tree w) n = [] -> animators (v_tree w) n = [] -> prepare X fuel w i x = Ok (m, t, ids) -> update X fuel w i x = Ok (w1, o) -> fair css w t n -> gives_value css t (v_root w) (v_body w) n key u ->
  movers (v_tree w1) n = [tn] -> t_key tn = Some key -> timed (t_animator tn) -> a_iterations (t_animator tn) = AINumber f1 -> (B2R (a_delay (t_animator tn)) <= 0)%R ->
  (* for some time the value is [u] *)
  held X fuel css n key u tn w1 ts w2 -> Forall frame_time ts ->
  (* then it is [v] *)
  prepare X fuel w2 i2 x2 = Ok (m2, t2, ids2) -> update X fuel w2 i2 x2 = Ok (w3, o3) -> frame_time (in_time i2) -> fair css w2 t2 n -> gives_value css t2 (v_root w2) (v_body w2) n key v ->
  animators (v_tree w2) n = [] -> movers (v_tree w3) n = [tn3] -> same_mover tn tn3 ->
  held X fuel css n key v tn3 w3 ts3 w4 -> Forall frame_time ts3 ->
  (* a frame after that *)
  prepare X fuel w4 input value = Ok (m5, t5, ids5) -> frame_time (in_time input) -> fair css w4 t5 n -> gives_value css t5 (v_root w4) (v_body w4) n key v -> animators (v_tree w4) n = [] ->
  exists c e f, between u u c /\ between c v f /\ (c = e \/ (e = v /\ cv_eq c v = true)) /\
    shows_at t2 n key 0 = match SpecShow.meaning (sizes_at (in_viewport i2) t2 (v_body w2) n) key e with Some y => Some y | None => shows_rest (v_tree w2) t2 n key end /\
    shows_at t5 n key 0 = match SpecShow.meaning (sizes_at (in_viewport input) t5 (v_body w4) n) key f with Some y => Some y | None => shows_rest (v_tree w4) t5 n key end /\
    exists a', played fuel (settings (t_animator tn)) (ts3 ++ [in_time input]) a' /\
      (is_finite (elapsed a') = true -> (B2R (a_duration (t_animator tn)) <= B2R (elapsed a'))%R -> f = v).
Proof. exact (transition_page X fuel doc css v0 hist w os n key u v i x m t ids w1 o tn ts w2 i2 x2 m2 t2 ids2 w3 o3 tn3 ts3 w4 input value m5 t5 ids5). Qed.
Print Assumptions C79_page_partial.

(** A page that meets the hypotheses: [<p style={ink}>] with [p { transition-property:
    color; transition-duration: 2s }]; the ink is red for two updates, then blue. *)
Definition inks : Externals :=
  mkExternals (fun _ => "float") (fun s => s) (fun s => if String.eqb s "red" then Some [give KColor (CColor red)] else if String.eqb s "blue" then Some [give KColor (CColor blue)] else None)
    (fun s => map_to_list s) (fun _ _ => layout_zero) ∅ false.
Definition ink_page : Html := p_page [EBAttribute "style" [TSBinder (get ["ink"])]].
Definition ink_css : Css := p_css [give KTransitionProperty (CKeyword "color"); give KTransitionDuration (seconds 2)] ∅.
Definition ink (s : string) : json := JObj [("ink", str s)].
Definition shot : Type := (json * Tree * gmap string NodeId) * (View * Output).
Definition shoot (v : View) (s : string) : res shot := do! p <- prepare inks 20 v (second []) (ink s); do! r <- update inks 20 v (second []) (ink s); Ok (p, r).
Definition scene : res (View * (shot * shot * shot * shot) * (json * Tree * gmap string NodeId)) :=
  do! v0 <- from_document inks 20 ink_page ink_css; do! r1 <- shoot v0 "red"; do! r2 <- shoot (fst (snd r1)) "red"; do! r3 <- shoot (fst (snd r2)) "blue"; do! r4 <- shoot (fst (snd r3)) "blue";
  do! p <- prepare inks 20 (fst (snd r4)) (second []) (ink "blue"); Ok (v0, (r1, r2, r3, r4), p).
Definition the_mover (v : View) : option Transition := match movers (v_tree v) 2 with [tn] => Some tn | _ => None end.
Definition moves_color (v : View) : Prop :=
  match the_mover v with Some tn => t_key tn = Some KColor /\ timedb (t_animator tn) = true /\ laps_same (a_iterations (t_animator tn)) (AINumber f1) = true /\ fle (a_delay (t_animator tn)) f0 = true | None => False end.
Definition alike_movers (v v' : View) : Prop := match the_mover v, the_mover v' with Some tn, Some tn' => t_key tn' = t_key tn /\ set_same (t_animator tn') (t_animator tn) = true | _, _ => False end.
Definition colored (c : Rgba) (t : Tree) : Prop := shows_at t 2 KColor 0 = Some (VColor c).
Lemma scene_runs : succeeds scene (fun '(v0, (((_, t1, _), (v1, _)), ((_, t2, _), (v2, _)), ((_, t3, _), (v3, _)), ((_, t4, _), (v4, _))), (_, t5, _)) =>
  p_tree [give KColor (CColor red)] t1 /\ p_tree [give KColor (CColor red)] t2 /\ p_tree [give KColor (CColor blue)] t3 /\ p_tree [give KColor (CColor blue)] t4 /\ p_tree [give KColor (CColor blue)] t5 /\
  moves_color v1 /\ alike_movers v1 v2 /\ alike_movers v1 v3 /\ alike_movers v1 v4 /\ empty_list (movers (v_tree v0) 2) /\
  empty_list (animators (v_tree v0) 2) /\ empty_list (animators (v_tree v1) 2) /\ empty_list (animators (v_tree v2) 2) /\ empty_list (animators (v_tree v3) 2) /\ empty_list (animators (v_tree v4) 2) /\
  colored red t1 /\ colored red t2 /\ colored red t3 /\ colored (127, 0, 127, 255)%Z t4 /\ colored blue t5).
Proof. witness. Qed.
Lemma no_elements {A} (l : list A) : empty_list l -> l = [].
Proof. by destruct l. Qed.
Lemma ink_reads s ds : x_read_inline_css inks s = Some ds -> Forall tidy_declaration ds.
Proof. cbn [x_read_inline_css inks]. destruct (String.eqb s "red"); [intros H; injection H as <-; tidy|]. destruct (String.eqb s "blue"); [intros H; injection H as <-; tidy|done]. Qed.
Example C79_meets : exists v0 m1 t1 ids1 w1 o1 tn1 w2 m3 t3 ids3 w3 o3 tn3 w4 m5 t5 ids5,
  from_document inks 20 ink_page ink_css = Ok v0 /\ updates inks 20 v0 [] = Ok (v0, []) /\ tidy_css ink_css /\ forward_css ink_css /\ (forall s, x_order inks s ≡ₚ map_to_list s) /\
  movers (v_tree v0) 2 = [] /\ animators (v_tree v0) 2 = [] /\ prepare inks 20 v0 (second []) (ink "red") = Ok (m1, t1, ids1) /\ update inks 20 v0 (second []) (ink "red") = Ok (w1, o1) /\
  fair ink_css v0 t1 2 /\ gives_value ink_css t1 (v_root v0) (v_body v0) 2 KColor (CColor red) /\ movers (v_tree w1) 2 = [tn1] /\ t_key tn1 = Some KColor /\ timed (t_animator tn1) /\
  a_iterations (t_animator tn1) = AINumber f1 /\ (B2R (a_delay (t_animator tn1)) <= 0)%R /\
  held inks 20 ink_css 2 KColor (CColor red) tn1 w1 [f1] w2 /\
  prepare inks 20 w2 (second []) (ink "blue") = Ok (m3, t3, ids3) /\ update inks 20 w2 (second []) (ink "blue") = Ok (w3, o3) /\ fair ink_css w2 t3 2 /\
  gives_value ink_css t3 (v_root w2) (v_body w2) 2 KColor (CColor blue) /\ animators (v_tree w2) 2 = [] /\ movers (v_tree w3) 2 = [tn3] /\ same_mover tn1 tn3 /\
  held inks 20 ink_css 2 KColor (CColor blue) tn3 w3 [f1] w4 /\
  prepare inks 20 w4 (second []) (ink "blue") = Ok (m5, t5, ids5) /\ fair ink_css w4 t5 2 /\ gives_value ink_css t5 (v_root w4) (v_body w4) 2 KColor (CColor blue) /\ animators (v_tree w4) 2 = [] /\
  colored red t1 /\ colored red t3 /\ colored blue t5.
Proof.
  destruct scene_runs as ([[v0 [[[r1 r2] r3] r4]] [[m5 t5] ids5]] & H & Q).
  destruct r1 as [[[m1 t1] ids1] [w1 o1]], r2 as [[[m2 t2] ids2] [w2 o2]], r3 as [[[m3 t3] ids3] [w3 o3]], r4 as [[[m4 t4] ids4] [w4 o4]].
  destruct Q as (T1 & T2 & T3 & T4 & T5 & Hmc & A2 & A3 & A4 & Z0 & Y0 & Y1 & Y2 & Y3 & Y4 & C1 & C2 & C3 & C4 & C5).
  unfold scene, shoot in H. apply bindR_Ok in H as (v0' & H0 & H).
  apply bindR_Ok in H as (r1 & H1 & H). apply bindR_Ok in H1 as (p1 & P1 & H1). apply bindR_Ok in H1 as (u1 & U1 & H1). apply Ok_inj in H1 as <-. cbn [fst snd] in H.
  apply bindR_Ok in H as (r2 & H2 & H). apply bindR_Ok in H2 as (p2 & P2 & H2). apply bindR_Ok in H2 as (u2 & U2 & H2). apply Ok_inj in H2 as <-. cbn [fst snd] in H.
  apply bindR_Ok in H as (r3 & H3 & H). apply bindR_Ok in H3 as (p3 & P3 & H3). apply bindR_Ok in H3 as (u3 & U3 & H3). apply Ok_inj in H3 as <-. cbn [fst snd] in H.
  apply bindR_Ok in H as (r4 & H4 & H). apply bindR_Ok in H4 as (p4 & P4 & H4). apply bindR_Ok in H4 as (u4 & U4 & H4). apply Ok_inj in H4 as <-. cbn [fst snd] in H.
  apply bindR_Ok in H as (p5 & P5 & H). apply Ok_inj in H. apply pair_equal_spec in H as [H ->]. apply pair_equal_spec in H as [-> H].
  apply pair_equal_spec in H as [H E4]. apply pair_equal_spec in H as [H E3]. apply pair_equal_spec in H as [E1 E2].
  apply pair_equal_spec in E1 as [-> ->]. apply pair_equal_spec in E2 as [-> ->]. apply pair_equal_spec in E3 as [-> ->]. apply pair_equal_spec in E4 as [-> ->]. cbn [fst snd] in *.
  assert (K0 : updates inks 20 v0 [] = Ok (v0, [])) by reflexivity.
  pose proof (updates_more _ _ _ _ _ _ _ _ _ _ K0 U1) as K1. pose proof (updates_more _ _ _ _ _ _ _ _ _ _ K1 U2) as K2. pose proof (updates_more _ _ _ _ _ _ _ _ _ _ K2 U3) as K3. pose proof (updates_more _ _ _ _ _ _ _ _ _ _ K3 U4) as K4.
  destruct (p_fair _ _ _ _ _ _ _ _ _ _ _ _ _ _ _ _ eq_refl H0 K0 P1 ink_reads T1) as (F1 & R1 & B1). destruct (p_fair _ _ _ _ _ _ _ _ _ _ _ _ _ _ _ _ eq_refl H0 K1 P2 ink_reads T2) as (F2 & R2 & B2).
  destruct (p_fair _ _ _ _ _ _ _ _ _ _ _ _ _ _ _ _ eq_refl H0 K2 P3 ink_reads T3) as (F3 & R3 & B3). destruct (p_fair _ _ _ _ _ _ _ _ _ _ _ _ _ _ _ _ eq_refl H0 K3 P4 ink_reads T4) as (F4 & R4 & B4).
  destruct (p_fair _ _ _ _ _ _ _ _ _ _ _ _ _ _ _ _ eq_refl H0 K4 P5 ink_reads T5) as (F5 & R5 & B5).
  assert (G : forall v t c, v_root v = 0 -> v_body v = 1 -> p_tree [give KColor (CColor c)] t -> gives_value ink_css t (v_root v) (v_body v) 2 KColor (CColor c)) by (intros v t c -> -> Ht; exact (p_gives _ [] _ t KColor (CColor c) Ht eq_refl)).
  unfold moves_color, alike_movers, the_mover in Hmc, A2, A3, A4.
  destruct (movers (v_tree w1) 2) as [|tn1 [|? ?]] eqn:M1; try (exfalso; exact Hmc). destruct (movers (v_tree w2) 2) as [|tn2 [|? ?]] eqn:M2; try (exfalso; exact A2).
  destruct (movers (v_tree w3) 2) as [|tn3 [|? ?]] eqn:M3; try (exfalso; exact A3). destruct (movers (v_tree w4) 2) as [|tn4 [|? ?]] eqn:M4; try (exfalso; exact A4).
  destruct Hmc as (D1 & D2 & D3 & D4). destruct A2 as [A2 A2']. destruct A3 as [A3 A3']. destruct A4 as [A4 A4']. apply set_same_eq in A2', A3', A4'. apply timedb_timed in D2.
  assert (Htf : tidy_css ink_css /\ forward_css ink_css). { apply p_tidy; [tidy|]. intros name an Hx. rewrite lookup_empty in Hx. discriminate Hx. }
  exists v0, m1, t1, ids1, w1, o1, tn1, w2, m3, t3, ids3, w3, o3, tn3, w4, m5, t5, ids5.
  split; [exact H0|]. split; [exact K0|]. split; [exact (proj1 Htf)|]. split; [exact (proj2 Htf)|]. split; [intros s; exact (Permutation_refl _)|]. split; [exact (no_elements _ Z0)|]. split; [exact (no_elements _ Y0)|].
  split; [exact P1|]. split; [exact U1|]. split; [exact F1|]. split; [exact (G _ _ _ R1 B1 T1)|]. split; [exact M1|]. split; [exact D1|]. split; [exact D2|].
  split; [destruct (a_iterations (t_animator tn1)) as [z|]; [f_equal; exact (float_same_eq _ _ D3)|discriminate D3]|].
  split. { destruct D2 as (_ & _ & D2 & _). apply (fle_real _ f0 D2 eq_refl) in D4. exact D4. }
  split. { exact (held_more inks 20 ink_css 2 KColor (CColor red) tn1 w1 [] w1 (second []) (ink "red") m2 t2 ids2 w2 o2 tn2 (held_none _ _ _ _ _ _ _ _) P2 U2 F2 (G _ _ _ R2 B2 T2) (no_elements _ Y1) M2 (conj A2 A2')). }
  split; [exact P3|]. split; [exact U3|]. split; [exact F3|]. split; [exact (G _ _ _ R3 B3 T3)|]. split; [exact (no_elements _ Y2)|]. split; [exact M3|]. split; [exact (conj A3 A3')|].
  split. { refine (held_more inks 20 ink_css 2 KColor (CColor blue) tn3 w3 [] w3 (second []) (ink "blue") m4 t4 ids4 w4 o4 tn4 (held_none _ _ _ _ _ _ _ _) P4 U4 F4 (G _ _ _ R4 B4 T4) (no_elements _ Y3) M4 (conj _ _)).
    - rewrite A4, A3. reflexivity.
    - rewrite A4', A3'. reflexivity. }
  split; [exact P5|]. split; [exact F5|]. split; [exact (G _ _ _ R5 B5 T5)|]. split; [exact (no_elements _ Y4)|]. split; [exact C1|]. split; [exact C3|exact C5].
Qed.
