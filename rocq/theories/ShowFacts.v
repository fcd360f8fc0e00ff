(** * Every property shows its value in its own place, and only there. *)
From Coq Require Import ZArith Lia.
From stdpp Require Import gmap.
From RecordUpdate Require Import RecordUpdate.
From Verif Require Import Str F32 Res PropKey Css Element Tree Matching Cascade Apply SpecStyle SpecShow ApplyFacts.

Lemma update_at_at {A} n (d : A) f l m : default d (update_at n d f l !! m) = if decide (m = n) then f (default d (l !! m)) else default d (l !! m).
Proof.
  unfold update_at. destruct (decide (m = n)) as [->|Hne].
  - rewrite list_lookup_alter, ensure_len_spec. destruct (decide (n < List.length l)) as [Hlt|Hge].
    + rewrite lookup_app_l by done. destruct (lookup_lt_is_Some_2 _ _ Hlt) as [x ->]. done.
    + rewrite lookup_app_r by lia. rewrite lookup_replicate_2 by lia. by rewrite (lookup_ge_None_2 l) by lia.
  - rewrite list_lookup_alter_ne by done. rewrite ensure_len_spec. destruct (decide (m < List.length l)) as [Hlt|Hge].
    + by rewrite lookup_app_l.
    + rewrite lookup_app_r by lia. rewrite (lookup_ge_None_2 l) by lia. destruct (replicate _ d !! _) as [x|] eqn:E; [|done].
      apply lookup_replicate in E as [-> _]. done.
Qed.
Lemma ensure_at {A} n (d : A) l m : default d (ensure_len n d l !! m) = default d (l !! m).
Proof.
  rewrite ensure_len_spec. destruct (decide (m < List.length l)) as [Hlt|Hge].
  - by rewrite lookup_app_l.
  - rewrite lookup_app_r by lia. rewrite (lookup_ge_None_2 l) by lia. destruct (replicate _ d !! _) as [x|] eqn:E; [|done].
    apply lookup_replicate in E as [-> _]. done.
Qed.
Lemma bg_at_set n f m st : background_at m (snd (set_bg n f st)) = if decide (m = n) then f (background_at m (snd st)) else background_at m (snd st).
Proof. destruct st as [l e]. apply (update_at_at n background_default f (e_backgrounds e) m). Qed.
Lemma bg_at_touch n m st : background_at m (snd (touch_bg n st)) = background_at m (snd st).
Proof. destruct st as [l e]. apply (ensure_at n background_default (e_backgrounds e) m). Qed.
Lemma tr_at_set n f m st : transition_at m (snd (set_tr n f st)) = if decide (m = n) then f (transition_at m (snd st)) else transition_at m (snd st).
Proof. destruct st as [l e]. apply (update_at_at n transition_default f (e_transitions e) m). Qed.
Lemma an_at_set n f m st : animator_at m (snd (set_an n f st)) = if decide (m = n) then f (animator_at m (snd st)) else animator_at m (snd st).
Proof. destruct st as [l e]. apply (update_at_at n animator_default f (e_animators e) m). Qed.
Lemma look_pair k i st : look k i st = look k i (fst st, snd st).
Proof. by destruct st. Qed.

(** the places tell everything *)
Lemma look_put k i p src st : p <> place_of k -> look k i (put p src st) = look k i st.
Proof.
  intros H. destruct src as [l1 e1], st as [l e]. destruct k, p; try reflexivity; exfalso; apply H; reflexivity.
Qed.

(** keyword tables *)
Lemma kw_one_of {A} (f : A -> shown_value) (table : list (string * A)) v :
  one_of (map (fun e => (fst e, f (snd e))) table) v = f <$> (keyword_of v ≫= fun k => kw table k).
Proof.
  destruct v; try reflexivity. cbn [one_of keyword_of mbind option_bind].
  induction table as [|[k' a] table IH]; [done|]. cbn [map List.find kw fst snd]. destruct (String.eqb _ k'); [done|]. exact IH.
Qed.
Ltac table :=
  lazymatch goal with |- context [kw ?T] => lazymatch goal with |- context [one_of ((_, ?F _) :: _) ?v] =>
    let H := fresh in pose proof (kw_one_of F T v) as H; cbn [map fst snd] in H; rewrite H; clear H end end.

Lemma color_means sizes v : color_meaning sizes v = VColor <$> resolve_color sizes v.
Proof. destruct v; try reflexivity. unfold color_meaning, resolve_color. by table. Qed.
Lemma length_means sizes v base : length_of sizes base v = resolve_length sizes v base.
Proof. by destruct v. Qed.
Lemma width_means sizes v : width_of sizes v = dimension_length sizes v.
Proof. by destruct v. Qed.
Lemma dimension_means sizes v : dimension_meaning sizes v = VDimension <$> dimension sizes v.
Proof. destruct v; try reflexivity. cbn. by destruct (String.eqb _ _). Qed.
Lemma radius_means sizes v : radius_meaning sizes v = VRadius <$> Apply.length sizes v.
Proof. by destruct v. Qed.
Lemma padding_means sizes v : padding_meaning sizes v = VLP <$> lengthp sizes v.
Proof. by destruct v. Qed.
Lemma margin_means sizes v : margin_meaning sizes v = VLPA <$> lengthp_auto sizes v.
Proof. destruct v; try reflexivity. cbn. by destruct (String.eqb _ _). Qed.
Lemma overflow_means v : overflow_meaning v = VOverflow <$> (keyword_of v ≫= fun k => resolve_overflow k).
Proof. unfold overflow_meaning, resolve_overflow. by table. Qed.
Lemma items_means v : items_meaning v = VAlignItems <$> (keyword_of v ≫= fun k => map_align_items k).
Proof. unfold items_meaning, map_align_items. by table. Qed.
Lemma contents_means v : contents_meaning v = VAlignContent <$> (keyword_of v ≫= fun k => map_align_content k).
Proof. unfold contents_meaning, map_align_content. by table. Qed.
Lemma timing_means v : timing_meaning v = VTiming <$> resolve_timing v.
Proof. destruct v; try reflexivity. unfold timing_meaning, resolve_timing. by table. Qed.
Lemma time_means v : time_meaning v = VNumber <$> time_of v.
Proof. by destruct v. Qed.
Lemma number_means v : number_meaning v = VNumber <$> number_of v.
Proof. by destruct v. Qed.
Lemma alpha_means v : match v with CZero => Some (VNumber f0) | CNumber f | CPercentage f => Some (VNumber f) | _ => None end = VNumber <$> resolve_alpha v.
Proof. by destruct v. Qed.
Lemma weight_means v : match v with
    | CNumber f => if fle f1 f && fle f (f32_of_Z 1000) then Some (VWeight (f32_as_u16 f)) else None
    | _ => one_of [("normal", VWeight 400); ("bold", VWeight 700)] v
    end = VWeight <$> resolve_font_weight v.
Proof. destruct v; try reflexivity; unfold resolve_font_weight; [by table|]. unfold fge. by destruct (_ && _). Qed.
Lemma string_means v : match v with CStr s => Some (VText s) | _ => None end = VText <$> resolve_string v.
Proof. by destruct v. Qed.
Lemma name_means v : match v with CKeyword k => Some (VText k) | _ => None end = VText <$> keyword_of v.
Proof. by destruct v. Qed.
Lemma iterations_mean v : match v with CNumber n => Some (VIterations (AINumber n)) | _ => one_of [("infinite", VIterations AIInfinite)] v end = VIterations <$> resolve_iterations v.
Proof. destruct v; try reflexivity. unfold resolve_iterations. by table. Qed.
Lemma key_means v : match v with CKeyword k => (fun x => VKey (Some x)) <$> parse_key k | _ => None end = (fun x => VKey (Some x)) <$> (keyword_of v ≫= fun k => parse_key k).
Proof. by destruct v. Qed.

Ltac meant := cbn [apply meaning];
  repeat match goal with
  | |- context [width_of ?s ?v] => change (width_of s v) with (dimension_length s v)
  | |- context [length_of ?s ?b ?v] => change (length_of s b v) with (resolve_length s v b)
  end;
  rewrite ?color_means, ?dimension_means, ?radius_means, ?padding_means, ?margin_means,
    ?overflow_means, ?items_means, ?contents_means, ?timing_means, ?time_means, ?number_means, ?alpha_means, ?weight_means, ?string_means,
    ?name_means, ?iterations_mean, ?key_means; try table.
(** a value in its own place *)
Lemma look_apply sizes k i v st :
  look k i (apply sizes k i v st) = match meaning sizes k v with Some x => Some x | None => look k i st end.
Proof.
  destruct st as [l e].
  assert (Hb : forall f, background_at i (snd (set_bg i f (l, e))) = f (background_at i e)). { intros f. rewrite bg_at_set. by rewrite decide_True. }
  assert (Hbt : forall f, background_at i (snd (set_bg i f (touch_bg i (l, e)))) = f (background_at i e)). { intros f. rewrite bg_at_set, decide_True by done. by rewrite bg_at_touch. }
  assert (Ht : forall f, transition_at i (snd (set_tr i f (l, e))) = f (transition_at i e)). { intros f. rewrite tr_at_set. by rewrite decide_True. }
  assert (Ha : forall f, animator_at i (snd (set_an i f (l, e))) = f (animator_at i e)). { intros f. rewrite an_at_set. by rewrite decide_True. }
  destruct k; try reflexivity; meant;
  lazymatch goal with
  | |- look KBackgroundImage _ _ = _ => idtac
  | |- look _ _ (assign ?o _ (touch_bg _ _)) = _ => generalize o; intros [a|]; cbn [assign fmap option_fmap option_map];
      rewrite look_pair; cbn [look]; [by rewrite Hbt|by rewrite bg_at_touch]
  | |- look _ _ (assign ?o _ _) = _ => generalize o; intros [a|]; cbn [assign fmap option_fmap option_map];
      lazymatch goal with
      | |- look _ _ (set_tr _ _ _) = _ => rewrite look_pair; cbn [look]; by rewrite Ht
      | |- look _ _ (set_an _ _ _) = _ => rewrite look_pair; cbn [look]; by rewrite Ha
      | |- _ => reflexivity
      end
  end.
  destruct v; try reflexivity; cbn [one_of List.find fst snd].
  - destruct (String.eqb _ "none"); [|reflexivity]. cbn [fmap option_fmap option_map snd]. rewrite look_pair. cbn [look]. by rewrite Hb.
  - rewrite look_pair. cbn [look]. by rewrite Hb.
Qed.

(** and the other properties leave it alone *)
Lemma look_frame sizes k i v k' i' st : distinct k' i' k i -> look k i (apply sizes k' i' v st) = look k i st.
Proof.
  intros Hd. destruct (decide (place_of k' = place_of k)) as [He|Hne].
  2:{ rewrite apply_within. by apply look_put. }
  destruct (decide (place_of k = PlNone)) as [Hn|Hn]; [by rewrite apply_none by congruence|].
  pose proof (place_keys k Hn) as Hk. pose proof (place_keys k' ltac:(congruence)) as Hk'. rewrite He in Hk'. destruct st as [l e].
  destruct (decide (place_of k = PlBackgrounds)) as [Hp|H1].
  { rewrite Hp in *. rewrite (bg_apply _ _ _ _ _ Hk'). destruct (bg_value sizes k' v) as [f|] eqn:E; [|done].
    assert (Hat : i <> i' -> forall f, background_at i (snd (bg_act i' f (l, e))) = background_at i e).
    { intros Hi [g|]; cbn [bg_act]; [|apply bg_at_touch]. rewrite bg_at_set. by rewrite decide_False. }
    assert (Hlk : forall a b, background_at i (snd a) = background_at i (snd b) -> look k i a = look k i b).
    { intros [l1 e1] [l2 e2] Hab. cbn [snd] in Hab. cbn in Hk. destruct Hk as [<-|[<-|[<-|[<-|[]]]]]; cbn [look]; by rewrite Hab. }
    destruct (decide (i = i')) as [<-|Hi]; [|by apply Hlk, Hat].
    destruct Hd as [Hd|[Hd _]]; [|done]. destruct f as [f|]; cbn [bg_act]; [|apply Hlk, bg_at_touch].
    rewrite look_pair. assert (Hb : background_at i (snd (set_bg i f (l, e))) = f (background_at i e)) by (rewrite bg_at_set; by rewrite decide_True).
    cbn in Hk, Hk'. destruct Hk' as [<-|[<-|[<-|[<-|[]]]]], Hk as [<-|[<-|[<-|[<-|[]]]]]; try done; cbn [look]; rewrite Hb; cbn [bg_value] in E;
    try (destruct (resolve_color sizes v); [|discriminate]; injection E as <-; reflexivity);
    try (destruct (resolve_length sizes v f0); [|discriminate]; injection E as <-; reflexivity);
    (destruct v; try discriminate E; [destruct (String.eqb _ _); [|discriminate E]|]; injection E as <-; reflexivity). }
  destruct (decide (place_of k = PlTransitions)) as [Hp|H2].
  { rewrite Hp in *.
    assert (Hat : forall f, i <> i' -> transition_at i (snd (set_tr i' f (l, e))) = transition_at i e) by (intros f Hi; rewrite tr_at_set; by rewrite decide_False).
    assert (Hs : forall f, transition_at i (snd (set_tr i f (l, e))) = f (transition_at i e)) by (intros f; rewrite tr_at_set; by rewrite decide_True).
    each Hk'; each Hk; cbn [apply]; lazymatch goal with |- look _ _ (assign ?o _ _) = _ => generalize o; (intros [a|]; [|reflexivity]) end; cbn [assign]; rewrite look_pair; cbn [look];
    (destruct (decide (i = i')) as [<-|Hi]; [rewrite Hs; try reflexivity; destruct Hd as [Hd|[Hd _]]; done|by rewrite Hat]). }
  destruct (decide (place_of k = PlAnimators)) as [Hp|H3].
  { rewrite Hp in *.
    assert (Hat : forall f, i <> i' -> animator_at i (snd (set_an i' f (l, e))) = animator_at i e) by (intros f Hi; rewrite an_at_set; by rewrite decide_False).
    assert (Hs : forall f, animator_at i (snd (set_an i f (l, e))) = f (animator_at i e)) by (intros f; rewrite an_at_set; by rewrite decide_True).
    each Hk'; each Hk; cbn [apply]; lazymatch goal with |- look _ _ (assign ?o _ _) = _ => generalize o; (intros [a|]; [|reflexivity]) end; cbn [assign]; rewrite look_pair; cbn [look];
    (destruct (decide (i = i')) as [<-|Hi]; [rewrite Hs; try reflexivity; destruct Hd as [Hd|[Hd _]]; done|by rewrite Hat]). }
  assert (Hne : k' <> k). { destruct Hd as [Hd|[_ Hd]]; [done|]. unfold listed in Hd. rewrite He in Hd. by destruct (place_of k). }
  clear Hd. destruct (place_of k); try done; each Hk'; each Hk; try (exfalso; by apply Hne); clear; cbn [apply];
  lazymatch goal with |- look _ _ (assign ?o _ _) = _ => generalize o; intros [a|]; reflexivity end.
Qed.

(** ** A whole computed style *)
Definition entries_apart (ps : list (Descriptor * ComputedValue)) : Prop :=
  NoDup ps.*1 /\ forall k i v, ((k, i), v) ∈ ps -> listed k = true \/ i = 0.
Lemma entries_distinct ps k i v k' i' v' : entries_apart ps -> ((k, i), v) ∈ ps -> ((k', i'), v') ∈ ps -> (k, i) <> (k', i') -> distinct k i k' i'.
Proof.
  intros [_ H] H1 H2 Hne. destruct (decide (k = k')) as [<-|Hk]; [|by left]. right. split; [congruence|].
  destruct (H _ _ _ H1) as [?| ->]; [done|]. destruct (H _ _ _ H2) as [?| ->]; done.
Qed.
Lemma apart_cons p ps : entries_apart (p :: ps) -> entries_apart ps.
Proof.
  intros [H1 H2]. split; [by inversion H1|]. intros k i v H. apply (H2 k i v). by apply elem_of_list_further.
Qed.
Lemma apart_perm ps qs : ps ≡ₚ qs -> entries_apart ps -> entries_apart qs.
Proof. intros Hp [H1 H2]. split; [by rewrite <- Hp|]. intros k i v. rewrite <- Hp. apply H2. Qed.
Lemma single_apart order s : single s -> order ≡ₚ map_to_list s -> entries_apart order.
Proof.
  intros Hs Hp. apply (apart_perm (map_to_list s)); [done|]. split; [apply NoDup_fst_map_to_list|].
  intros k i v H. apply elem_of_map_to_list in H. by eapply Hs.
Qed.
Lemma apply_all_cons sizes k i v ps st : apply_all sizes (((k, i), v) :: ps) st = apply_all sizes ps (apply sizes k i v st).
Proof. done. Qed.
(** the order does not matter *)
Theorem apply_all_perm sizes ps qs : ps ≡ₚ qs -> entries_apart ps -> forall st, apply_all sizes ps st = apply_all sizes qs st.
Proof.
  induction 1 as [|[[k i] v] ps qs _ IH|[[k i] v] [[k' i'] v'] ps|ps qs rs H1 IH1 H2 IH2]; intros Ha st.
  - done.
  - rewrite !apply_all_cons. apply IH. by eapply apart_cons.
  - rewrite !apply_all_cons. f_equal. apply apply_commutes. eapply entries_distinct; [exact Ha|..].
    + apply elem_of_list_further, elem_of_list_here.
    + apply elem_of_list_here.
    + destruct Ha as [Ha _]. cbn in Ha. apply list.NoDup_cons in Ha as [Ha _]. intros [= -> ->]. apply Ha. apply elem_of_list_here.
  - rewrite IH1 by done. apply IH2. by eapply apart_perm.
Qed.
Lemma apply_all_look sizes ps k i : entries_apart ps -> forall st,
  (forall v, ((k, i), v) ∈ ps -> look k i (apply_all sizes ps st) = match meaning sizes k v with Some x => Some x | None => look k i st end) /\
  ((forall v, ((k, i), v) ∉ ps) -> (listed k = true \/ i = 0) -> look k i (apply_all sizes ps st) = look k i st).
Proof.
  induction ps as [|[[k' i'] v'] ps IH]; intros Ha st; [split; [intros v Hv; by apply elem_of_nil in Hv|done]|].
  rewrite apply_all_cons. destruct (IH (apart_cons _ _ Ha) (apply sizes k' i' v' st)) as [I1 I2]. split.
  - intros v Hv. apply elem_of_cons in Hv as [[= <- <- <-]|Hv].
    + rewrite I2.
      * apply look_apply.
      * intros w Hw. destruct Ha as [Ha _]. cbn in Ha. apply list.NoDup_cons in Ha as [Ha _]. apply Ha. apply elem_of_list_fmap. by exists ((k, i), w).
      * destruct Ha as [_ Ha]. eapply (Ha k i v). apply elem_of_list_here.
    + rewrite (I1 _ Hv). assert (Hne : (k', i') <> (k, i)).
      { intros [= -> ->]. destruct Ha as [Ha _]. cbn in Ha. apply list.NoDup_cons in Ha as [Ha _]. apply Ha. apply elem_of_list_fmap. by exists ((k, i), v). }
      rewrite look_frame; [done|]. eapply entries_distinct; [exact Ha|apply elem_of_list_here|by apply elem_of_list_further|done].
  - intros Hno Hl. rewrite I2; [|intros v Hv; apply (Hno v); by apply elem_of_list_further|done].
    apply look_frame. destruct (decide (k' = k)) as [->|Hk]; [|by left]. right. destruct (decide (i' = i)) as [->|Hi]; [exfalso; apply (Hno v'), elem_of_list_here|].
    split; [done|]. destruct Ha as [_ Ha]. destruct (Ha k i' v' ltac:(apply elem_of_list_here)) as [?| ->]; [done|]. destruct Hl as [?| ->]; done.
Qed.
