(** * Sample pages with animations and transitions (C78, C79). *)
From Coq Require Import ZArith Reals Lia Lra.
From Flocq Require Import Core.Core IEEE754.BinarySingleNaN.
From stdpp Require Import gmap.
From RecordUpdate Require Import RecordUpdate.
From Verif Require Import Str F32 Res Json PropKey Html Css Element Tree ViewModel Render Update Matching
  Cascade Initial Animation Apply Styling Events View SpecLive SpecView SpecTree SpecSelect SpecStyle SpecShow SpecPage SpecAnim SpecMove
  ResFacts EventFrame LiveView SelectFacts SelectLive StyleView StylePage Samples PropSelect StyleSamples FloatFacts.
Close Scope R_scope.

(** ** Floats compared bit by bit *)
Definition float_same (a b : f32) : bool :=
  match a, b with
  | B754_zero s, B754_zero s' | B754_infinity s, B754_infinity s' => Bool.eqb s s'
  | B754_nan, B754_nan => true
  | B754_finite s m e _, B754_finite s' m' e' _ => Bool.eqb s s' && Pos.eqb m m' && Z.eqb e e'
  | _, _ => false
  end.
Lemma float_same_eq (a b : f32) : float_same a b = true -> a = b.
Proof.
  destruct a as [s|s| |s m e H], b as [s'|s'| |s' m' e' H']; cbn; try discriminate 1; intros E.
  - apply Bool.eqb_prop in E. by subst.
  - apply Bool.eqb_prop in E. by subst.
  - done.
  - apply andb_prop in E as [E E3]. apply andb_prop in E as [E1 E2]. apply Bool.eqb_prop in E1. apply Pos.eqb_eq in E2. apply Z.eqb_eq in E3. subst. f_equal. apply eqbool_irrelevance.
Qed.
Definition laps_same (a b : AnimationIterations) : bool :=
  match a, b with AINumber x, AINumber y => float_same x y | AIInfinite, AIInfinite => true | _, _ => false end.
(** animations that differ in the clock only, of those that run straight on *)
Definition straight (a : Animator) : bool :=
  match a_direction a, a_fill_mode a, a_timing a with ADNormal, AFNone, TFLinear => a_running a | _, _, _ => false end.
Definition set_same (a b : Animator) : bool :=
  String.eqb (a_name a) (a_name b) && float_same (a_delay a) (a_delay b) && float_same (a_duration a) (a_duration b) && laps_same (a_iterations a) (a_iterations b) && straight a && straight b.
Lemma set_same_eq a b : set_same a b = true -> settings a = settings b.
Proof.
  unfold set_same. intros H. apply andb_prop in H as [H H6]. apply andb_prop in H as [H H5]. apply andb_prop in H as [H H4]. apply andb_prop in H as [H H3]. apply andb_prop in H as [H1 H2].
  apply String.eqb_eq in H1. apply float_same_eq in H2, H3. assert (a_iterations a = a_iterations b) as H7.
  { destruct (a_iterations a), (a_iterations b); try discriminate H4; [f_equal; by apply float_same_eq|done]. }
  unfold straight in H5, H6. destruct a as [? ? [] ? [] [] ? [] ?]; try discriminate H5. destruct b as [? ? [] ? [] [] ? [] ?]; try discriminate H6. cbn in *. by subst.
Qed.
Definition timedb (a : Animator) : bool :=
  is_finite (a_duration a) && flt f0 (a_duration a) && is_finite (a_delay a) && match a_iterations a with AINumber n => is_finite n && fle f0 n | AIInfinite => true end.
Lemma timedb_timed a : timedb a = true -> timed a.
Proof.
  unfold timedb, timed. intros H. apply andb_prop in H as [H H4]. apply andb_prop in H as [H H3]. apply andb_prop in H as [H1 H2]. split; [done|].
  split; [by apply (flt_real f0 _ eq_refl H1) in H2|]. split; [done|]. destruct (a_iterations a); [|done]. apply andb_prop in H4 as [H4 H5]. split; [done|]. by apply (fle_real f0 _ eq_refl H4) in H5.
Qed.
Lemma second_time : frame_time f1.
Proof. destruct (f32_int 1 ltac:(lia)) as [H1 H2]. fold f1 in *. split; [exact H1|]. rewrite H2. lra. Qed.

(** ** <p></p> with rules for it *)
Definition seconds (n : Z) : ComputedValue := CTime (f32_of_Z n).
Definition second (events : list InputEvent) : Input := mkInput f1 (f100, f100) events.
Definition p_page (bs : list ElementBinding) : Html := document [elem "p" bs []].
Definition p_css (ds : list Declaration) (ans : gmap string Animation) : Css := mkCss [rule [[SType "p"]] ds] ans.
Definition p_tree (ds : list Declaration) (t : Tree) : Prop :=
  parent_of t 2 = Some 1 /\ parent_of t 1 = Some 0 /\ parent_of t 0 = None /\ e_tag <$> get_ctx t 2 = Some "p" /\ e_tag <$> get_ctx t 1 = Some "body" /\
  e_text <$> get_ctx t 2 = Some None /\ e_text <$> get_ctx t 1 = Some None /\ e_style <$> get_ctx t 2 = Some ds /\ e_style <$> get_ctx t 1 = Some [].
Lemma p_types ds ans s : s ∈ css_styles (p_css ds ans) -> exists name, s_selectors s = [[SType name]].
Proof. unfold p_css. cbn [css_styles]. intros H. apply elem_of_list_singleton in H as ->. by eexists. Qed.
Lemma p_styled ds t : live t 0 -> p_tree ds t -> styled_element t 1 2.
Proof.
  intros Hl (P2 & P1 & P0 & T2 & T1 & X2 & X1 & _). split; [|split].
  - eapply rtc_l; [exact P2|]. reflexivity.
  - apply fmap_at in X2 as (e & He & Ex). by exists e.
  - intros m Hm Ha. apply (above_lt t m 2 Hl) in Ha. apply (above_le t 0 1 m Hl) in Hm. assert (m = 1) as -> by lia. eapply not_contentless; [exact T1|exact X1|reflexivity].
Qed.
Lemma p_declared ds inline ans t : p_tree inline t -> declarations (p_css ds ans) t 0 2 (ds ++ inline) /\ declarations (p_css ds ans) t 0 1 [].
Proof.
  intros (P2 & P1 & P0 & T2 & T1 & X2 & X1 & S2 & S1). split.
  - apply fmap_at in S2 as (e & He & Es). exists (ds ++ []), e. split.
    { apply (declared_yes t 0 2 (rule [[SType "p"]] ds)); [by rewrite (type_applies _ _ _ _ _ _ T2)|constructor]. }
    split; [exact He|by rewrite Es, app_nil_r].
  - apply fmap_at in S1 as (e & He & Es). exists [], e. split.
    { apply declared_no; [by rewrite (type_applies _ _ _ _ _ _ T1)|constructor]. }
    split; [exact He|by rewrite Es].
Qed.
Lemma p_gives ds inline ans t k x : p_tree (inline ++ [give k x]) t -> expand k [x] = [(k, x)] -> gives_value (p_css ds ans) t 0 1 2 k x.
Proof.
  intros Ht He ds' vars Hd _. destruct (p_declared ds _ ans t Ht) as [Hd' _]. assert (ds' = (ds ++ inline) ++ [give k x]) as -> by (rewrite <- app_assoc; exact (declarations_fun _ _ _ _ _ _ Hd Hd')).
  exists (ds ++ inline), (give k x), []. split; [done|]. split.
  - exists (mkProperty k [[DExplicit x]]), [DExplicit x], [x]. split; [done|]. split; [done|]. split; [eapply (mean_cons _ _ _ [x] []); constructor|]. cbn [p_key]. rewrite He.
    unfold last_given. cbn. destruct (decide _); [done|congruence].
  - intros pre' d' post' v' E. by destruct pre'.
Qed.
(** what C31 asks of the page *)
Lemma p_fair X fuel doc css0 v0 hist v os i x m t ids ds inline ans : css0 = p_css ds ans -> from_document X fuel doc css0 = Ok v0 -> updates X fuel v0 hist = Ok (v, os) ->
  prepare X fuel v i x = Ok (m, t, ids) -> (forall s ds, x_read_inline_css X s = Some ds -> Forall tidy_declaration ds) -> p_tree inline t -> fair css0 v t 2 /\ v_root v = 0 /\ v_body v = 1.
Proof.
  intros -> H0 H Hp Hr Ht. destruct (kept_history _ _ _ _ _ _ _ _ H0 H) as (rn & t0 & _ & _ & _ & _ & _ & Hb & _ & Hs). split; [|split; [exact (so_root _ Hs)|exact Hb]].
  pose proof (proj1 (prepare_live _ _ _ _ _ _ _ _ Hs Hp)) as Hl. split; [|split; [|split]].
  - exact (prepared_inline _ _ _ _ _ _ _ _ _ Hp (along_read X fuel _ _ v0 hist v os _ _ H0 H Hr)).
  - rewrite Hb. exact (p_styled _ t Hl Ht).
  - exact (type_plain _ _ _ (p_types ds ans)).
  - intros a s _ _ Hss. destruct (p_types _ _ s Hss) as [name Hn]. exact (type_settled _ _ _ _ _ Hn).
Qed.
Lemma p_body X fuel doc css0 v0 hist v os inline : from_document X fuel doc css0 = Ok v0 -> updates X fuel v0 hist = Ok (v, os) -> p_tree inline (v_tree v) -> styled_element (v_tree v) (v_body v) 2.
Proof.
  intros H0 H Ht. destruct (kept_history _ _ _ _ _ _ _ _ H0 H) as (rn & t0 & _ & _ & _ & _ & _ & Hb & _ & Hs). rewrite Hb. pose proof (so_live _ Hs) as Hl. rewrite (so_root _ Hs) in Hl. exact (p_styled _ _ Hl Ht).
Qed.
