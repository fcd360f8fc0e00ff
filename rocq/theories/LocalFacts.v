(** * The places of the page and the data they are bound to (C68, C69). *)
From Coq Require Import ZArith Lia.
From stdpp Require Import gmap.
From Flocq Require Import Core.Core IEEE754.BinarySingleNaN.
From Verif Require Import Str F32 Res Json PropKey Html Css Element Tree ViewModel Render Update Matching
  Cascade Initial Animation Apply Styling Events View SpecTree SpecBind SpecReact SpecView SpecLive SpecLog SpecLocal
  ResFacts BindFacts JsonFacts ChangeFacts FrameFacts BindProps LiveFacts LiveUpdate LiveView LiveSlots LiveValues LiveHistory LiveData LiveOrder.
Close Scope R_scope.

(** ** Comparison of scalars *)
Lemma beqb_cases (a b : f64) : Beqb a b = true -> (exists s s', a = B754_zero s /\ b = B754_zero s') \/ a = b.
Proof.
  intros H. destruct a as [s|s| |s m e h], b as [s'|s'| |s' m' e' h']; try (cbn in H; discriminate H); try (left; by eauto); right;
    try (destruct s; discriminate H); try (destruct s'; discriminate H); try (destruct s, s'; done).
  rewrite Beqb_correct in H by done. revert H. case Req_bool_spec; [intros H _|done]. by apply (B2R_inj 53 1024).
Qed.
Lemma f64_eq_trans a b c : f64_eq a b = true -> f64_eq b c = true -> f64_eq a c = true.
Proof.
  unfold f64_eq. intros H1 H2. destruct (beqb_cases _ _ H1) as [(s & s' & -> & ->)| ->]; [|done].
  destruct (beqb_cases _ _ H2) as [(s1 & s2 & _ & ->)|<-]; done.
Qed.
Lemma scalar_eq_trans a b c : scalar b = true -> json_eq a b = true -> json_eq b c = true -> json_eq a c = true.
Proof.
  intros Hb H1 H2. destruct b as [|x|x|x| |]; try done; destruct a as [|y|y|y| |]; try done; destruct c as [|z|z|z| |]; try done; cbn in *.
  - apply Bool.eqb_prop in H1 as ->. done.
  - destruct x, y, z; try done; cbn in *; [by apply N.eqb_eq in H1 as ->|by apply Z.eqb_eq in H1 as ->|by eapply f64_eq_trans].
  - apply String.eqb_eq in H1 as ->. done.
Qed.
(** a scalar that is no zero fraction is only equal to itself *)
Lemma scalar_eq a b : scalar b = true -> ~ is_zero b -> json_eq a b = true -> a = b.
Proof.
  intros Hb Hz H. destruct b as [|x|x|x| |]; try done; destruct a as [|y|y|y| |]; try done; cbn in *.
  - by apply Bool.eqb_prop in H as ->.
  - destruct x, y; try done; cbn in *; [by apply N.eqb_eq in H as ->|by apply Z.eqb_eq in H as ->|].
    unfold f64_eq in *. destruct (beqb_cases _ _ H) as [(s & s' & -> & ->)| ->]; [|done]. by destruct Hz.
  - by apply String.eqb_eq in H as ->.
Qed.

(** ** What reactions leave alone *)
Definition spares (rs : list Reaction) (l : slot) : Prop := forall r, In r rs -> fst (writes r) <> l.
Record kept_places (t t' : Tree) (rs : list Reaction) : Prop := {
  kp_text : forall n k, spares rs (SText n k) -> text_span t' n k = text_span t n k;
  kp_spans : forall n key, (forall k, spares rs (SAttr n key k)) -> attr_spans t' n key = attr_spans t n key;
  kp_attr : forall n key, (forall k, spares rs (SAttr n key k)) -> spares rs (STag n key) -> attr t' n key = attr t n key;
  kp_children : forall q, (forall c, spares rs (SChild q c)) -> (forall s z, spares rs (SRange q s z)) -> attached t' q = attached t q
}.

Lemma effect_spares t t' r : effect t t' r -> kept_places t t' [r].
Proof.
  intros [E1 E2 E3 E4]. split.
  - intros n k H. rewrite E1. destruct r as [m j x| | | |]; try done. cbn. destruct (decide _) as [[-> ->]|]; [|done].
    by destruct (H (RType m j x) (or_introl eq_refl)).
  - intros n key H. rewrite E2. destruct r as [| | | |m k j x]; try done. cbn. destruct (decide _) as [[-> ->]|]; [|done].
    by destruct (H j (RBind m k j x) (or_introl eq_refl)).
  - intros n key H Ht. rewrite E3. destruct r as [| | |m k b|m k j x]; try done; cbn; (destruct (decide _) as [[-> ->]|]; [|done]).
    + by destruct (Ht (RTag m k b) (or_introl eq_refl)).
    + by destruct (H j (RBind m k j x) (or_introl eq_refl)).
  - intros q Hc Hr. destruct r as [| p c b|p s c z| |]; cbn in E4; try by apply E4.
    + destruct E4 as (_ & E4 & _). apply E4. intros ->. by destruct (Hc c (RReattach p c b) (or_introl eq_refl)).
    + destruct E4 as (_ & E4). apply E4. intros ->. by destruct (Hr s (z - s) (RRepeat p s c z) (or_introl eq_refl)).
Qed.
Lemma kept_trans t1 t2 t3 a b : kept_places t1 t2 a -> kept_places t2 t3 b -> kept_places t1 t3 (a ++ b).
Proof.
  assert (Hl : forall a b l, spares (a ++ b) l -> spares a l) by (intros a' b' l H r Hr; apply H, in_app_iff; by left).
  assert (Hr : forall a b l, spares (a ++ b) l -> spares b l) by (intros a' b' l H r Hr; apply H, in_app_iff; by right).
  intros [A1 A2 A3 A4] [B1 B2 B3 B4]. split.
  - intros n k H. rewrite B1, A1; [done|by eapply Hl|by eapply Hr].
  - intros n k H. rewrite B2, A2; [done|intros; by eapply Hl|intros; by eapply Hr].
  - intros n k H Ht. rewrite B3, A3; [done|intros; by eapply Hl|by eapply Hl|intros; by eapply Hr|by eapply Hr].
  - intros q H Ht. rewrite B4, A4; [done|intros; by eapply Hl|intros; by eapply Hl|intros; by eapply Hr|intros; by eapply Hr].
Qed.
Lemma kept_shown t t' : same_shown t t' -> kept_places t t' [].
Proof. intros H. split; intros; [by apply shown_text|by apply shown_attr_spans|by apply shown_attr|by apply shown_attached]. Qed.
Lemma kept_refl t : kept_places t t [].
Proof. by split. Qed.

Lemma trees_kept ric rs : forall t ids root t' ids', live t root -> Forall (reaction_ok t) rs ->
  update_trees ric (t, ids) rs = Ok (t', ids') -> kept_places t t' rs.
Proof.
  induction rs as [|r rs IH]; intros t ids root t' ids' Hl Hrs H.
  - injection H as <- <-. apply kept_refl.
  - inversion Hrs as [|? ? Hr Hrs']; subst.
    destruct (update_tree_ok ric t ids root r Hl Hr) as (t1 & H1 & Hl1 & Hs1 & He). unfold update_trees in H. cbn [foldR] in H. rewrite H1 in H. cbn [bindR] in H.
    assert (Hrs1 : Forall (reaction_ok t1) rs) by (eapply list.Forall_impl; [exact Hrs'|]; intros; by eapply reaction_ok_def).
    apply (kept_trans t t1 t' [r] rs); [by apply effect_spares|]. exact (IH _ _ _ _ _ Hl1 Hrs1 H).
Qed.

Lemma update_kept X fuel v i x v' o m rs : sound v -> view_bind X v x = Ok (m, rs) -> update X fuel v i x = Ok (v', o) ->
  kept_places (v_tree v) (v_tree v') rs.
Proof.
  intros Hs Hb H. apply update_content in H as (m' & rs' & t & ids & Hb' & Ht & _ & _ & Hc & _).
  rewrite Hb in Hb'. injection Hb' as <- <-. rewrite <- (app_nil_r rs). eapply kept_trans.
  - exact (trees_kept _ _ _ _ _ _ _ (so_live _ Hs) (view_bind_reactions_ok _ _ _ _ _ Hs Hb) Ht).
  - apply kept_shown. by apply content_shown.
Qed.
Lemma reacted_kept X fuel v hist v' log : reacted X fuel v hist v' log -> sound v -> kept_places (v_tree v) (v_tree v') log.
Proof.
  induction 1 as [|v i x hist m rs v1 o v' log Hb Hu _ IH]; intros Hs; [apply kept_refl|].
  eapply kept_trans; [by eapply update_kept|apply IH; by eapply update_sound].
Qed.

(** ** Agreement of the data *)
Lemma project_leaf p : forall sh x a, fits sh x = true -> shape_at sh p = Some SLeaf -> value_at (project sh x) p = Some a -> scalar a = true.
Proof.
  induction p as [|s p IH]; intros sh x a Hf Hs Ha; cbn [shape_at value_at] in *.
  - injection Hs as ->. injection Ha as <-. exact Hf.
  - destruct s as [k|i].
    + destruct sh as [| |fs]; try done. destruct (obj_get k fs) as [s1|] eqn:E; [|done].
      cbn [project step_at] in Ha. assert (Hg : obj_get k (map (fun e => (fst e, project (snd e) (field x (fst e)))) fs) = Some (project s1 (field x k))).
      { clear - E. induction fs as [|[l s] fs IH]; [done|]. cbn [map obj_get fst snd] in *. destruct (String.eqb_spec k l) as [->|]; [by injection E as ->|by apply IH]. }
      rewrite Hg in Ha. apply (IH s1 (field x k)); [|done|done].
      assert (Hin : In (k, s1) fs).
      { clear - E. induction fs as [|[l s] fs IH]; [done|]. cbn [obj_get] in E. destruct (String.eqb_spec k l) as [->|]; [injection E as ->; by left|right; by apply IH]. }
      cbn [fits] in Hf. destruct x as [| | | | |o]; try done.
      * cbn [field]. destruct s1; done.
      * rewrite forallb_forall in Hf. exact (Hf _ Hin).
    + destruct sh as [|n s1|]; try done. cbn [project step_at] in Ha. rewrite list_lookup_fmap in Ha.
      destruct (items x !! i) as [y|] eqn:E; [|done]. cbn in Ha. apply (IH s1 y); [|done|done].
      cbn [fits] in Hf. destruct x as [| | | |l|]; try done. cbn [items] in E. rewrite forallb_forall in Hf. apply Hf. apply elem_of_list_In. by eapply elem_of_list_lookup_2.
Qed.

Lemma agree_no_value_change sh m y x p w : fits sh y = true -> json_eq m (project sh y) = true -> agree_here sh y x p -> ~ value_change sh m x p w.
Proof.
  unfold agree_here, value_change. intros Hf He Ha Hc. destruct (shape_at sh p) as [[|n s|fs]|] eqn:Hs; try done.
  - destruct Ha as (a & b & H1 & H2 & Hab). destruct Hc as [Hx Hc]. rewrite H2 in Hx. injection Hx as ->.
    destruct (json_eq_at _ _ _ _ He H1) as (a0 & H0 & H01). unfold old_value in Hc. rewrite H0 in Hc.
    rewrite (scalar_eq_trans a0 a w) in Hc; [done|by eapply project_leaf|done|done].
  - destruct Ha as (a & b & H1 & H2 & Hab). destruct Hc as (l & Hx & Hc & _). rewrite H2 in Hx. injection Hx as ->.
    destruct (json_eq_at _ _ _ _ He H1) as (a0 & H0 & H01). unfold old_value in Hc. rewrite H0 in Hc.
    destruct a0 as [| | | |l0|]; try done. cbn [items] in Hc. apply json_eq_length in H01. lia.
Qed.
Lemma agree_no_change sh m y x p w : fits sh y = true -> json_eq m (project sh y) = true -> agree_at sh y x p -> ~ is_change sh m x p w.
Proof.
  unfold agree_at, is_change. intros Hf He Ha Hc. destruct (shape_at sh p) as [[|n s|fs]|] eqn:Hs; try (by eapply agree_no_value_change).
  destruct Hc as [(q & w' & Hc) _]. eapply agree_no_value_change; [exact Hf|exact He| |exact Hc]. apply Ha.
  unfold value_change in Hc. destruct (shape_at sh (p ++ q)) as [[| |]|]; try done; [destruct Hc as [-> _]|destruct Hc as (l & -> & _)]; eauto.
Qed.

Lemma place_spared X v sh x m rs y l : shaped sh v -> fits sh x = true -> fits sh y = true -> json_eq (v_model v) (project sh y) = true ->
  view_bind X v x = Ok (m, rs) -> place_agrees sh (v_bindings v) y x l -> spares rs l.
Proof.
  intros Hs Hf Hfy He Hb Ha r Hr Hw. destruct (every_change_reported X v sh x m rs Hs Hf Hb) as (cs & rss & Hcs & Hnd & Htold & ->).
  apply in_concat in Hr as (rs & Hrs & Hr). apply elem_of_list_In, elem_of_list_lookup in Hrs as [i Hi].
  destruct (Forall2_lookup_r _ _ _ _ _ Htold Hi) as ([p w] & Hp & Ht). cbn [fst snd] in Ht.
  destruct (told_in _ _ _ _ _ _ _ Ht Hr) as (b' & w' & Hb' & Hpi & ->). rewrite writes_expected in Hw. cbn [fst] in Hw.
  assert (Hpc : In (p, w) cs) by (apply elem_of_list_In; by eapply elem_of_list_lookup_2). apply Hcs in Hpc.
  destruct (Ha _ _ Hb' Hw) as (pos & Heq & Hsp & Hag). apply (pointer_string_inj sh (proj1 Hs)) in Heq; [|by eapply is_change_shape|done].
  subst pos. by eapply agree_no_change.
Qed.

Lemma untouched_places X fuel doc css v0 sh hist i y v os j x v' o :
  from_document X fuel doc css = Ok v0 -> v_model v0 = initial_model sh -> wf_shape sh = true ->
  Forall (fun e => fits sh (snd e) = true) (hist ++ [(i, y)]) -> json_wf y = true -> updates X fuel v0 (hist ++ [(i, y)]) = Ok (v, os) ->
  fits sh x = true -> update X fuel v j x = Ok (v', o) ->
  (forall n k, place_agrees sh (v_bindings v0) y x (SText n k) -> text_span (v_tree v') n k = text_span (v_tree v) n k) /\
  (forall n key, (forall k, place_agrees sh (v_bindings v0) y x (SAttr n key k)) -> attr_spans (v_tree v') n key = attr_spans (v_tree v) n key) /\
  (forall n key, (forall k, place_agrees sh (v_bindings v0) y x (SAttr n key k)) -> place_agrees sh (v_bindings v0) y x (STag n key) ->
     attr (v_tree v') n key = attr (v_tree v) n key) /\
  (forall q, (forall c, place_agrees sh (v_bindings v0) y x (SChild q c)) -> (forall s z, place_agrees sh (v_bindings v0) y x (SRange q s z)) ->
     attached (v_tree v') q = attached (v_tree v) q).
Proof.
  intros H0 Hm Hw Hf Hy Hu Hx Hu'. pose proof (last_value_only _ _ _ _ _ _ _ _ _ _ _ H0 Hm Hw Hf Hy Hu) as He.
  pose proof (from_document_sound _ _ _ _ _ H0) as Hs0. pose proof (updates_sound _ _ _ _ _ _ Hs0 Hu) as Hs.
  pose proof (updates_shaped _ _ _ _ _ _ _ (from_document_shaped _ _ _ _ _ _ H0 Hm Hw) Hf Hu) as Hsd.
  destruct (updates_reacted _ _ _ _ _ _ Hu) as (log & Hlog). destruct (reacted_keeps _ _ _ _ _ _ Hlog Hs0) as (K1 & _).
  pose proof Hu' as Hc. apply update_content in Hc as (m & rs & _ & _ & Hb & _).
  assert (Hfy : fits sh y = true). { rewrite List.Forall_forall in Hf. apply (Hf (i, y)). apply in_app_iff. right. by left. }
  pose proof (update_kept _ _ _ _ _ _ _ _ _ Hs Hb Hu') as [A1 A2 A3 A4].
  assert (Hsp : forall l, place_agrees sh (v_bindings v0) y x l -> spares rs l).
  { intros l Hl. eapply place_spared; [exact Hsd|exact Hx|exact Hfy|exact He|exact Hb|]. by rewrite K1. }
  split; [|split; [|split]]; intros; [apply A1|apply A2|apply A3|apply A4]; eauto.
Qed.

(** ** Two histories that end with the same value *)
Section twice.
  Context (X : Externals) (fuel : nat) (doc : Html) (css : Css) (v0 : View) (sh : shape).
  Context (H0 : from_document X fuel doc css = Ok v0) (Hm : v_model v0 = initial_model sh) (Hw : wf_shape sh = true).
  Context (x : json) (Hx : json_wf x = true).
  (** a view reached by fitting values, the last of which is [x] *)
  Definition reaches (v : View) : Prop := exists hist i os,
    Forall (fun e => fits sh (snd e) = true) (hist ++ [(i, x)]) /\ updates X fuel v0 (hist ++ [(i, x)]) = Ok (v, os).

  Lemma reaches_fits v : reaches v -> fits sh x = true.
  Proof. intros (hist & i & os & Hf & _). rewrite List.Forall_forall in Hf. apply (Hf (i, x)). apply in_app_iff. right. by left. Qed.
  Lemma reaches_log v : reaches v -> exists hist log, reacted X fuel v0 hist v log.
  Proof. intros (hist & i & os & _ & Hu). destruct (updates_reacted _ _ _ _ _ _ Hu) as (log & Hr). eauto. Qed.

  (** the reactions of a history come from bindings *)
  Lemma log_from v hist log : sound v0 -> reacted X fuel v0 hist v log -> Forall (fun r => exists p b, In (p, b) (flat (v_bindings v0)) /\ fst (writes r) = slot_of (bd_params b)) log.
  Proof.
    intros Hs Hr. clear - Hr Hs. induction Hr as [|v i x hist m rs v1 o v' log Hb Hu _ IH]; [constructor|].
    destruct (update_keeps _ _ _ _ _ _ _ Hs Hu) as (K1 & _). apply Forall_app. split; [|rewrite <- K1; apply IH; by eapply update_sound].
    unfold view_bind in Hb. apply bindR_Ok in Hb as ([[m' ch] rs'] & Hb & [= <- <-]).
    eapply bind_reacts; [|exact Hb]. intros q w' rs Hr. eapply Forall_impl; [|by eapply react_from]. cbv beta.
    intros r (b' & w2 & Hb' & ->). exists q, b'. rewrite react_expected, writes_expected. done.
  Qed.
  Lemma unbound_spared v hist log l : reacted X fuel v0 hist v log ->
    (forall p b, In (p, b) (flat (v_bindings v0)) -> slot_of (bd_params b) <> l) -> spares log l.
  Proof.
    intros Hr Hn r Hin Hl. pose proof (log_from _ _ _ (from_document_sound _ _ _ _ _ H0) Hr) as Hf. rewrite List.Forall_forall in Hf.
    destruct (Hf _ Hin) as (p & b & Hb & Heq). apply (Hn p b Hb). congruence.
  Qed.

  (** a scalar place that the data decides *)
  Lemma decided_shows v1 v2 p b : reaches v1 -> reaches v2 -> In (p, b) (flat (v_bindings v0)) -> alone (v_tree v0) (v_bindings v0) p b ->
    match bd_params b with BRepeat _ _ _ => False | _ => True end -> decided sh (v_bindings v0) x (slot_of (bd_params b)) ->
    exists w', let w := wanted (x_fmt_f64 X) b w' in shows (v_tree v1) (slot_of (bd_params b)) w /\ shows (v_tree v2) (slot_of (bd_params b)) w.
  Proof.
    intros R1 R2 Hin Hal Hk Hd. destruct (Hd _ _ Hin eq_refl) as [_ (pos & -> & Hpos)].
    assert (Hl : shape_at sh pos = Some SLeaf /\ exists w, value_at (project sh x) pos = Some w /\ w <> JNull /\ ~ is_zero w) by (by destruct (bd_params b)).
    clear Hpos. destruct Hl as (Hsh & w & Hv & Hn & Hz).
    assert (Hone : forall v, reaches v -> exists w', piped (v_transformers v0) (bd_pipe b) w w' /\ shows (v_tree v) (slot_of (bd_params b)) (wanted (x_fmt_f64 X) b w')).
    { intros v Hr. pose proof (reaches_fits _ Hr) as Hfx. destruct Hr as (hist & i & os & Hf & Hu).
      destruct (scalar_shown _ _ _ _ _ _ _ _ _ _ _ _ _ _ H0 Hm Hw Hf Hx Hu Hin Hal Hsh Hv Hn) as (w0 & w' & He & Hp & Hs).
      apply scalar_eq in He; [|by eapply project_leaf|done]. subst w0. exists w'. done. }
    destruct (Hone _ R1) as (w1 & P1 & S1), (Hone _ R2) as (w2 & P2 & S2). rewrite (piped_det _ _ _ _ _ P2 P1) in S2. exists w1. done.
  Qed.

  Lemma bound_or_not l : (exists p b, In (p, b) (flat (v_bindings v0)) /\ slot_of (bd_params b) = l) \/
    (forall p b, In (p, b) (flat (v_bindings v0)) -> slot_of (bd_params b) <> l).
  Proof.
    destruct (List.existsb (fun e => bool_decide (slot_of (bd_params (snd e)) = l)) (flat (v_bindings v0))) eqn:E.
    - left. apply List.existsb_exists in E as ([p b] & Hin & Hb). apply bool_decide_eq_true in Hb. eauto.
    - right. intros p b Hin Hl. rewrite <- Bool.not_true_iff_false in E. apply E. apply List.existsb_exists. exists (p, b). split; [done|]. by apply bool_decide_eq_true.
  Qed.

  Lemma same_text v1 v2 n k : reaches v1 -> reaches v2 -> decided sh (v_bindings v0) x (SText n k) -> text_span (v_tree v1) n k = text_span (v_tree v2) n k.
  Proof.
    intros R1 R2 Hd. destruct (bound_or_not (SText n k)) as [(p & b & Hin & Hl)|Hno].
    - destruct (bd_params b) as [m j| | | |] eqn:Eb; try done. cbn in Hl. injection Hl as -> ->.
      assert (Hal : alone (v_tree v0) (v_bindings v0) p b) by (eapply loaded_alone; [exact H0|done|by rewrite Eb]).
      destruct (decided_shows v1 v2 p b R1 R2 Hin Hal) as (w' & S1 & S2); [by rewrite Eb|by rewrite Eb|]. unfold wanted in *. rewrite Eb in *. cbn in *. congruence.
    - destruct (reaches_log _ R1) as (h1 & l1 & L1), (reaches_log _ R2) as (h2 & l2 & L2). pose proof (from_document_sound _ _ _ _ _ H0) as Hs.
      rewrite (kp_text _ _ _ (reacted_kept _ _ _ _ _ _ L1 Hs)) by (by eapply unbound_spared).
      rewrite (kp_text _ _ _ (reacted_kept _ _ _ _ _ _ L2 Hs)) by (by eapply unbound_spared). done.
  Qed.

  (** the pieces of an attribute *)
  Lemma spans_length v n key : reaches v -> List.length <$> attr_spans (v_tree v) n key = List.length <$> attr_spans (v_tree v0) n key.
  Proof.
    intros R. destruct (reaches_log _ R) as (h1 & l1 & L1). destruct (reacted_keeps _ _ _ _ _ _ L1 (from_document_sound _ _ _ _ _ H0)) as (_ & _ & [_ Hd] & _).
    specialize (Hd n). unfold attr_spans. destruct (get_ctx (v_tree v0) n) as [e|], (get_ctx (v_tree v) n) as [e'|]; try done. cbn in *.
    injection Hd as _ _ _ _ Hd _ _. apply (f_equal (fun m => m !! key)) in Hd. rewrite !lookup_fmap in Hd. done.
  Qed.
  Lemma same_spans v1 v2 n key : reaches v1 -> reaches v2 -> (forall k, decided sh (v_bindings v0) x (SAttr n key k)) ->
    attr_spans (v_tree v1) n key = attr_spans (v_tree v2) n key.
  Proof.
    intros R1 R2 Hd. pose proof (spans_length v1 n key R1) as E1. pose proof (spans_length v2 n key R2) as E2.
    destruct (attr_spans (v_tree v0) n key) as [sp0|] eqn:E0; destruct (attr_spans (v_tree v1) n key) as [sp1|] eqn:F1; try done;
      destruct (attr_spans (v_tree v2) n key) as [sp2|] eqn:F2; try done. f_equal. cbn in E1, E2. injection E1 as E1. injection E2 as E2.
    apply list_eq_same_length with (List.length sp0); [done|done|].
    intros k a b Hk Ha Hb. destruct (bound_or_not (SAttr n key k)) as [(p & b' & Hin & Hl)|Hno].
    - destruct (bd_params b') as [| |m ky j| |] eqn:Eb; try done. cbn in Hl. injection Hl as -> -> ->.
      assert (Hal : alone (v_tree v0) (v_bindings v0) p b').
      { intros p' b2 Hin'. rewrite Eb. split; [|destruct (bd_params b2); cbn; tauto]. intros Hs. destruct (Hd k _ _ Hin) as [Hu _]; [by rewrite Eb|]. by apply Hu. }
      destruct (decided_shows v1 v2 p b' R1 R2 Hin Hal) as (w' & S1 & S2); [by rewrite Eb|rewrite Eb; apply Hd|]. unfold wanted in *. rewrite Eb in *. cbn in *.
      rewrite F1 in S1. rewrite F2 in S2. destruct S1 as (z1 & [= <-] & S1), S2 as (z2 & [= <-] & S2). rewrite S1 in Ha by lia. rewrite S2 in Hb by lia. congruence.
    - destruct (reaches_log _ R1) as (h1 & l1 & L1), (reaches_log _ R2) as (h2 & l2 & L2).
      destruct (lookup_lt_is_Some_2 sp0 k) as [s0 Hs0]; [lia|].
      assert (Hsh : forall v h l, reacted X fuel v0 h v l -> shows (v_tree v) (SAttr n key k) (WText s0)).
      { intros v h l L. eapply (piece_history _ _ _ _ _ _ _ _ (SAttr n key k) H0 L I). right. split.
        - apply last_written_none. intros r Hr. eapply unbound_spared; [exact L|exact Hno|done].
        - cbn. exists sp0. done. }
      destruct (Hsh _ _ _ L1) as (z1 & Hz1 & S1). destruct (Hsh _ _ _ L2) as (z2 & Hz2 & S2). rewrite F1 in Hz1. rewrite F2 in Hz2. injection Hz1 as <-. injection Hz2 as <-.
      rewrite S1 in Ha by lia. rewrite S2 in Hb by lia. congruence.
  Qed.
  Lemma same_attr v1 v2 n key : reaches v1 -> reaches v2 -> (forall k, decided sh (v_bindings v0) x (SAttr n key k)) ->
    (forall p b, In (p, b) (flat (v_bindings v0)) -> bd_params b <> BTag n key) -> joined (v_tree v0) n key ->
    attr (v_tree v1) n key = attr (v_tree v2) n key.
  Proof.
    intros R1 R2 Hd Ht Hj. destruct (reaches_log _ R1) as (h1 & l1 & L1), (reaches_log _ R2) as (h2 & l2 & L2).
    pose proof (same_spans v1 v2 n key R1 R2 Hd) as E. pose proof (joined_history _ _ _ _ _ _ _ _ n key H0 L1 Ht Hj) as J1. pose proof (joined_history _ _ _ _ _ _ _ _ n key H0 L2 Ht Hj) as J2.
    pose proof (from_document_sound _ _ _ _ _ H0) as Hs.
    destruct (attr_spans (v_tree v1) n key) as [sp|] eqn:E1.
    - rewrite (J1 _ E1), (J2 sp); [done|]. congruence.
    - assert (Hno : forall k p b, In (p, b) (flat (v_bindings v0)) -> slot_of (bd_params b) <> SAttr n key k).
      { intros k p b Hin Hl. destruct (bd_params b) as [| |m ky j| |] eqn:Eb; try done. cbn in Hl. injection Hl as -> -> ->.
        pose proof (so_bind _ Hs _ _ Hin) as Hok. unfold binding_ok in Hok. rewrite Eb in Hok. destruct Hok as (e & He & [l Hl]).
        pose proof (spans_length v1 n key R1) as Hlen. rewrite E1 in Hlen. unfold attr_spans in Hlen. rewrite He in Hlen. cbn in Hlen. by rewrite Hl in Hlen. }
      assert (Hnt : forall p b, In (p, b) (flat (v_bindings v0)) -> slot_of (bd_params b) <> STag n key).
      { intros p b Hin Hl. destruct (bd_params b) eqn:Eb; try done. cbn in Hl. injection Hl as -> ->. by eapply Ht. }
      rewrite (kp_attr _ _ _ (reacted_kept _ _ _ _ _ _ L1 Hs)); [|intros k; eapply unbound_spared; [exact L1|apply Hno]|eapply unbound_spared; [exact L1|apply Hnt]].
      rewrite (kp_attr _ _ _ (reacted_kept _ _ _ _ _ _ L2 Hs)); [done|intros k; eapply unbound_spared; [exact L2|apply Hno]|eapply unbound_spared; [exact L2|apply Hnt]].
  Qed.
  (** an on/off attribute *)
  Lemma same_flag v1 v2 n key : reaches v1 -> reaches v2 -> decided sh (v_bindings v0) x (STag n key) ->
    (forall p b k, In (p, b) (flat (v_bindings v0)) -> bd_params b <> BAttribute n key k) -> attr (v_tree v1) n key = attr (v_tree v2) n key.
  Proof.
    intros R1 R2 Hd Hna. destruct (bound_or_not (STag n key)) as [(p & b & Hin & Hl)|Hno].
    - destruct (bd_params b) as [| | |m ky|] eqn:Eb; try done. cbn in Hl. injection Hl as -> ->.
      assert (Hal : alone (v_tree v0) (v_bindings v0) p b).
      { intros p' b2 Hin'. rewrite Eb. split.
        - intros Hs. destruct (Hd _ _ Hin) as [Hu _]; [by rewrite Eb|]. by apply Hu.
        - intros Hdis. cbn in Hdis. destruct (bd_params b2) as [| |m ky j| |] eqn:Eb2; try done. cbn in Hdis. destruct Hdis as [<- <-]. by eapply Hna. }
      destruct (decided_shows v1 v2 p b R1 R2 Hin Hal) as (w' & S1 & S2); [by rewrite Eb|by rewrite Eb|]. unfold wanted in *. rewrite Eb in *. cbn in *. congruence.
    - destruct (reaches_log _ R1) as (h1 & l1 & L1), (reaches_log _ R2) as (h2 & l2 & L2). pose proof (from_document_sound _ _ _ _ _ H0) as Hs.
      assert (Hn2 : forall k p b, In (p, b) (flat (v_bindings v0)) -> slot_of (bd_params b) <> SAttr n key k).
      { intros k p b Hin Hl. destruct (bd_params b) as [| |m ky j| |] eqn:Eb; try done. cbn in Hl. injection Hl as -> -> ->. by eapply Hna. }
      rewrite (kp_attr _ _ _ (reacted_kept _ _ _ _ _ _ L1 Hs)); [|intros k; eapply unbound_spared; [exact L1|apply Hn2]|eapply unbound_spared; [exact L1|apply Hno]].
      rewrite (kp_attr _ _ _ (reacted_kept _ _ _ _ _ _ L2 Hs)); [done|intros k; eapply unbound_spared; [exact L2|apply Hn2]|eapply unbound_spared; [exact L2|apply Hno]].
  Qed.

  (** the children of an element *)
  Lemma defined_same v n : reaches v -> defined (v_tree v) n = defined (v_tree v0) n.
  Proof.
    intros R. destruct (reaches_log _ R) as (h1 & l1 & L1). destruct (reacted_keeps _ _ _ _ _ _ L1 (from_document_sound _ _ _ _ _ H0)) as (_ & _ & Hd & _).
    by rewrite (same_def_defined _ _ _ Hd).
  Qed.
  Lemma same_child v1 v2 q c : reaches v1 -> reaches v2 -> q <> v_root v0 ->
    (forall c, decided sh (v_bindings v0) x (SChild q c)) -> (forall s z, decided sh (v_bindings v0) x (SRange q s z)) ->
    c ∈ attached (v_tree v1) q -> c ∈ attached (v_tree v2) q.
  Proof.
    intros R1 R2 Hq Hd Hr Hc. destruct (reaches_log _ R1) as (h1 & l1 & L1), (reaches_log _ R2) as (h2 & l2 & L2). pose proof (from_document_sound _ _ _ _ _ H0) as Hs.
    destruct (reacted_keeps _ _ _ _ _ _ L1 Hs) as (_ & _ & _ & Kr & _ & Hs1).
    assert (Hdef : c ∈ defined (v_tree v0) q).
    { rewrite <- (defined_same v1 q R1). apply (live_defined _ _ (so_live _ Hs1)); [by rewrite Kr|done]. }
    destruct (bound_or_not (SChild q c)) as [(p & b & Hin & Hl)|Hno].
    - destruct (bd_params b) as [|q' c' vis| | |] eqn:Eb; try done. cbn in Hl. injection Hl as -> ->.
      assert (Hal : alone (v_tree v0) (v_bindings v0) p b) by (eapply loaded_alone; [exact H0|done|by rewrite Eb]).
      destruct (decided_shows v1 v2 p b R1 R2 Hin Hal) as (w' & S1 & S2); [by rewrite Eb|rewrite Eb; apply Hd|]. unfold wanted in *. rewrite Eb in *. cbn in *. apply S2, S1, Hc.
    - destruct (List.existsb (fun e => match bd_params (snd e) with BRepeat q' s z => bool_decide (q' = q /\ c ∈ block s (s + z) (defined (v_tree v0) q)) | _ => false end) (flat (v_bindings v0))) eqn:E.
      + apply List.existsb_exists in E as ([p b] & Hin & Hb). cbn [snd] in Hb. destruct (bd_params b) as [| | | |q' s z] eqn:Eb; try done.
        apply bool_decide_eq_true in Hb as [-> Hblk]. destruct (Hr s z _ _ Hin) as [_ (pos & -> & Hk & Hpipe & n & s0 & Hsh & Hz)]; [by rewrite Eb|].
        unfold block in Hblk. apply elem_of_list_lookup in Hblk as [j Hj]. apply lookup_take_Some in Hj as [Hj Hjz]. rewrite lookup_drop in Hj.
        pose proof R1 as (hist1 & i1 & os1 & Hf1 & Hu1). pose proof R2 as (hist2 & i2 & os2 & Hf2 & Hu2).
        assert (Hj' : j < z) by lia.
        assert (Hd1 : defined (v_tree v1) q !! (s + j) = Some c) by (by rewrite defined_same).
        assert (Hd2 : defined (v_tree v2) q !! (s + j) = Some c) by (by rewrite defined_same).
        pose proof (list_current _ _ _ _ _ H0 _ Hm Hw _ _ _ _ _ Hf1 Hx Hu1 _ _ Hin q s z n s0 Eb Hpipe Hk Hsh Hz j c Hj' Hd1) as C1.
        pose proof (list_current _ _ _ _ _ H0 _ Hm Hw _ _ _ _ _ Hf2 Hx Hu2 _ _ Hin q s z n s0 Eb Hpipe Hk Hsh Hz j c Hj' Hd2) as C2.
        by apply C2, C1.
      + eapply (plain_history _ _ _ _ _ _ _ _ q c H0 L2); [by rewrite defined_same|].
        intros p b Hin. destruct (bd_params b) as [|q' c' vis| | |q' s z] eqn:Eb; try done.
        * intros [= -> ->]. eapply Hno; [exact Hin|]. by rewrite Eb.
        * intros -> Hblk. rewrite defined_same in Hblk by done. rewrite <- Bool.not_true_iff_false in E. apply E. apply List.existsb_exists. exists (p, b). split; [done|].
          cbn [snd]. rewrite Eb. by apply bool_decide_eq_true.
  Qed.
End twice.

(** two sublists of a list without repetitions with the same members *)
Lemma sublist_same {A} (l : list A) : forall a b, NoDup l -> sublist a l -> sublist b l -> (forall x, x ∈ a <-> x ∈ b) -> a = b.
Proof.
  induction l as [|x l IH]; intros a b Hn Ha Hb Hm.
  - apply sublist_nil_r in Ha as ->. apply sublist_nil_r in Hb as ->. done.
  - apply list.NoDup_cons in Hn as [Hx Hn].
    assert (Hsub : forall c, sublist c l -> x ∉ c) by (intros c Hc Hin; apply Hx; eapply elem_of_submseteq; [exact Hin|by apply sublist_submseteq]).
    apply sublist_cons_r in Ha as [Ha|(a' & -> & Ha)]; apply sublist_cons_r in Hb as [Hb|(b' & -> & Hb)].
    + by apply IH.
    + exfalso. apply (Hsub _ Ha). apply Hm. left.
    + exfalso. apply (Hsub _ Hb). apply Hm. left.
    + f_equal. apply IH; [done|done|done|]. intros y. specialize (Hm y). rewrite !elem_of_cons in Hm. split; intros Hy.
      * destruct (proj1 Hm (or_intror Hy)) as [->|]; [|done]. exfalso. by apply (Hsub _ Ha).
      * destruct (proj2 Hm (or_intror Hy)) as [->|]; [|done]. exfalso. by apply (Hsub _ Hb).
Qed.
Section children.
  Context (X : Externals) (fuel : nat) (doc : Html) (css : Css) (v0 : View) (H0 : from_document X fuel doc css = Ok v0) (sh : shape) (x : json).
  Lemma same_children v1 v2 q : reaches X fuel v0 sh x v1 -> reaches X fuel v0 sh x v2 -> q <> v_root v0 -> ranged v0 q ->
    (forall c, c ∈ attached (v_tree v1) q <-> c ∈ attached (v_tree v2) q) -> attached (v_tree v1) q = attached (v_tree v2) q.
  Proof.
    intros R1 R2 Hq Hr Hm. destruct (reaches_log _ _ _ _ _ _ R1) as (h1 & l1 & L1), (reaches_log _ _ _ _ _ _ R2) as (h2 & l2 & L2).
    pose proof (order_history _ _ _ _ _ _ _ _ q H0 L1 Hq Hr) as O1. pose proof (order_history _ _ _ _ _ _ _ _ q H0 L2 Hq Hr) as O2.
    pose proof (from_document_sound _ _ _ _ _ H0) as Hs.
    destruct (reacted_keeps _ _ _ _ _ _ L1 Hs) as (_ & _ & D1 & _ & _ & Hs1). destruct (reacted_keeps _ _ _ _ _ _ L2 Hs) as (_ & _ & D2 & _).
    rewrite (same_def_defined _ _ _ D1) in O1. rewrite (same_def_defined _ _ _ D2) in O2.
    apply (sublist_same (defined (v_tree v0) q)); [|exact O1|exact O2|exact Hm].
    apply (live_once _ _ (so_live _ Hs)).
  Qed.
End children.
