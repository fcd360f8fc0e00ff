(** * The counters of a view (C83). *)
From Coq Require Import ZArith Lia.
From stdpp Require Import gmap.
From RecordUpdate Require Import RecordUpdate.
From Verif Require Import Str StrFacts F32 Res ResFacts Json PropKey Html Css Element Tree ViewModel Render Update Matching
  Cascade Initial Animation Apply Styling Events View
  SpecLive SpecLog SpecView SpecRender SpecTree SpecEvents FrameFacts EventFacts EventFrame
  RenderTree RenderNode RenderProps RenderAny RenderMore LiveFacts LiveUpdate LiveView LiveHistory LiveOrder
  SpecSelect SelectFacts SelectLive SelectFresh SpecStyle ApplyFacts CascadeFacts SpecShow ShowFacts SpecPage AnimationFacts StyleTrace StyleView StylePage SpecMove MoveFacts SameFacts Metrics SpecMetrics.

(** ** Counting changes nothing *)
Definition erases {A} (c : counted A) (r : res A) : Prop := forall m, snd (c m) = r.
Lemma erases_ret {A} (r : res A) : erases (ret r) r. Proof. done. Qed.
Lemma erases_bind {A B} (c : counted A) r (k : A -> counted B) k' : erases c r -> (forall a, erases (k a) (k' a)) -> erases (bindM c k) (bindR r k').
Proof.
  intros H Hk m. specialize (H m). unfold bindM. destruct (c m) as [m1 [a| | |]]; cbn [snd] in H; subst r; cbn [bindR]; [apply Hk|done..].
Qed.
Lemma erases_tick {B} f (k : unit -> counted B) r : erases (k tt) r -> erases (bindM (tick f) k) r.
Proof. intros H m. apply H. Qed.
Lemma erases_fold {A S} (f : S -> A -> counted S) g l : (forall s a, erases (f s a) (g s a)) -> forall s, erases (foldM f s l) (foldR g s l).
Proof. intros H. induction l as [|a l IH]; intros s; cbn [foldM foldR]; [apply erases_ret|]. apply erases_bind; [apply H|exact IH]. Qed.

Section erase.
  Context (fuel : nat) (debug : bool) (css : Css) (order : ComputedStyle -> list (Descriptor * ComputedValue)) (time : f32).
  Lemma cascade_counted sizes vars n t pe layout e :
    cascade_apply_styles fuel debug css order time sizes vars n t pe layout e =
    do! (l, e, v, s) <- cascade_counts fuel debug css order time sizes vars n t pe layout e; Ok (l, e, v).
  Proof.
    unfold cascade_apply_styles, cascade_counts. cbv zeta.
    destruct (cascade_rules _ _ _ _ _ _) as [[vars1 s1]| | |]; cbn [bindR]; [|done..].
    destruct (compute_declaration_block _ _ _) as [[vars2 s2]| | |]; cbn [bindR]; [|done..].
    destruct (play_animators _ _ _ _ _) as [[an s3]| | |]; cbn [bindR]; [|done..].
    destruct (play_transitions _ _ _ _) as [[tr s4]| | |]; cbn [bindR]; [|done..].
    destruct (apply_all _ _ _) as [l1 e1]. destruct (mapR _ _); done.
  Qed.
  Lemma styles_erase depth : forall n sizes vars t, erases (apply_styles_counted fuel debug css order time depth n sizes vars t) (apply_styles fuel debug css order time depth n sizes vars t).
  Proof.
    induction depth as [|depth IH]; intros n sizes vars t; [apply erases_ret|]. cbn [apply_styles apply_styles_counted].
    apply erases_bind; [apply erases_ret|]. intros p. apply erases_bind; [apply erases_ret|]. intros pe. apply erases_bind; [apply erases_ret|]. intros before.
    apply erases_bind; [apply erases_ret|]. intros e. destruct (e_text e); [apply erases_ret|]. apply erases_tick. rewrite cascade_counted.
    destruct (cascade_counts fuel debug css order time sizes vars n t pe before e) as [[[[l e1] v1] s1]| | |]; cbn [bindR]; [|intros m; done..].
    intros m. cbn [bindM ret]. apply erases_tick. apply erases_tick. apply erases_bind; [apply erases_ret|]. intros t1.
    destruct (_ || _); [apply erases_ret|]. apply erases_bind; [apply erases_ret|]. intros cs. apply erases_fold. intros s a. apply IH.
  Qed.
End erase.
Lemma positions_erase depth : forall n loc op clip t, erases (final_positions_counted depth n loc op clip t) (compute_final_positions depth n loc op clip t).
Proof.
  induction depth as [|depth IH]; intros n loc op clip t; [apply erases_ret|]. cbn [compute_final_positions final_positions_counted].
  apply erases_tick. apply erases_bind; [apply erases_ret|]. intros l. apply erases_bind; [apply erases_ret|]. intros e. cbv zeta.
  destruct (e_scrolling _); (apply erases_bind; [apply erases_ret|]; intros cs; apply erases_fold; intros s2 a2; apply IH).
Qed.
Lemma update_erase X fuel v i x : erases (update_counted X fuel v i x) (update X fuel v i x).
Proof.
  unfold update_counted, update, prepare. apply erases_tick. intros m.
  assert (Hassoc : forall {A B C} (r : res A) (f : A -> res B) (g : B -> res C), bindR (bindR r f) g = bindR r (fun a => bindR (f a) g)) by (by intros A B C [| | |]).
  rewrite Hassoc. revert m. apply erases_bind; [apply erases_ret|]. intros [j rs]. 
  intros m. rewrite Hassoc. revert m. apply erases_bind; [apply erases_ret|]. intros [t ids].
  intros m. rewrite Hassoc. revert m. apply erases_bind; [apply erases_ret|]. intros t1. cbv zeta.
  intros m. rewrite Hassoc. revert m. apply erases_bind; [apply styles_erase|]. intros t2.
  intros m. rewrite Hassoc. revert m. apply erases_bind; [apply positions_erase|]. intros t3. cbn [bindR].
  apply erases_bind; [apply erases_ret|]. intros [[s t4] o]. apply erases_ret.
Qed.
Lemma updates_erase X fuel l : forall v, erases (updates_counted X fuel v l) (updates X fuel v l).
Proof.
  induction l as [|[i x] l IH]; intros v; cbn [updates updates_counted]; [apply erases_ret|].
  apply erases_bind; [apply update_erase|]. intros [v1 o]. apply erases_bind; [apply IH|]. intros [v2 os]. apply erases_ret.
Qed.

(** ** Totals *)
Lemma total_app {A} (f : A -> nat) (l l' : list A) : total f (l ++ l') = total f l + total f l'.
Proof. induction l; cbn [total app]; lia. Qed.
Lemma total_ext {A} (f g : A -> nat) (l : list A) : (forall a, a ∈ l -> f a = g a) -> total f l = total g l.
Proof. induction l as [|a l IH]; intros H; [done|]. cbn [total]. rewrite IH; [rewrite H; [done|apply elem_of_list_here]|]. intros b Hb. apply H. by apply elem_of_list_further. Qed.
Lemma total_flags {A} (p : A -> bool) (l : list A) : total (fun a => if p a then 1 else 0) l = List.length (List.filter p l).
Proof. induction l as [|a l IH]; [done|]. cbn [total List.filter]. rewrite IH. by destruct (p a). Qed.

Lemma bindM_Ok {A B} (c : counted A) (k : A -> counted B) m m' b : bindM c k m = (m', Ok b) -> exists m1 a, c m = (m1, Ok a) /\ k a m1 = (m', Ok b).
Proof. unfold bindM. destruct (c m) as [m1 [a| | |]]; [eauto|discriminate..]. Qed.
Lemma ret_bind {A B} (r : res A) (k : A -> counted B) m m' b : bindM (ret r) k m = (m', Ok b) -> exists a, r = Ok a /\ k a m = (m', Ok b).
Proof. intros H. apply bindM_Ok in H as (m1 & a & H1 & H2). unfold ret in H1. injection H1 as <- ->. eauto. Qed.
Lemma tick_bind {B} f (k : unit -> counted B) m m' b : bindM (tick f) k m = (m', Ok b) -> k tt (f m) = (m', Ok b).
Proof. done. Qed.

(** ** The elements shown *)
Definition seen (k : nat) (m : Metrics) : Metrics := m <| m_elements_shown ::= Nat.add k |>.
Lemma seen_seen a b m : seen a (seen b m) = seen (b + a) m.
Proof. destruct m. unfold seen, set. cbn. f_equal. lia. Qed.
Lemma shown_counted depth : forall n loc op clip t m m' t', live t 0 -> final_positions_counted depth n loc op clip t m = (m', Ok t') ->
  exists l, lists (at_or_above t n) l /\ m' = seen (List.length l) m.
Proof.
  induction depth as [|depth IH]; intros n loc op clip t m m' t' Hl H; [discriminate|]. cbn [final_positions_counted] in H.
  apply tick_bind in H. apply ret_bind in H as (lay & Hlay & H). apply ret_bind in H as (e & He & H). apply get_element_ctx in He. cbv zeta in H.
  set (e1 := place_element _ _ _ e) in H.
  assert (Hs1 : same_content t (put_element n e1 t)) by (eapply put_element_same; [exact He|reflexivity]).
  clearbody e1. destruct (match e_scrolling e1 with Some s => _ | None => _ end) as [clip1 loc1].
  apply ret_bind in H as (cs & Hcs & H). apply children_spec in Hcs. rewrite (shown_attached _ _ _ (content_shown _ _ Hs1)) in Hcs. subst cs.
  assert (Hab : forall u, same_content t u -> forall a b, at_or_above u a b <-> at_or_above t a b).
  { intros u Hu a b. split; [by apply above_content|]. apply above_content. by apply same_sym. }
  assert (Hfold : forall cs a m1, cs ⊆ attached t n -> NoDup cs -> same_content t a -> foldM (fun t c => final_positions_counted depth c loc1 (e_opacity e1) clip1 t) a cs m1 = (m', Ok t') ->
    exists l, lists (fun k => exists c, c ∈ cs /\ at_or_above t c k) l /\ m' = seen (List.length l) m1).
  { clear H. induction cs as [|c cs IHc]; intros a m1 Hin Hnd Ha H; cbn [foldM] in H.
    - unfold ret in H. injection H as <- <-. exists []. split; [|by destruct m1]. split; [constructor|]. intros k. split; [by intros ?%elem_of_nil|]. intros (c & Hc & _). by apply elem_of_nil in Hc.
    - apply bindM_Ok in H as (m2 & b & Hb & H). apply list.NoDup_cons in Hnd as [Hnc Hnd].
      pose proof (shown_live _ _ _ (content_shown _ _ Ha) Hl) as Hla. destruct (IH _ _ _ _ _ _ _ _ Hla Hb) as (l1 & [N1 L1] & ->).
      pose proof (positions_erase depth c loc1 (e_opacity e1) clip1 a m1) as He1. rewrite Hb in He1. cbn [snd] in He1. symmetry in He1.
      pose proof (final_positions_same _ _ _ _ _ _ _ He1) as Hab1.
      destruct (IHc b (seen (List.length l1) m1)) as (l2 & [N2 L2] & ->); [by intros d Hd; apply Hin, elem_of_list_further|done|by eapply same_trans|exact H|].
      exists (l1 ++ l2). split; [|rewrite seen_seen, app_length; done]. split.
      + apply NoDup_app. split; [exact N1|]. split; [|exact N2]. intros k Hk Hk2. apply L1 in Hk. apply L2 in Hk2 as (d & Hd & Hdk). rewrite (Hab _ Ha) in Hk.
        apply Hnc. replace c with d; [done|]. eapply (above_disjoint _ _ n); [exact Hl|apply Hin; by apply elem_of_list_further|apply Hin; apply elem_of_list_here|exact Hdk|exact Hk].
      + intros k. rewrite elem_of_app, L1, L2, (Hab _ Ha). split.
        * intros [Hk|(d & Hd & Hk)]; [exists c; split; [apply elem_of_list_here|done]|exists d; split; [by apply elem_of_list_further|done]].
        * intros (d & Hd & Hk). apply elem_of_cons in Hd as [->|Hd]; [by left|right; eauto]. }
  destruct (Hfold (attached t n) (put_element n e1 t) _ ltac:(done) (proj1 (live_once _ _ Hl n)) Hs1 H) as (l & [N L] & ->).
  exists (n :: l). split; [|destruct m; unfold seen, set; cbn; f_equal; lia]. split.
  - apply list.NoDup_cons. split; [|exact N]. intros Hn. apply L in Hn as (c & Hc & Hm). apply (above_le _ _ _ _ Hl) in Hm. destruct (live_newer _ _ Hl n c ltac:(by left)). lia.
  - intros k. rewrite elem_of_cons, L. split.
    + intros [->|(c & Hc & Hk)]; [reflexivity|]. eapply rtc_l; [|exact Hk]. by apply (live_parent _ _ Hl).
    + intros Hk. apply (above_cases _ _ _ _ Hl) in Hk as [<-|Hk]; [by left|right; exact Hk].
Qed.

(** ** The elements styled *)
Lemma above_below t m n : live t 0 -> above t m n -> m < n.
Proof.
  intros Hl. induction 1 as [a b Hab|a b c Hab _ IH]; apply (live_parent _ _ Hl) in Hab; destruct (live_newer _ _ Hl a b ltac:(by left)); lia.
Qed.
Lemma styled_cases t n e : live t 0 -> get_ctx t n = Some e -> e_text e = None -> forall k,
  styled_element t n k <-> k = n \/ (String.eqb (e_tag e) "img" || is_void (e_tag e) = false /\ exists c, c ∈ attached t n /\ styled_element t c k).
Proof.
  intros Hl He Ht k. split.
  - intros (H1 & H2 & H3). apply (above_cases _ _ _ _ Hl) in H1 as [<-|(c & Hc & Hk)]; [by left|]. right. pose proof (proj1 (live_parent _ _ Hl n c) Hc) as Hp.
    assert (Hnk : above t n k) by (eapply tc_rtc_r; [apply tc_once; exact Hp|exact Hk]).
    split. { destruct (_ || _) eqn:E; [|done]. exfalso. apply (H3 n); [reflexivity|done|]. exists e. eauto. }
    exists c. split; [done|]. split; [done|]. split; [done|]. intros m Hm. apply H3. eapply rtc_l; [exact Hp|exact Hm].
  - intros [->|(Hv & c & Hc & H1 & H2 & H3)].
    + split; [reflexivity|]. split; [eauto|]. intros m Hm Hmn. exfalso. apply (above_le _ _ _ _ Hl) in Hm. apply (above_below _ _ _ Hl) in Hmn. lia.
    + pose proof (proj1 (live_parent _ _ Hl n c) Hc) as Hp. split; [eapply rtc_l; [exact Hp|exact H1]|]. split; [done|]. intros m Hm Hmk.
      apply (above_cases _ _ _ _ Hl) in Hm as [<-|(d & Hd & Hm)].
      * intros (e0 & He0 & [Hx|Hx]); assert (e0 = e) as -> by congruence; [rewrite Ht in Hx; by destruct Hx|congruence].
      * apply H3; [|done]. replace c with d; [done|]. eapply (above_disjoint _ _ n); [exact Hl|exact Hd|exact Hc| |exact H1]. etransitivity; [exact Hm|]. by apply tc_rtc.
Qed.

Section styles.
  Context (fuel : nat) (debug : bool) (css : Css) (order : ComputedStyle -> list (Descriptor * ComputedValue)) (time : f32).
  Notation cascade := (cascade_apply_styles fuel debug css order time).
  Notation counts := (cascade_counts fuel debug css order time).

  (** the custom properties that styling [n] with [vars] hands down to [k] *)
  Inductive visits (t : Tree) : NodeId -> Variables -> NodeId -> Variables -> Prop :=
  | visits_here n vars : visits t n vars n vars
  | visits_down n vars sizes pe x e layout' e' vars' c k vars2 :
      t_nodes t !! n = Some x -> n_ctx x = Some e -> e_text e = None -> cascade sizes vars n t pe (n_style x) e = Ok (layout', e', vars') ->
      parent_of t c = Some n -> visits t c vars' k vars2 -> visits t n vars k vars2.
  Definition visited (t t' : Tree) (n : NodeId) (vars : Variables) (k : NodeId) (st : Stats) : Prop :=
    exists vars2, visits t n vars k vars2 /\ exists sizes pe x e layout' e' v' x',
      t_nodes t !! k = Some x /\ n_ctx x = Some e /\ e_text e = None /\ counts sizes vars2 k t pe (n_style x) e = Ok (layout', e', v', st) /\
      t_nodes t' !! k = Some x' /\ n_style x' = layout'.
  Lemma visits_above t n vars k vars2 : visits t n vars k vars2 -> at_or_above t n k.
  Proof. induction 1; [reflexivity|]. eapply rtc_l; eassumption. Qed.
  Lemma counts_alike sizes vars n t t' pe layout e : alike t t' -> counts sizes vars n t' pe layout e = counts sizes vars n t pe layout e.
  Proof. intros H. unfold cascade_counts. cbv zeta. by rewrite (rules_alike _ _ _ _ _ _ H). Qed.
  Lemma visits_move t s n vars k vars2 : alike t s -> (forall m, at_or_above t n m -> t_nodes s !! m = t_nodes t !! m) ->
    visits t n vars k vars2 -> visits s n vars k vars2.
  Proof.
    intros Ha H1 H. induction H as [n vars|n vars sizes pe x e layout' e' vars' c k vars2 Hx He Ht Hc Hp _ IH]; [constructor|].
    eapply visits_down; [rewrite H1 by reflexivity; exact Hx|exact He|exact Ht| | |apply IH].
    - rewrite (cascade_alike _ _ _ _ _ _ _ _ _ _ _ _ _ Ha). exact Hc.
    - unfold parent_of. rewrite H1; [exact Hp|]. eapply rtc_l; [exact Hp|reflexivity].
    - intros m Hm. apply H1. eapply rtc_l; [exact Hp|exact Hm].
  Qed.
  Lemma visited_move t t' s s' n vars k st : alike t s -> (forall m, at_or_above t n m -> t_nodes s !! m = t_nodes t !! m) ->
    (forall m, at_or_above t n m -> t_nodes s' !! m = t_nodes t' !! m) -> visited t t' n vars k st -> visited s s' n vars k st.
  Proof.
    intros Ha H1 H2 (vars2 & Hv & sizes & pe & x & e & layout' & e' & v' & x' & Hx & He & Ht & Hc & Hx' & Hlay).
    pose proof (visits_above _ _ _ _ _ Hv) as Hk. exists vars2. split; [exact (visits_move _ _ _ _ _ _ Ha H1 Hv)|].
    exists sizes, pe, x, e, layout', e', v', x'. split; [by rewrite H1|]. split; [done|]. split; [done|]. split; [|split; [by rewrite H2|done]].
    rewrite (counts_alike _ _ _ _ _ _ _ _ Ha). exact Hc.
  Qed.

  (** what a styling of the elements of [l] adds to the counters *)
  Definition cascaded (t t' : Tree) (st : NodeId -> Stats) (l : list NodeId) (m : Metrics) : Metrics :=
    mkMetrics (m_updates m) (m_elements_shown m) (m_cascades m + List.length l)
      (m_layouts m + total (fun k => if restyled t t' k then 1 else 0) l)
      (match l with [] => m_styles m | _ :: _ => List.length (css_styles css) end)
      (m_matches_static m + total (fun k => s_static (st k)) l) (m_matches_dynamic m + total (fun k => s_dynamic (st k)) l)
      (m_apply_ok m + total (fun k => s_ok (st k)) l) (m_apply_error m + total (fun k => s_error (st k)) l).
  Lemma cascaded_nil t t' st m : cascaded t t' st [] m = m.
  Proof. destruct m. unfold cascaded. cbn. f_equal; lia. Qed.
  Lemma cascaded_app t t' st l l' m : cascaded t t' st l' (cascaded t t' st l m) = cascaded t t' st (l ++ l') m.
  Proof.
    unfold cascaded. cbn [m_updates m_elements_shown m_cascades m_layouts m_styles m_matches_static m_matches_dynamic m_apply_ok m_apply_error].
    rewrite !total_app, app_length. f_equal; try lia. destruct l, l'; done.
  Qed.
  Lemma cascaded_ext t t' s s' st st' l m : (forall k, k ∈ l -> restyled t t' k = restyled s s' k /\ st k = st' k) -> cascaded t t' st l m = cascaded s s' st' l m.
  Proof.
    intros H. unfold cascaded. f_equal; f_equal; apply total_ext; intros k Hk; destruct (H k Hk) as [E1 E2]; rewrite ?E1, ?E2; done.
  Qed.

  Lemma cascaded_one t u st n x y m : t_nodes t !! n = Some x -> t_nodes u !! n = Some y ->
    count_layout (n_style x) (n_style y) (count_cascade css st (m <| m_cascades ::= S |>)) = cascaded t u (fun _ => st) [n] m.
  Proof.
    intros Hx Hy. unfold count_layout, cascaded, restyled. cbn [total]. rewrite Hx, Hy. generalize (tstyle_eqb (n_style x) (n_style y)). intros b.
    destruct m as [a1 a2 a3 a4 a5 a6 a7 a8 a9], st as [b1 b2 b3 b4]. unfold count_cascade, set.
    cbn [m_updates m_elements_shown m_cascades m_layouts m_styles m_matches_static m_matches_dynamic m_apply_ok m_apply_error s_static s_dynamic s_ok s_error List.length negb].
    destruct b; cbn [negb m_updates m_elements_shown m_cascades m_layouts m_styles m_matches_static m_matches_dynamic m_apply_ok m_apply_error]; f_equal; lia.
  Qed.

  Lemma styles_counted depth : forall n sizes vars t m m' t', live t 0 -> apply_styles_counted fuel debug css order time depth n sizes vars t m = (m', Ok t') ->
    exists l st, lists (styled_element t n) l /\ m' = cascaded t t' st l m /\ forall k, k ∈ l -> visited t t' n vars k (st k).
  Proof.
    induction depth as [|depth IH]; intros n sizes vars t m m' t' Hl H; [discriminate|].
    assert (Her : apply_styles fuel debug css order time (S depth) n sizes vars t = Ok t').
    { rewrite <- (styles_erase fuel debug css order time (S depth) n sizes vars t m), H. done. }
    destruct (styles_trace _ _ _ _ _ _ _ _ _ _ _ Hl Her) as (_ & Hout & Hal). clear Her.
    cbn [apply_styles_counted] in H.
    apply ret_bind in H as (p & Hp & H). apply parent_spec in Hp. subst p.
    apply ret_bind in H as (pe & Hpe & H). apply ok_or_Ok in Hpe. destruct (parent_of t n) as [p|] eqn:Hp; [|done]. cbn in Hpe.
    apply ret_bind in H as (layout & Hlay & H). unfold style, get_node in Hlay. apply bindR_Ok in Hlay as (x & Hx & Hlay). apply unwrap_Ok in Hx. injection Hlay as <-.
    apply ret_bind in H as (e & He & H). apply get_element_ctx in He. assert (Hxe : n_ctx x = Some e). { unfold get_ctx in He. by rewrite Hx in He. }
    destruct (e_text e) as [spans|] eqn:Et.
    { unfold ret in H. injection H as <- <-. exists [], (fun _ => mkStats 0 0 0 0). split; [|split; [symmetry; apply cascaded_nil|intros k Hk; by apply elem_of_nil in Hk]].
      split; [constructor|]. intros k. split; [intros Hk; by apply elem_of_nil in Hk|]. intros (H1 & (e0 & He0 & Ht0) & H3). exfalso.
      apply (above_cases _ _ _ _ Hl) in H1 as [<-|(c & Hc & Hk)]; [congruence|]. apply (live_parent _ _ Hl) in Hc.
      apply (H3 n); [reflexivity|eapply tc_rtc_r; [apply tc_once; exact Hc|exact Hk]|]. exists e. split; [done|]. left. rewrite Et. eauto. }
    apply tick_bind in H. apply ret_bind in H as ([[[layout' e'] vars'] st0] & Hc & H). apply tick_bind in H. apply tick_bind in H. apply ret_bind in H as (t1 & Hs & H).
    assert (Hcas : cascade sizes vars n t pe (n_style x) e = Ok (layout', e', vars')) by (rewrite cascade_counted, Hc; done).
    destruct (set_style_nodes _ _ _ _ _ Hs (put_nodes_eq _ _ _ _ Hx)) as [Hn1 Ho1].
    assert (Ho : forall m, n <> m -> t_nodes t1 !! m = t_nodes t !! m). { intros k Hk. by rewrite Ho1, put_nodes_ne. } clear Ho1.
    assert (Htag : e_tag e' = e_tag e). { pose proof (cascade_apply_content _ _ _ _ _ _ _ _ _ _ _ _ _ Hcas) as Hcc. cbn [fst snd] in Hcc. unfold content in Hcc. by injection Hcc. }
    rewrite Htag in H.
    assert (Hal1 : alike t t1).
    { split.
      - eapply same_trans; [eapply put_element_same; [exact He|exact (cascade_apply_content _ _ _ _ _ _ _ _ _ _ _ _ _ Hcas)]|by eapply set_style_same].
      - eapply ss_trans; [eapply ss_put; [exact He|by eapply cascade_state]|by eapply set_style_ss]. }
    set (m1 := count_layout _ _ _) in H.
    assert (Hm1 : forall u, n_style <$> t_nodes u !! n = Some layout' -> m1 = cascaded t u (fun _ => st0) [n] m).
    { intros u Hu. destruct (t_nodes u !! n) as [y|] eqn:Ey; [|done]. cbn [fmap option_fmap option_map] in Hu. apply (inj Some) in Hu. unfold m1. rewrite <- Hu. exact (cascaded_one _ _ _ _ _ _ _ Hx Ey). }
    clearbody m1.
    assert (Hself : forall u, n_style <$> t_nodes u !! n = Some layout' -> visited t u n vars n st0).
    { intros u Hu. destruct (t_nodes u !! n) as [y|] eqn:Ey; [|done]. cbn [fmap option_fmap option_map] in Hu. apply (inj Some) in Hu. exists vars. split; [constructor|]. exists sizes, pe, x, e, layout', e', vars', y. repeat (split; [assumption|]). assumption. }
    destruct (_ || _) eqn:Ev.
    { unfold ret in H. injection H as <- <-. exists [n], (fun _ => st0). split; [|split; [apply Hm1; by rewrite Hn1|]].
      - split; [apply NoDup_singleton|]. intros k. rewrite elem_of_list_singleton, (styled_cases _ _ _ Hl He Et). split; [by left|]. intros [?|[Hf _]]; [done|congruence].
      - intros k Hk. apply elem_of_list_singleton in Hk. subst k. apply Hself. by rewrite Hn1. }
    apply ret_bind in H as (cs & Hcs & H). apply children_spec in Hcs. rewrite (shown_attached _ _ _ (content_shown _ _ (proj1 Hal1))) in Hcs. subst cs.
    set (sizes' := sizes <| parent_font_size := f_size (e_font e') |> <| parent_color := e_color e' |>) in *. clearbody sizes'.
    assert (Hab : forall u, alike t u -> forall a b, at_or_above u a b <-> at_or_above t a b).
    { intros u [Hu _] a b. split; [by apply above_content|]. apply above_content. by apply same_sym. }
    assert (Hsa : forall u, alike t u -> forall a b, styled_element u a b <-> styled_element t a b).
    { intros u Hu a b. split; apply styled_element_alike; [by apply alike_sym|done]. }
    (* the fold *)
    assert (Hfold : forall cs a m1, cs ⊆ attached t n -> NoDup cs -> alike t a -> foldM (fun t c => apply_styles_counted fuel debug css order time depth c sizes' vars' t) a cs m1 = (m', Ok t') ->
      (exists l st, lists (fun k => exists c, c ∈ cs /\ styled_element t c k) l /\ m' = cascaded a t' st l m1 /\ forall k, k ∈ l -> exists c, c ∈ cs /\ visited a t' c vars' k (st k)) /\
      (forall m, (forall c, c ∈ cs -> ~ at_or_above t c m) -> t_nodes t' !! m = t_nodes a !! m)).
    { clear - IH Hl Hab Hsa. induction cs as [|c cs IHc]; intros a m1 Hin Hnd Ha H; cbn [foldM] in H.
      - unfold ret in H. injection H as <- <-. split; [|done]. exists [], (fun _ => mkStats 0 0 0 0). split; [|split; [symmetry; apply cascaded_nil|intros k Hk; by apply elem_of_nil in Hk]].
        split; [constructor|]. intros k. split; [intros Hk; by apply elem_of_nil in Hk|]. intros (c & Hc & _). by apply elem_of_nil in Hc.
      - apply bindM_Ok in H as (m2 & b & Hb1 & H). apply list.NoDup_cons in Hnd as [Hnc Hnd].
        pose proof (shown_live _ _ _ (content_shown _ _ (proj1 Ha)) Hl) as Hla.
        destruct (IH _ _ _ _ _ _ _ Hla Hb1) as (l1 & st1 & [N1 L1] & -> & V1).
        assert (Her : apply_styles fuel debug css order time depth c sizes' vars' a = Ok b).
        { rewrite <- (styles_erase fuel debug css order time depth c sizes' vars' a m1), Hb1. done. }
        destruct (styles_trace _ _ _ _ _ _ _ _ _ _ _ Hla Her) as (_ & IH2 & IH3). assert (Hab' : alike t b) by (eapply alike_trans; eassumption).
        assert (Hdis : forall d m, d ∈ cs -> at_or_above t c m -> at_or_above t d m -> False).
        { intros d k Hd Hcm Hdm. apply Hnc. replace c with d; [done|]. eapply (above_disjoint _ _ n); [exact Hl|apply Hin; by apply elem_of_list_further|apply Hin; apply elem_of_list_here|exact Hdm|exact Hcm]. }
        destruct (IHc b _ ltac:(by intros d Hd; apply Hin, elem_of_list_further) Hnd Hab' H) as [(l2 & st2 & [N2 L2] & -> & V2) C2].
        assert (Hl1c : forall k, k ∈ l1 -> at_or_above t c k). { intros k Hk. apply L1 in Hk as [Hk _]. by apply (Hab _ Ha). }
        assert (Hl2d : forall k, k ∈ l2 -> exists d, d ∈ cs /\ at_or_above t d k). { intros k Hk. apply L2 in Hk as (d & Hd & Hk & _). eauto. }
        assert (H12 : forall k, k ∈ l1 -> k ∈ l2 -> False). { intros k Hk1 Hk2. destruct (Hl2d _ Hk2) as (d & Hd & Hdk). exact (Hdis d k Hd (Hl1c _ Hk1) Hdk). }
        assert (Hbt : forall k, at_or_above t c k -> t_nodes t' !! k = t_nodes b !! k). { intros k Hk. apply C2. intros d Hd Hdk. exact (Hdis d k Hd Hk Hdk). }
        assert (Hba : forall d k, d ∈ cs -> at_or_above t d k -> t_nodes b !! k = t_nodes a !! k). { intros d k Hd Hdk. apply IH2. rewrite (Hab _ Ha). intros Hck. exact (Hdis d k Hd Hck Hdk). }
        split.
        + exists (l1 ++ l2), (fun k => if decide (k ∈ l1) then st1 k else st2 k). split; [split|split].
          * apply NoDup_app. split; [exact N1|]. split; [|exact N2]. intros k Hk Hk2. exact (H12 k Hk Hk2).
          * intros k. rewrite elem_of_app, L1, L2, (Hsa _ Ha). split.
            -- intros [Hk|(d & Hd & Hk)]; [exists c; split; [apply elem_of_list_here|done]|exists d; split; [by apply elem_of_list_further|done]].
            -- intros (d & Hd & Hk). apply elem_of_cons in Hd as [->|Hd]; [by left|right; eauto].
          * rewrite <- cascaded_app.
            rewrite (cascaded_ext a t' a b _ st1 l1), (cascaded_ext a t' b t' _ st2 l2); [done| |].
            -- intros k Hk. split; [|rewrite decide_False; [done|]; intros Hk1; exact (H12 k Hk1 Hk)]. destruct (Hl2d _ Hk) as (d & Hd & Hdk). unfold restyled. by rewrite (Hba d k Hd Hdk).
            -- intros k Hk. split; [|by rewrite decide_True]. unfold restyled. by rewrite (Hbt k (Hl1c _ Hk)).
          * intros k Hk. destruct (decide (k ∈ l1)) as [Hk1|Hk1].
            -- exists c. split; [apply elem_of_list_here|]. eapply visited_move; [apply alike_refl|done| |exact (V1 k Hk1)]. intros q Hq. apply Hbt. by apply (Hab _ Ha).
            -- apply elem_of_app in Hk as [Hk|Hk]; [done|]. destruct (V2 k Hk) as (d & Hd & Hv). exists d. split; [by apply elem_of_list_further|].
               eapply visited_move; [apply alike_sym; exact IH3| |done|exact Hv]. intros q Hq. symmetry. apply (Hba d q Hd). by apply (Hab _ Hab').
        + intros k Hk. rewrite C2 by (intros d Hd; apply Hk; by apply elem_of_list_further). apply IH2. rewrite (Hab _ Ha). apply Hk, elem_of_list_here. }
    destruct (Hfold (attached t n) t1 m1 ltac:(done) (proj1 (live_once _ _ Hl n)) Hal1 H) as [(l & st & [N L] & -> & V) F2].
    assert (Hsn : forall c, c ∈ attached t n -> ~ at_or_above t c n).
    { intros c Hc' Hm. apply (above_le _ _ _ _ Hl) in Hm. destruct (live_newer _ _ Hl n c ltac:(by left)). lia. }
    assert (Hnt : t_nodes t' !! n = t_nodes t1 !! n) by (apply F2; exact Hsn).
    assert (Hnst : n_style <$> t_nodes t' !! n = Some layout') by (by rewrite Hnt, Hn1).
    assert (Hnl : n ∉ l). { intros Hk. apply L in Hk as (c & Hc' & Hk & _). exact (Hsn c Hc' Hk). }
    assert (Hlt : forall k, k ∈ l -> t_nodes t1 !! k = t_nodes t !! k). { intros k Hk. apply Ho. intros <-. by apply Hnl. }
    exists (n :: l), (fun k => if decide (k = n) then st0 else st k). split; [split|split].
    - apply list.NoDup_cons. done.
    - intros k. rewrite elem_of_cons, L, (styled_cases _ _ _ Hl He Et). tauto.
    - rewrite (Hm1 t' Hnst). change (n :: l) with ([n] ++ l). rewrite <- cascaded_app.
      rewrite (cascaded_ext t t' t t' (fun k => if decide (k = n) then st0 else st k) (fun _ => st0) [n]), (cascaded_ext t1 t' t t' st (fun k => if decide (k = n) then st0 else st k) l); [done| |].
      + intros k Hk. split; [unfold restyled; by rewrite Hlt|]. rewrite decide_False; [done|]. intros ->. done.
      + intros k Hk. apply elem_of_list_singleton in Hk. subst k. by rewrite decide_True.
    - intros k Hk. destruct (decide (k = n)) as [->|Hkn]; [by apply Hself|]. apply elem_of_cons in Hk as [->|Hk]; [done|].
      destruct (V k Hk) as (c & Hc' & Hv).
      assert (Hv' : visited t t' c vars' k (st k)).
      { eapply visited_move; [apply alike_sym; exact Hal1| |done|exact Hv]. intros q Hq. rewrite (Hab _ Hal1) in Hq. symmetry. apply Ho. intros <-. exact (Hsn c Hc' Hq). }
      destruct Hv' as (vars2 & Hvis & Hrest). exists vars2. split; [|exact Hrest].
      eapply visits_down; [exact Hx|exact Hxe|exact Et|exact Hcas|by apply (live_parent _ _ Hl)|exact Hvis].
  Qed.
End styles.
