(** * More about the cascade: what is in force, custom properties, independence of the past. *)
From Coq Require Import ZArith Lia.
From stdpp Require Import gmap.
From RecordUpdate Require Import RecordUpdate.
From Verif Require Import Str StrFacts F32 Res ResFacts Json PropKey Html Css Element Tree ViewModel Render Update Matching
  Cascade Initial Animation Apply Styling Events View
  SpecLive SpecLog SpecView SpecRender SpecTree SpecEvents FrameFacts EventFacts EventFrame
  RenderTree RenderNode RenderProps RenderAny RenderMore LiveFacts LiveUpdate LiveView LiveHistory LiveOrder
  SpecSelect SelectFacts SelectLive SelectFresh SpecStyle SpecShow SpecPage ApplyFacts ShowFacts CascadeFacts AnimationFacts StyleTrace StyleView StylePage StyleRest.

(** ** What is in force *)
Lemma rules_force fuel debug n t l : forall st st', cascade_rules fuel debug n t l st = Ok st' ->
  exists ds, in_force debug t n l ds /\ compute_declaration_block fuel ds st = Ok st'.
Proof.
  unfold cascade_rules. induction l as [|[s|s] l IH]; intros st st' H; cbn [foldR] in H.
  - injection H as <-. exists []. split; [constructor|done].
  - apply bindR_Ok in H as (st1 & H1 & H). destruct (IH _ _ H) as (ds & Hd & Hds). exists (s_declaration s ++ ds). split; [by constructor|]. by rewrite block_app, H1.
  - apply bindR_Ok in H as (st1 & H1 & H). apply bindR_Ok in H1 as (b & Hb & H1). destruct (IH _ _ H) as (ds & Hd & Hds). destruct b.
    + exists (s_declaration s ++ ds). split; [by apply force_yes|]. by rewrite block_app, H1.
    + injection H1 as <-. exists ds. split; [by apply force_no|done].
Qed.
Theorem computed_wins fuel debug n t e vars vars1 s1 vars2 s2 :
  cascade_rules fuel debug n t (e_styles e) (vars, ∅) = Ok (vars1, s1) -> compute_declaration_block fuel (e_style e) (vars1, s1) = Ok (vars2, s2) ->
  exists rules, in_force debug t n (e_styles e) rules /\
    (forall k i v, wins vars (rules ++ e_style e) k i v -> s2 !! (k, i) = Some v) /\
    (forall k i, ungiven vars (rules ++ e_style e) k i -> s2 !! (k, i) = None) /\
    (forall k i, (exists v, wins vars (rules ++ e_style e) k i v) \/ ungiven vars (rules ++ e_style e) k i).
Proof.
  intros H1 H2. destruct (rules_force _ _ _ _ _ _ _ H1) as (ds & Hd & Hb). exists ds. split; [done|].
  assert (Hall : compute_declaration_block fuel (ds ++ e_style e) (vars, ∅) = Ok (vars2, s2)) by (by rewrite block_app, Hb).
  destruct (block_wins _ _ _ _ _ _ Hall) as (_ & W1 & W2 & W3). split; [done|]. split; [|done].
  intros k i Hu. rewrite (W2 _ _ Hu). exact (lookup_empty (k, i)).
Qed.

(** ** Custom properties *)
Lemma variables_defines ds : forall vars name sh, (defines ds name sh -> variables_after vars ds !! name = Some sh) /\
  ((forall sh', DeclVariable (mkVariable name sh') ∉ ds) -> variables_after vars ds !! name = vars !! name).
Proof.
  unfold variables_after. induction ds as [|d ds IH]; intros vars name sh; cbn [foldl].
  - split; [|done]. intros (pre & post & H & _). by destruct pre.
  - split.
    + intros (pre & post & H & Hn). destruct pre as [|d' pre]; injection H as -> ->.
      * cbn [v_key v_shorthand]. rewrite (proj2 (IH _ name sh) Hn). exact (lookup_insert vars name sh).
      * apply (proj1 (IH _ name sh)). by exists pre, post.
    + intros Hn. rewrite (proj2 (IH _ name sh)) by (intros sh' Hin; apply (Hn sh'); by apply elem_of_list_further).
      destruct d as [[k s]|p]; [|done]. cbn [v_key v_shorthand]. destruct (decide (k = name)) as [->|Hne]; [exfalso; apply (Hn s); apply elem_of_list_here|].
      exact (lookup_insert_ne vars k name s Hne).
Qed.
Lemma defines_dec ds name : (exists sh, defines ds name sh) \/ forall sh, DeclVariable (mkVariable name sh) ∉ ds.
Proof.
  induction ds as [|d ds IH]; [right; intros sh H; by apply elem_of_nil in H|]. destruct IH as [(sh & pre & post & -> & Hn)|IH].
  - left. exists sh, (d :: pre), post. done.
  - destruct d as [[k s]|p].
    + destruct (decide (k = name)) as [->|Hne]; [left; by exists s, [], ds|]. right. intros sh Hin. apply elem_of_cons in Hin as [[= ? ?]|Hin]; [congruence|by apply (IH sh)].
    + right. intros sh Hin. apply elem_of_cons in Hin as [?|Hin]; [done|by apply (IH sh)].
Qed.
Lemma above_step t a b c : parent_of t c = Some b -> above t a c -> a = b \/ above t a b.
Proof.
  intros Hb H. induction H as [a c Hac|a y c Hay Hyc IH]; [left; congruence|]. destruct (IH Hb) as [->|Hy]; right; [by apply tc_once|by eapply tc_l].
Qed.
Lemma scope_above css t root body n vars : scope css t root body n vars -> at_or_above t body n.
Proof. induction 1 as [|n p vars ds Hn Hp _ IH Hd]; [reflexivity|]. eapply rtc_r; [exact IH|exact Hp]. Qed.
Theorem scope_nearest css t root body n vars name : live t 0 -> scope css t root body n vars ->
  (forall sh, vars !! name = Some sh <-> nearest css t root body n name sh).
Proof.
  intros Hl H. induction H as [|n p vars ds Hn Hp Hs IH Hd].
  - intros sh. split; [intros Hx; exfalso; assert (Some sh = None) as [=]; etransitivity; [symmetry; exact Hx|exact (lookup_empty name)]|].
    intros (m & ds & Hm & Hmb & _). exfalso. assert (body <= m) by (by apply (above_le t 0)). assert (m < body); [|lia].
    clear - Hl Hmb. induction Hmb as [a b Hab|a b c Hab _ IH]; apply (live_parent _ _ Hl) in Hab; [by destruct (live_newer _ _ Hl a b ltac:(by left))|destruct (live_newer _ _ Hl a b ltac:(by left)); lia].
  - assert (Hfun : forall ds', declarations css t root p ds' -> ds' = ds) by (intros ds' Hd'; by eapply declarations_fun).
    intros sh. destruct (defines_dec ds name) as [(sh0 & Hdef)|Hno].
    + rewrite (proj1 (variables_defines ds vars name sh0) Hdef). split.
      * intros [= ->]. exists p, ds. split; [by eapply scope_above|]. split; [by apply tc_once|]. split; [done|]. split; [done|].
        intros m' ds' sh' H1 H2 _. exfalso. destruct (above_step _ _ _ _ Hp H2) as [->|H3].
        -- assert (p < p); [|lia]. revert H1. clear - Hl. generalize p at 2 4. intros q H. induction H as [a b Hab|a b c Hab _ IH]; apply (live_parent _ _ Hl) in Hab; destruct (live_newer _ _ Hl a b ltac:(by left)); lia.
        -- assert (Hlt : forall a b, above t a b -> a < b). { clear - Hl. intros a b H. induction H as [a b Hab|a b c Hab _ IH]; apply (live_parent _ _ Hl) in Hab; destruct (live_newer _ _ Hl a b ltac:(by left)); lia. }
           apply Hlt in H1, H3. lia.
      * intros (m & ds' & Hm & Hmn & Hd' & Hdef' & Hbet). destruct (above_step _ _ _ _ Hp Hmn) as [->|Hmp].
        -- rewrite (Hfun _ Hd') in Hdef'. f_equal. pose proof (proj1 (variables_defines ds vars name sh0) Hdef) as E1. pose proof (proj1 (variables_defines ds vars name sh) Hdef') as E2. congruence.
        -- exfalso. destruct Hdef as (pre & post & -> & _). apply (Hbet p _ sh0 Hmp (tc_once _ _ _ Hp) Hd). rewrite elem_of_app, elem_of_cons. tauto.
    + rewrite (proj2 (variables_defines ds vars name sh) Hno), IH. split.
      * intros (m & ds' & Hm & Hmp & Hd' & Hdef & Hbet). exists m, ds'. split; [done|]. split; [by eapply tc_r|]. split; [done|]. split; [done|].
        intros m' ds'' sh' H1 H2 H3. destruct (above_step _ _ _ _ Hp H2) as [->|H4]; [rewrite (Hfun _ H3); apply Hno|by eapply Hbet].
      * intros (m & ds' & Hm & Hmn & Hd' & Hdef & Hbet). destruct (above_step _ _ _ _ Hp Hmn) as [->|Hmp].
        -- exfalso. rewrite (Hfun _ Hd') in Hdef. destruct Hdef as (pre & post & -> & _). apply (Hno sh). rewrite elem_of_app, elem_of_cons. tauto.
        -- exists m, ds'. split; [done|]. split; [done|]. split; [done|]. split; [done|]. intros m' ds'' sh' H1 H2 H3. apply (Hbet m' ds'' sh'); [done|by eapply tc_r|done].
Qed.

(** values over custom properties that can be ranked have a meaning *)
Lemma definition_ind' (P : Definition_ -> Prop) : (forall name, P (DVar name)) -> (forall v, P (DExplicit v)) -> (forall name args, Forall P args -> P (DFunction name args)) -> forall d, P d.
Proof.
  intros H1 H2 H3. fix IH 1. intros [name|name args|v]; [apply H1| |apply H2]. apply H3. induction args as [|a args IHa]; [constructor|]. constructor; [apply IH|exact IHa].
Qed.
Lemma all_mean vars sh : Forall (fun d => exists vs, means vars d vs) sh -> exists vs, mean_all vars sh vs.
Proof. induction 1 as [|d sh (vs & Hv) _ (ws & IH)]; [exists []; constructor|]. exists (vs ++ ws). by constructor. Qed.
Theorem acyclic_means vars : acyclic vars -> forall d, exists vs, means vars d vs.
Proof.
  intros (rank & Hr).
  assert (Hk : forall k d, (forall ref, In ref (refers d) -> rank ref < k) -> exists vs, means vars d vs).
  { induction k as [k IHk] using lt_wf_ind. intros d. induction d as [name|v|name args IH] using definition_ind'; intros Hd.
    - destruct (vars !! name) as [sh|] eqn:E; [|exists [CError]; by apply means_missing].
      assert (Hsh : exists vs, mean_all vars sh vs); [|destruct Hsh as [vs Hvs]; exists vs; by eapply means_var].
      apply all_mean. apply list.Forall_forall. intros d Hin. apply (IHk (rank name)); [apply Hd; by left|]. intros ref Href. apply (Hr name sh ref E). apply in_flat_map. exists d. split; [by apply elem_of_list_In|done].
    - exists [v]. constructor.
    - assert (Hsh : exists vs, mean_all vars args vs); [|destruct Hsh as [vs Hvs]; eexists; by apply means_function].
      apply all_mean. rewrite list.Forall_forall in *. intros d Hin. apply IH; [done|]. intros ref Href. apply Hd. cbn [refers]. apply in_flat_map. exists d. split; [by apply elem_of_list_In|done]. }
  intros d. destruct (Hk (S (list_max (map rank (refers d)))) d) as [vs Hvs]; [|by exists vs].
  intros ref Href. assert (rank ref <= list_max (map rank (refers d))); [|lia].
  pose proof (proj1 (list_max_le (map rank (refers d)) _) (le_n _)) as Hle. rewrite List.Forall_forall in Hle. apply Hle. by apply in_map.
Qed.
Theorem acyclic_computes vars sh : acyclic vars -> exists fuel vs, forall fuel', fuel <= fuel' -> compute_shorthand fuel' vars sh = Ok vs.
Proof.
  intros Ha. destruct (all_mean vars sh) as [vs Hvs]; [apply list.Forall_forall; intros d _; by apply acyclic_means|].
  destruct (proj2 (means_computed vars) _ _ Hvs) as (fuel & l & Hl & <-). exists fuel, (List.concat l). intros fuel' Hle. unfold compute_shorthand. by rewrite (mapR_fuel _ _ _ _ _ Hle Hl).
Qed.
Theorem cyclic_hangs vars name : vars !! name = Some [DVar name] -> forall fuel, compute_definition fuel vars (DVar name) = Hang.
Proof. intros H. induction fuel as [|fuel IH]; [done|]. cbn [compute_definition]. rewrite H. cbn [mapR]. by rewrite IH. Qed.

(** ** Independence of the past *)
Lemma live_ctx t n p : live t 0 -> parent_of t n = Some p -> exists e, get_ctx t p = Some e.
Proof.
  intros Hl Hp. apply (live_parent _ _ Hl) in Hp. destruct (live_newer _ _ Hl p n ltac:(by left)). destruct (live_node _ _ Hl p ltac:(lia)) as (e & He & _). by exists e.
Qed.
Lemma styled_up t body n p : live t 0 -> styled_element t body n -> n <> body -> parent_of t n = Some p -> styled_element t body p.
Proof.
  intros Hl (Hn & _ & Hc) Hne Hp. assert (Hbp : at_or_above t body p).
  { apply rtc_tc in Hn as [->|Hn]; [done|]. destruct (above_step _ _ _ _ Hp Hn) as [->|Hx]; [reflexivity|by apply tc_rtc]. }
  assert (Hpc : ~ contentless t p) by (apply Hc; [done|by apply tc_once]).
  split; [done|]. split.
  - destruct (live_ctx _ _ _ Hl Hp) as [e He]. exists e. split; [done|]. destruct (e_text e) eqn:E; [|done]. exfalso. apply Hpc. exists e. rewrite E. eauto.
  - intros m Hm Hmp. apply Hc; [done|]. by eapply tc_r.
Qed.
Lemma start_fresh k : fresh_property k = true -> (exists x, forall st, start_value k st = Some x) \/ (place_of k <> PlBackgrounds /\ listed k = false /\ forall st, start_value k st = look k 0 st).
Proof. destruct k; intros H; try discriminate H; try (right; split; [done|split; [done|reflexivity]]); left; eexists; reflexivity. Qed.
Lemma fresh_some k : fresh_property k = true -> forall st b, rest_value k st b = start_value k st.
Proof. intros H [l e] b. destruct k; try discriminate H; reflexivity. Qed.

Section leak.
  Context (css : Css) (viewport : vec2) (t t' before before' : Tree) (Hl : live t 0) (Hl' : live t' 0).
  Context (Hroot : forall k i, place_of k <> PlBackgrounds -> fresh_property k = true -> shows_at t' 0 k i = shows_at t 0 k i).

  Definition agrees (n n' : NodeId) : Prop :=
    (exists vars, scope css t 0 1 n vars /\ scope css t' 0 1 n' vars) /\ sizes_at viewport t' 1 n' = sizes_at viewport t 1 n /\
    forall k i, listed k = true \/ i = 0 ->
      fresh_property k = true \/ (exists vars ds v, declarations css t 0 n ds /\ scope css t 0 1 n vars /\ wins vars ds k i v /\ is_Some (meaning (sizes_at viewport t 1 n) k v)) ->
      shows_at t' n' k i = shows_at t n k i.
  Lemma agrees_node n n' ds p p' vars : declarations css t 0 n ds -> declarations css t' 0 n' ds -> parent_of t n = Some p -> parent_of t' n' = Some p' ->
    scope css t 0 1 n vars -> scope css t' 0 1 n' vars -> sizes_at viewport t' 1 n' = sizes_at viewport t 1 n ->
    (forall k i, place_of k <> PlBackgrounds -> fresh_property k = true -> listed k = true \/ i = 0 -> shows_at t' p' k i = shows_at t p k i) ->
    shows_cascade css viewport 0 1 before t n -> shows_cascade css viewport 0 1 before' t' n' -> agrees n n'.
  Proof.
    intros Hd Hd' Hp Hp' Hs Hs' Hsz Hpar (ds1 & vars1 & q & x & D1 & S1 & P1 & X1 & pe & E1 & C1) (ds2 & vars2 & q' & x' & D2 & S2 & P2 & X2 & pe' & E2 & C2).
    assert (ds1 = ds) as -> by (by eapply declarations_fun). assert (ds2 = ds) as -> by (by eapply declarations_fun).
    assert (vars1 = vars) as -> by (by eapply scope_fun). assert (vars2 = vars) as -> by (by eapply scope_fun).
    assert (q = p) as -> by congruence. assert (q' = p') as -> by congruence.
    split; [by exists vars|]. split; [done|]. intros k i Hki Hwhy. specialize (C1 k i Hki). specialize (C2 k i Hki). cbv zeta in *. rewrite Hsz in C2.
    assert (Hst : fresh_property k = true -> start_value k (n_style x', pe') = start_value k (n_style x, pe)).
    { intros Hf. destruct (start_fresh k Hf) as [(y & Hy)|(Hb & Hli & Hy)]; [by rewrite !Hy|]. rewrite !Hy. specialize (Hpar k 0 Hb Hf (or_intror eq_refl)).
      unfold shows_at in Hpar. rewrite X1, X2 in Hpar. cbn in Hpar. rewrite E1, E2 in Hpar. exact Hpar. }
    destruct Hwhy as [Hf|(vars' & ds' & v & D & S & W & M)].
    - rewrite !(fresh_some k Hf), (Hst Hf) in C2. rewrite !(fresh_some k Hf) in C1.
      destruct C1 as (C1 & C1' & Hcase), C2 as (C2 & C2' & _).
      destruct Hcase as [[v Hv]|Hu]; [rewrite (C1 v Hv); exact (C2 v Hv)|rewrite (C1' Hu); exact (C2' Hu)].
    - assert (ds' = ds) as -> by (by eapply declarations_fun). assert (vars' = vars) as -> by (by eapply scope_fun).
      rewrite (proj1 C1 v W), (proj1 C2 v W). destruct M as [y ->]. done.
  Qed.
  Lemma agrees_tree n n' : same_declared css t t' 0 1 n n' -> styled_element t 1 n -> styled_element t' 1 n' ->
    (forall m, at_or_above t m n -> styled_element t 1 m -> shows_cascade css viewport 0 1 before t m) ->
    (forall m, at_or_above t' m n' -> styled_element t' 1 m -> shows_cascade css viewport 0 1 before' t' m) -> agrees n n'.
  Proof.
    intros H. induction H as [ds D D'|n n' p p' ds Hn Hn' Hp Hp' Hs IH D D']; intros E E' C C'.
    - pose proof (C 1 ltac:(reflexivity) E) as C1. pose proof (C' 1 ltac:(reflexivity) E') as C1'.
      pose proof C1 as (_ & _ & p & _ & _ & _ & P & _). pose proof C1' as (_ & _ & p' & _ & _ & _ & P' & _).
      assert (p = 0) as ->. { apply (live_parent _ _ Hl) in P. destruct (live_newer _ _ Hl p 1 ltac:(by left)). lia. }
      assert (p' = 0) as ->. { apply (live_parent _ _ Hl') in P'. destruct (live_newer _ _ Hl' p' 1 ltac:(by left)). lia. }
      eapply (agrees_node 1 1 ds 0 0 ∅); try done; [constructor|constructor|]. intros k i Hb Hf _. by apply Hroot.
    - destruct IH as ((vars & S1 & S2) & Hsz & Hsh).
      { by eapply styled_up. } { by eapply styled_up. }
      { intros m Hm. apply C. eapply rtc_r; [exact Hm|exact Hp]. } { intros m Hm. apply C'. eapply rtc_r; [exact Hm|exact Hp']. }
      assert (Hdp : exists dsp, declarations css t 0 p dsp /\ declarations css t' 0 p' dsp) by (inversion Hs; subst; eauto). destruct Hdp as (dsp & Dp & Dp').
      assert (Hpar : forall k i, place_of k <> PlBackgrounds -> fresh_property k = true -> listed k = true \/ i = 0 -> shows_at t' p' k i = shows_at t p k i) by (intros k i _ Hf Hki; apply Hsh; [done|by left]).
      eapply (agrees_node n n' ds p p' (variables_after vars dsp)); [done|done|done|done|by eapply scope_child|by eapply scope_child| |exact Hpar|apply C; [reflexivity|done]|apply C'; [reflexivity|done]].
      unfold sizes_at. rewrite !decide_False by done. rewrite Hp, Hp'.
      pose proof (Hpar KFontSize 0 ltac:(done) eq_refl ltac:(by right)) as F. pose proof (Hpar KColor 0 ltac:(done) eq_refl ltac:(by right)) as G.
      destruct (live_ctx _ _ _ Hl Hp) as [e He]. destruct (live_ctx _ _ _ Hl' Hp') as [e' He']. rewrite He, He'.
      unfold shows_at in F, G. unfold get_ctx in He, He'. destruct (t_nodes t !! p) as [x|]; [|done]. destruct (t_nodes t' !! p') as [x'|]; [|done]. cbn in He, He', F, G. rewrite He, He' in F, G. cbn in F, G.
      assert (F' : f_size (e_font e') = f_size (e_font e)) by (by injection F). assert (G' : e_color e' = e_color e) by (by injection G). by rewrite F', G'.
  Qed.
End leak.

(** ** The root is never painted *)
Definition paint_at (t : Tree) (n : NodeId) := paint_of <$> get_ctx t n.
Lemma drawn_paint t t' n : drawn <$> t_nodes t' !! n = drawn <$> t_nodes t !! n -> paint_at t' n = paint_at t n.
Proof.
  unfold paint_at, get_ctx. destruct (t_nodes t !! n) as [x|], (t_nodes t' !! n) as [y|]; try done. cbn. intros H. assert (E : drawn y = drawn x) by congruence.
  exact (f_equal snd E).
Qed.
Lemma ctx_paint t t' n : get_ctx t' n = get_ctx t n -> paint_at t' n = paint_at t n.
Proof. unfold paint_at. by intros ->. Qed.
Lemma put_paint m e0 e t : get_ctx t m = Some e0 -> paint_of e = paint_of e0 -> forall n, paint_at (put_element m e t) n = paint_at t n.
Proof. intros H0 He n. apply drawn_paint. by eapply drawn_put. Qed.
Lemma positions_paint depth : forall n loc op clip t t', compute_final_positions depth n loc op clip t = Ok t' -> forall m, paint_at t' m = paint_at t m.
Proof.
  induction depth as [|depth IH]; intros n loc op clip t t' H m; cbn [compute_final_positions] in H; [done|].
  apply bindR_Ok in H as (lay & Hlay & H). apply bindR_Ok in H as (e & He & H). apply get_element_ctx in He. cbv zeta in H.
  match type of H with context [match ?m with (_, _) => _ end] => destruct m as [clip' loc'] end.
  apply bindR_Ok in H as (cs & Hcs & H). clear Hcs.
  match type of H with foldR _ ?a _ = _ => assert (Ha : paint_at a m = paint_at t m) by (by eapply put_paint); rewrite <- Ha; revert H; generalize a end. clear Ha He.
  induction cs as [|c cs IHc]; intros a H; cbn [foldR] in H; [by injection H as <-|]. apply bindR_Ok in H as (b & Hb & H). rewrite <- (IH _ _ _ _ _ _ Hb m). by apply IHc.
Qed.
Lemma sbs_paint t t' n : same_but_state t t' -> paint_at t' n = paint_at t n.
Proof.
  intros H. unfold paint_at. destruct (get_ctx t n) as [e|] eqn:He.
  - destruct (sbs_ctx _ _ _ _ H He) as (e' & He' & Hn). rewrite He'. cbn. f_equal. change (paint_of (no_state e') = paint_of (no_state e)). congruence.
  - destruct (get_ctx t' n) as [e'|] eqn:He'; [|done]. apply sbs_sym in H. destruct (sbs_ctx _ _ _ _ H He') as (e & He2 & _). congruence.
Qed.
Lemma viewport_ctx root vp t t' : set_viewport root vp t = Ok t' -> forall n, get_ctx t' n = get_ctx t n.
Proof.
  unfold set_viewport. intros H n. apply bindR_Ok in H as (l & Hl & H). destruct (_ && _); [|by injection H as <-].
  unfold style, get_node in Hl. apply bindR_Ok in Hl as (x & Hx & Hl). apply unwrap_Ok in Hx.
  destruct (set_style_nodes _ _ _ _ _ H Hx) as [Hi Ho]. unfold get_ctx. destruct (decide (root = n)) as [<-|]; [by rewrite Hi, Hx|by rewrite Ho].
Qed.
Lemma prepare_root X fuel v i x m t ids : sound v -> v_body v = 1 -> prepare X fuel v i x = Ok (m, t, ids) -> paint_at t 0 = paint_at (v_tree v) 0.
Proof.
  intros Hs Hb Hpr. unfold prepare in Hpr. apply bindR_Ok in Hpr as ([m0 rs] & Hvb & Hpr). apply bindR_Ok in Hpr as ([ta ids0] & Hup & Hpr).
  apply bindR_Ok in Hpr as (t1 & H1 & Hpr). apply bindR_Ok in Hpr as (t2 & H2 & Hpr). apply bindR_Ok in Hpr as (t3 & H3 & Hpr). injection Hpr as <- <- <-.
  pose proof (so_live _ Hs) as Hl. rewrite (so_root _ Hs) in Hl. rewrite Hb in *.
  pose proof (view_bind_reactions_ok _ _ _ _ _ Hs Hvb) as Hok. destruct (update_trees_ok (x_read_inline_css X) rs (v_tree v) (v_ids v) 0 Hl Hok) as (ta' & ids' & Hup' & Hla & _). rewrite Hup in Hup'. injection Hup' as <- <-.
  assert (Hl1 : live t1 0) by exact (shown_live _ _ _ (content_shown _ _ (set_viewport_same _ _ _ _ H1)) Hla).
  destruct (styles_trace _ _ _ _ _ _ _ _ _ _ _ Hl1 H2) as (_ & Ho & _).
  rewrite (positions_paint _ _ _ _ _ _ _ H3 0). etransitivity; [|etransitivity; [apply ctx_paint; exact (viewport_ctx _ _ _ _ H1 0)|apply drawn_paint, (update_trees_drawn _ _ _ _ _ _ Hup)]].
  apply ctx_paint. unfold get_ctx, run_layout, set. cbn [t_nodes]. rewrite map_lookup_imap. rewrite (Ho 0); [by destruct (t_nodes t1 !! 0)|].
  intros Hx. apply (above_le _ _ _ _ Hl1) in Hx. lia.
Qed.
Lemma root_painted X fuel doc css v0 hist v os : from_document X fuel doc css = Ok v0 -> updates X fuel v0 hist = Ok (v, os) -> paint_at (v_tree v) 0 = Some (paint_of (create_element 0)).
Proof.
  intros H0 H. destruct (kept_loaded _ _ _ _ _ H0) as (rn & t0 & Hm & Hre & Hfl & Hk & Hc & Hb). pose proof (from_document_sound _ _ _ _ _ H0) as Hs.
  assert (Hload : paint_at (v_tree v0) 0 = Some (paint_of (create_element 0))).
  { clear - H0. pose proof H0 as H'. apply from_document_stages in H' as (templates & body & r & root & b & t & rn & ps & Hsc & Hr & _ & Hre & _).
    unfold from_document in H0. rewrite Hsc, Hr in H0. cbn [bindR] in H0.
    apply bindR_Ok in H0 as (d & _ & H). apply bindR_Ok in H as (t1 & H1 & H). apply bindR_Ok in H as ([t2 ids] & H2 & H). injection H as <-. cbn [v_tree].
    apply stylesheet_drawn in H1. unfold apply_default_bindings_state in H2. apply update_trees_drawn in H2.
    rewrite (drawn_paint _ _ 0 (H2 0)), (drawn_paint _ _ 0 (H1 0)). unfold paint_at, get_ctx. rewrite (re_root _ _ _ Hre). reflexivity. }
  clear H0 Hm Hre Hfl Hk Hc. revert v0 os Hb Hs Hload H. induction hist as [|[i x] hist IH]; intros v0 os Hb Hs Hload H; cbn [updates] in H; [by injection H as <- <-|].
  apply bindR_Ok in H as ([v1 o] & Hu & H). apply bindR_Ok in H as ([v2 os'] & H' & [= <- <-]).
  eapply (IH v1); [|by eapply update_sound| |exact H'].
  - destruct (update_keeps _ _ _ _ _ _ _ Hs Hu) as (_ & _ & _ & _ & K5). congruence.
  - rewrite <- Hload. pose proof Hu as Hu'. unfold update in Hu. apply bindR_Ok in Hu as ([[m t] ids] & Hpr & Hu). apply bindR_Ok in Hu as ([[s t'] o'] & Ho' & [= <- <-]). apply handle_output_sbs in Ho'. cbn [fst snd] in Ho'.
    change (paint_at t' 0 = paint_at (v_tree v0) 0). rewrite (sbs_paint _ _ 0 Ho'). by eapply prepare_root.
Qed.
Lemma paint_shows t t' n k i : paint_at t n = paint_at t' n -> place_of k <> PlBackgrounds -> fresh_property k = true -> shows_at t' n k i = shows_at t n k i.
Proof.
  unfold paint_at, get_ctx, shows_at. intros H Hb Hf. destruct (t_nodes t !! n) as [x|], (t_nodes t' !! n) as [y|]; cbn in *; try done.
  - destruct (n_ctx x) as [e|], (n_ctx y) as [e'|]; cbn in *; try done.
    assert (E : paint_of e = paint_of e') by congruence. transitivity (look k i (n_style x, e')); [destruct k; try discriminate Hf; reflexivity|].
    apply drawn_look; [done|by rewrite E].
  - by destruct (n_ctx x).
  - by destruct (n_ctx y).
Qed.

(** two pages, after any histories *)
Theorem no_leak X fuel css doc v0 hist v os input value m t ids n doc' v0' hist' v' os' input' value' m' t' ids' n' :
  from_document X fuel doc css = Ok v0 -> updates X fuel v0 hist = Ok (v, os) -> prepare X fuel v input value = Ok (m, t, ids) ->
  from_document X fuel doc' css = Ok v0' -> updates X fuel v0' hist' = Ok (v', os') -> prepare X fuel v' input' value' = Ok (m', t', ids') ->
  in_viewport input = in_viewport input' ->
  tidy_css css -> tidy_inline t -> tidy_inline t' -> (forall s, x_order X s ≡ₚ map_to_list s) ->
  (forall a, at_or_above t a n -> at_rest (v_tree v) a) -> (forall a, at_or_above t' a n' -> at_rest (v_tree v') a) ->
  styled_element t (v_body v) n -> plain_selectors css t n -> (forall a s, at_or_above t (v_body v) a -> at_or_above t a n -> s ∈ css_styles css -> rule_settled (v_bindings v) t a s) ->
  styled_element t' (v_body v') n' -> plain_selectors css t' n' -> (forall a s, at_or_above t' (v_body v') a -> at_or_above t' a n' -> s ∈ css_styles css -> rule_settled (v_bindings v') t' a s) ->
  same_declared css t t' (v_root v) (v_body v) n n' ->
  forall k i, listed k = true \/ i = 0 ->
    fresh_property k = true \/
    (exists vars ds w, declarations css t (v_root v) n ds /\ scope css t (v_root v) (v_body v) n vars /\ wins vars ds k i w /\
       is_Some (meaning (sizes_at (in_viewport input) t (v_body v) n) k w)) ->
    shows_at t' n' k i = shows_at t n k i.
Proof.
  intros H0 H Hp H0' H' Hp' Hvp Htc Hric Hric' Ho Hr Hr' Hel Hpl Hse Hel' Hpl' Hse' Hsd.
  pose proof (reached_sound _ _ _ _ _ _ _ _ H0 H) as Hs. pose proof (reached_sound _ _ _ _ _ _ _ _ H0' H') as Hs'.
  destruct (kept_history _ _ _ _ _ _ _ _ H0 H) as (_ & _ & _ & _ & _ & _ & _ & Hb & _). destruct (kept_history _ _ _ _ _ _ _ _ H0' H') as (_ & _ & _ & _ & _ & _ & _ & Hb' & _).
  destruct (prepare_live _ _ _ _ _ _ _ _ Hs Hp) as [Hl _]. destruct (prepare_live _ _ _ _ _ _ _ _ Hs' Hp') as [Hl' _].
  assert (Hroot : paint_at t 0 = paint_at t' 0).
  { rewrite (prepare_root _ _ _ _ _ _ _ _ Hs Hb Hp), (prepare_root _ _ _ _ _ _ _ _ Hs' Hb' Hp'). by rewrite (root_painted _ _ _ _ _ _ _ _ H0 H), (root_painted _ _ _ _ _ _ _ _ H0' H'). }
  assert (C : forall a, at_or_above t a n -> styled_element t 1 a -> shows_cascade css (in_viewport input) 0 1 (v_tree v) t a).
  { intros a Ha Hea. rewrite <- Hb in Hea. pose proof (cascade_page _ _ _ _ _ _ _ _ _ _ _ _ _ a H0 H Hp Htc Hric Ho Hea (Hr a Ha)) as Hc. rewrite (so_root _ Hs), Hb in Hc. apply Hc.
    - intros s sel H1 H2. destruct (Hpl s sel H1 H2) as [G1 G2]. split; [done|]. intros b c Hb1. apply G2. by etransitivity.
    - intros b s G1 G2. apply Hse; [by rewrite Hb|by etransitivity]. }
  assert (C' : forall a, at_or_above t' a n' -> styled_element t' 1 a -> shows_cascade css (in_viewport input) 0 1 (v_tree v') t' a).
  { intros a Ha Hea. rewrite <- Hb' in Hea. pose proof (cascade_page _ _ _ _ _ _ _ _ _ _ _ _ _ a H0' H' Hp' Htc Hric' Ho Hea (Hr' a Ha)) as Hc. rewrite (so_root _ Hs'), Hb', <- Hvp in Hc. apply Hc.
    - intros s sel H1 H2. destruct (Hpl' s sel H1 H2) as [G1 G2]. split; [done|]. intros b c Hb1. apply G2. by etransitivity.
    - intros b s G1 G2. apply Hse'; [by rewrite Hb'|by etransitivity]. }
  rewrite (so_root _ Hs), Hb in *. rewrite Hb' in *.
  destruct (agrees_tree css (in_viewport input) t t' (v_tree v) (v_tree v') Hl Hl' (fun k i Hbk Hf => paint_shows _ _ _ k i Hroot Hbk Hf) n n' Hsd Hel Hel' C C') as (_ & _ & Ha). exact Ha.
Qed.
