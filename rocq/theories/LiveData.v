(** * What the page shows of the data after any history (C05, C47-C50) *)
From Coq Require Import ZArith Lia.
From stdpp Require Import gmap.
From RecordUpdate Require Import RecordUpdate.
From Verif Require Import Str StrFacts F32 Res ResFacts Json JsonFacts PropKey Html Css Element Tree ViewModel Render Update Matching
  Cascade Initial Animation Apply Styling Events View
  SpecBind SpecReact SpecLive SpecLog SpecView SpecRender SpecTree BindFacts ConformFacts ChangeFacts BindProps FrameFacts
  RenderTree RenderNode RenderProps RenderAny RenderMore LiveFacts LiveUpdate LiveView LiveSlots LiveValues LiveAlone LiveHistory LiveOrder.

Lemma json_eq_items x : forall y i w, json_eq (JArr x) (JArr y) = true -> y !! i = Some w -> exists w0, x !! i = Some w0 /\ json_eq w0 w = true.
Proof.
  induction x as [|a x IH]; intros [|b y] i w H Hi; try done. rewrite json_eq_arr in H. apply andb_prop in H as [H1 H2].
  destruct i as [|i]; [injection Hi as <-; by exists a|]. by apply (IH y i w).
Qed.
Lemma json_eq_fields x : forall y k w, json_eq (JObj x) (JObj y) = true -> obj_get k y = Some w -> exists w0, obj_get k x = Some w0 /\ json_eq w0 w = true.
Proof.
  induction x as [|[l a] x IH]; intros [|[l' b] y] k w H Hi; try done. rewrite json_eq_obj in H. apply andb_prop in H as [H H2]. apply andb_prop in H as [H0 H1].
  apply String.eqb_eq in H0 as <-. cbn [obj_get] in *. destruct (String.eqb k l); [injection Hi as <-; by exists a|]. by apply (IH y k w).
Qed.
Lemma json_eq_at p : forall a b w, json_eq a b = true -> value_at b p = Some w -> exists w0, value_at a p = Some w0 /\ json_eq w0 w = true.
Proof.
  induction p as [|s p IH]; intros a b w He Hw; cbn [value_at] in *; [injection Hw as <-; by exists a|].
  destruct (step_at b s) as [b1|] eqn:Hb; [|done]. destruct s as [k|i]; cbn [step_at] in *.
  - destruct b as [| | | | |y]; try done. destruct a as [| | | | |x]; try done. destruct (json_eq_fields _ _ _ _ He Hb) as (a1 & -> & He1). by apply (IH a1 b1).
  - destruct b as [| | | |y|]; try done. destruct a as [| | | |x|]; try done. destruct (json_eq_items _ _ _ _ He Hb) as (a1 & -> & He1). by apply (IH a1 b1).
Qed.
Lemma json_eq_null a : json_eq JNull a = true -> a = JNull.
Proof. by destruct a. Qed.
Lemma json_eq_length x : forall y, json_eq (JArr x) (JArr y) = true -> List.length x = List.length y.
Proof. induction x as [|a x IH]; intros [|b y] H; try done. rewrite json_eq_arr in H. apply andb_prop in H as [_ H]. cbn. f_equal. by apply IH. Qed.

(** a scalar that is not null *)
Lemma scalar_shown X fuel doc css v0 sh hist i x v os pos b w :
  from_document X fuel doc css = Ok v0 -> v_model v0 = initial_model sh -> wf_shape sh = true ->
  Forall (fun e => fits sh (snd e) = true) (hist ++ [(i, x)]) -> json_wf x = true -> updates X fuel v0 (hist ++ [(i, x)]) = Ok (v, os) ->
  In (pointer_string pos, b) (flat (v_bindings v0)) -> alone (v_tree v0) (v_bindings v0) (pointer_string pos) b -> shape_at sh pos = Some SLeaf ->
  value_at (project sh x) pos = Some w -> w <> JNull ->
  exists w0 w', json_eq w0 w = true /\ piped (v_transformers v0) (bd_pipe b) w0 w' /\ shows (v_tree v) (slot_of (bd_params b)) (wanted (x_fmt_f64 X) b w').
Proof.
  intros H0 Hm Hw Hf Hx Hu Hin Hal Hsh Hv Hn. pose proof (last_value_only _ _ _ _ _ _ _ _ _ _ _ H0 Hm Hw Hf Hx Hu) as Heq.
  destruct (json_eq_at _ _ _ _ Heq Hv) as (w0 & Hv0 & He0).
  destruct (updates_reacted _ _ _ _ _ _ Hu) as (log & Hr). pose proof (scalar_history _ _ _ _ _ _ _ _ _ _ _ H0 Hm Hw Hf Hr Hin Hal Hsh) as Hc.
  destruct (reacted_keeps _ _ _ _ _ _ Hr (from_document_sound _ _ _ _ _ H0)) as (_ & K2 & _).
  destruct (Hc w0 Hv0) as (w' & Hp & Hs); [intros ->; apply Hn; by apply json_eq_null|]. exists w0, w'. rewrite <- K2. done.
Qed.

(** ** Lists that are not inside lists *)

Lemma key_value p : forall sh s m, key_only p -> model_of sh m = true -> shape_at sh p = Some s -> exists w, value_at m p = Some w /\ model_of s w = true.
Proof.
  induction p as [|st p IH]; intros sh s m Hk Hm Hs; cbn [shape_at value_at] in *; [injection Hs as <-; by exists m|].
  inversion Hk as [|? ? Hst Hk']; subst. destruct st as [k|]; [|done]. destruct sh as [| |fs]; try done.
  destruct (obj_get k fs) as [s1|] eqn:E; [|done]. pose proof (field_model _ _ _ _ Hm E) as Hf.
  destruct m as [| | | | |o]; try done. cbn [step_at]. cbn [field] in Hf.
  assert (Hex : exists w1, obj_get k o = Some w1).
  { cbn [model_of] in Hm. clear - Hm E. revert o Hm. induction fs as [|[l s] fs IH]; intros o Hm; [done|]. destruct o as [|[l' w] o]; [done|].
    apply andb_prop in Hm as [Hm Hm2]. apply andb_prop in Hm as [Hl _]. apply String.eqb_eq in Hl as <-. cbn [obj_get] in *.
    destruct (String.eqb k l); [eauto|]. by apply IH. }
  destruct Hex as [w1 Hw1]. rewrite Hw1 in *. by apply (IH s1).
Qed.
Lemma initial_list p : forall sh n s, key_only p -> shape_at sh p = Some (SList n s) -> value_at (initial_model sh) p = Some (JArr (repeat (initial_model s) n)).
Proof.
  induction p as [|st p IH]; intros sh n s Hk Hs; cbn [shape_at value_at] in *; [injection Hs as ->; done|].
  inversion Hk as [|? ? Hst Hk']; subst. destruct st as [k|]; [|done]. destruct sh as [| |fs]; try done.
  destruct (obj_get k fs) as [s1|] eqn:E; [|done]. cbn [initial_model step_at].
  assert (obj_get k (map (fun e => (fst e, initial_model (snd e))) fs) = Some (initial_model s1)) as ->.
  { clear - E. induction fs as [|[l s] fs IH]; [done|]. cbn [map obj_get fst snd] in *. destruct (String.eqb k l); [by injection E as ->|by apply IH]. }
  by apply IH.
Qed.

Definition counted (v : View) (pos : position_) (q s z : nat) : Prop :=
  exists l, value_at (v_model v) pos = Some (JArr l) /\ shows (v_tree v) (SRange q s z) (WCount (Nat.min z (List.length l))).

Lemma update_counted X fuel v i x v' o sh pos b n s0 q s z :
  sound v -> shaped sh v -> fits sh x = true -> obj_sorted (v_bindings v) = true -> update X fuel v i x = Ok (v', o) ->
  In (pointer_string pos, b) (flat (v_bindings v)) -> alone (v_tree v) (v_bindings v) (pointer_string pos) b ->
  key_only pos -> shape_at sh pos = Some (SList n s0) -> bd_params b = BRepeat q s z -> bd_pipe b = [] ->
  counted v pos q s z -> counted v' pos q s z.
Proof.
  intros Hso Hs Hf Hsrt H Hin Hal Hk Hsh Hb Hp (l & Hl & Hc).
  destruct (update_slot X fuel v i x v' o sh pos b Hso Hs Hf Hsrt H Hin Hal ltac:(eauto)) as (U1 & U2 & _).
  destruct (update_shaped _ _ _ _ _ _ _ _ Hs Hf H) as [(_ & _ & Hmo') Hm]. destruct Hs as (Hwf & Hdf & Hmo).
  destruct (key_value pos sh _ _ Hk Hmo' Hsh) as (w & Hw & Hwm). destruct w as [| | | |l'|]; try done. exists l'. split; [done|].
  rewrite Hm in Hw. destruct (merge_at pos sh _ (v_model v) x _ Hwf Hmo Hf Hsh Hw) as (Hwe & Hpr & _). cbn [merge project] in Hwe, Hpr.
  assert (Hov : old_value sh (v_model v) pos = JArr l) by (unfold old_value; by rewrite Hl).
  assert (Hlen : List.length l' = List.length (items (source x pos))) by (injection Hwe as ->; by rewrite item_merge_length).
  rewrite Hb in U1, U2. cbn [slot_of] in U1, U2. destruct (decide (List.length l = List.length l')) as [He|He].
  - rewrite <- He. apply U2; [|done]. intros w Hw'. unfold is_change, value_change in Hw'. rewrite Hsh in Hw'.
    destruct Hw' as (l2 & Hl2 & Hne & _). rewrite Hpr in Hl2. injection Hl2 as <-. rewrite Hov in Hne. cbn in Hne. rewrite map_length in Hne. lia.
  - destruct (U1 (JArr (items (source x pos)))) as (w' & Hpi & Hsw).
    + unfold is_change, value_change. rewrite Hsh. eexists. split; [exact Hpr|]. split; [|done]. rewrite Hov. cbn. rewrite map_length. lia.
    + rewrite Hp in Hpi. inversion Hpi; subst. unfold wanted in Hsw. rewrite Hb in Hsw. cbn in Hsw. cbn. rewrite Hlen.
      intros j c Hj Hd. rewrite (Hsw j c Hj Hd). lia.
Qed.

Lemma list_shown X fuel doc css v0 sh hist v log pos b n s0 q s z :
  from_document X fuel doc css = Ok v0 -> v_model v0 = initial_model sh -> wf_shape sh = true ->
  Forall (fun e => fits sh (snd e) = true) hist -> reacted X fuel v0 hist v log ->
  In (pointer_string pos, b) (flat (v_bindings v0)) -> bd_params b = BRepeat q s z -> bd_pipe b = [] -> 0 < z ->
  key_only pos -> shape_at sh pos = Some (SList n s0) -> z <= n -> counted v pos q s z.
Proof.
  intros H0 Hm Hw Hf Hr Hin Hb Hp Hz Hk Hsh Hzn. pose proof (from_document_sound _ _ _ _ _ H0) as Hs. pose proof (from_document_shaped _ _ _ _ _ _ H0 Hm Hw) as Hsd.
  pose proof (loaded _ _ _ _ _ H0) as (_ & _ & _ & _ & _ & Hso & _).
  pose proof (loaded_alone _ _ _ _ _ _ _ H0 Hin) as Hal. rewrite Hb in Hal. specialize (Hal Hz).
  assert (Hc0 : counted v0 pos q s z).
  { exists (repeat (initial_model s0) n). split; [rewrite Hm; by apply initial_list|]. rewrite repeat_length, Nat.min_l by done.
    intros j c Hj Hc. rewrite (range_history _ _ _ _ _ [] v0 [] _ _ _ _ _ H0 (reacted_nil _ _ _) Hin Hb j c Hj Hc). done. }
  clear H0 Hm Hw. induction Hr as [|v i x hist m rs v1 o v' log Hbi Hu _ IH]; [done|].
  inversion Hf as [|? ? Hx Hf']; subst. cbn in Hx. destruct (update_keeps _ _ _ _ _ _ _ Hs Hu) as (K1 & K2 & K3 & _).
  apply IH; try done.
  - by rewrite K1.
  - by eapply update_sound.
  - by eapply update_shaped.
  - by rewrite K1.
  - rewrite K1. by eapply alone_def.
  - by eapply update_counted.
Qed.

(** ** Bindings that write alone *)
Lemma tag_alone t bs p b n key : bd_params b = BTag n key ->
  (forall p' b', In (p', b') (flat bs) -> bd_params b' = BTag n key -> p' = p /\ b' = b) ->
  (forall p' b' i, In (p', b') (flat bs) -> bd_params b' <> BAttribute n key i) -> alone t bs p b.
Proof.
  intros Hb H1 H2 p' b' Hin. rewrite Hb. cbn [slot_of]. split.
  - intros E. apply H1; [done|]. destruct (bd_params b'); cbn in E; try done. injection E as -> ->. done.
  - intros Hd. destruct (bd_params b') eqn:E; cbn in Hd; try done. destruct Hd as [<- <-]. by eapply H2.
Qed.
Lemma attr_alone t bs p b n key i : bd_params b = BAttribute n key i ->
  (forall p' b', In (p', b') (flat bs) -> bd_params b' = BAttribute n key i -> p' = p /\ b' = b) -> alone t bs p b.
Proof.
  intros Hb H1 p' b' Hin. rewrite Hb. cbn [slot_of]. split.
  - intros E. apply H1; [done|]. destruct (bd_params b'); cbn in E; try done. injection E as -> -> ->. done.
  - destruct (bd_params b') eqn:E; cbn; tauto.
Qed.

(** ** The statements of PropTree.v *)
Section statements.
  Context (X : Externals) (fuel : nat) (doc : Html) (css : Css) (v0 : View) (H0 : from_document X fuel doc css = Ok v0).

  Lemma reactions_succeed hist v os x m rs :
    updates X fuel v0 hist = Ok (v, os) -> view_bind X v x = Ok (m, rs) ->
    Forall (reaction_ok (v_tree v)) rs /\ is_ok (update_trees (x_read_inline_css X) (v_tree v, v_ids v) rs) = true.
  Proof.
    intros Hu Hb. pose proof (reached_sound _ _ _ _ _ _ _ _ H0 Hu) as Hs. pose proof (view_bind_reactions_ok _ _ _ _ _ Hs Hb) as Hok. split; [done|].
    destruct (update_trees_ok (x_read_inline_css X) rs _ (v_ids v) _ (so_live _ Hs) Hok) as (t' & ids' & -> & _). done.
  Qed.

  Section data.
    Context (sh : shape) (Hm : v_model v0 = initial_model sh) (Hw : wf_shape sh = true).
    Context (hist : list (Input * json)) (i : Input) (x : json) (v : View) (os : list Output).
    Context (Hf : Forall (fun e => fits sh (snd e) = true) (hist ++ [(i, x)])) (Hx : json_wf x = true).
    Context (Hu : updates X fuel v0 (hist ++ [(i, x)]) = Ok (v, os)).
    Context (pos : position_) (b : Binding) (Hin : In (pointer_string pos, b) (flat (v_bindings v0))).

    Lemma text_current n k w : bd_params b = BText n k -> shape_at sh pos = Some SLeaf -> value_at (project sh x) pos = Some w -> w <> JNull ->
      exists w0 w', json_eq w0 w = true /\ piped (v_transformers v0) (bd_pipe b) w0 w' /\
        text_span (v_tree v) n k = Some (eval_string (x_fmt_f64 X) w').
    Proof.
      intros Hb Hs Hv Hn. pose proof (loaded_alone _ _ _ _ _ _ _ H0 Hin) as Hal. rewrite Hb in Hal. specialize (Hal I).
      destruct (scalar_shown _ _ _ _ _ _ _ _ _ _ _ _ _ _ H0 Hm Hw Hf Hx Hu Hin Hal Hs Hv Hn) as (w0 & w' & He & Hp & Hsh).
      rewrite Hb in Hsh. unfold wanted in Hsh. rewrite Hb in Hsh. cbn in Hsh. eauto.
    Qed.
    Lemma child_current q c vis w : bd_params b = BVisibility q c vis -> shape_at sh pos = Some SLeaf -> value_at (project sh x) pos = Some w -> w <> JNull ->
      exists w0 w', json_eq w0 w = true /\ piped (v_transformers v0) (bd_pipe b) w0 w' /\
        (c ∈ attached (v_tree v) q <-> eval_boolean w' = vis).
    Proof.
      intros Hb Hs Hv Hn. pose proof (loaded_alone _ _ _ _ _ _ _ H0 Hin) as Hal. rewrite Hb in Hal. specialize (Hal I).
      destruct (scalar_shown _ _ _ _ _ _ _ _ _ _ _ _ _ _ H0 Hm Hw Hf Hx Hu Hin Hal Hs Hv Hn) as (w0 & w' & He & Hp & Hsh).
      rewrite Hb in Hsh. unfold wanted in Hsh. rewrite Hb in Hsh. cbn in Hsh. exists w0, w'. split; [done|]. split; [done|]. rewrite Hsh.
      destruct vis, (eval_boolean w'); done.
    Qed.
    Lemma tag_current n key w : bd_params b = BTag n key ->
      (forall p' b', In (p', b') (flat (v_bindings v0)) -> bd_params b' = BTag n key -> p' = pointer_string pos /\ b' = b) ->
      (forall p' b' i, In (p', b') (flat (v_bindings v0)) -> bd_params b' <> BAttribute n key i) ->
      shape_at sh pos = Some SLeaf -> value_at (project sh x) pos = Some w -> w <> JNull ->
      exists w0 w', json_eq w0 w = true /\ piped (v_transformers v0) (bd_pipe b) w0 w' /\
        attr (v_tree v) n key = if eval_boolean w' then Some key else None.
    Proof.
      intros Hb H1 H2 Hs Hv Hn. pose proof (tag_alone (v_tree v0) _ _ _ _ _ Hb H1 H2) as Hal.
      destruct (scalar_shown _ _ _ _ _ _ _ _ _ _ _ _ _ _ H0 Hm Hw Hf Hx Hu Hin Hal Hs Hv Hn) as (w0 & w' & He & Hp & Hsh).
      rewrite Hb in Hsh. unfold wanted in Hsh. rewrite Hb in Hsh. cbn in Hsh. exists w0, w'. done.
    Qed.
    Lemma attr_current n key k w : bd_params b = BAttribute n key k ->
      (forall p' b', In (p', b') (flat (v_bindings v0)) -> bd_params b' = BAttribute n key k -> p' = pointer_string pos /\ b' = b) ->
      shape_at sh pos = Some SLeaf -> value_at (project sh x) pos = Some w -> w <> JNull ->
      exists w0 w' spans, json_eq w0 w = true /\ piped (v_transformers v0) (bd_pipe b) w0 w' /\
        attr_spans (v_tree v) n key = Some spans /\ (k < List.length spans -> spans !! k = Some (eval_string (x_fmt_f64 X) w')).
    Proof.
      intros Hb H1 Hs Hv Hn. pose proof (attr_alone (v_tree v0) _ _ _ _ _ _ Hb H1) as Hal.
      destruct (scalar_shown _ _ _ _ _ _ _ _ _ _ _ _ _ _ H0 Hm Hw Hf Hx Hu Hin Hal Hs Hv Hn) as (w0 & w' & He & Hp & Hsh).
      rewrite Hb in Hsh. unfold wanted in Hsh. rewrite Hb in Hsh. cbn in Hsh. destruct Hsh as (spans & Hsp & Hk). exists w0, w', spans. done.
    Qed.
    Lemma list_current q s z n s0 : bd_params b = BRepeat q s z -> bd_pipe b = [] -> key_only pos -> shape_at sh pos = Some (SList n s0) -> z <= n ->
      forall j c, j < z -> defined (v_tree v) q !! (s + j) = Some c -> (c ∈ attached (v_tree v) q <-> j < List.length (items (source x pos))).
    Proof.
      intros Hb Hp Hk Hs Hz j c Hj Hd. destruct (updates_reacted _ _ _ _ _ _ Hu) as (log & Hr).
      destruct (list_shown _ _ _ _ _ _ _ _ _ _ _ _ _ _ _ _ H0 Hm Hw Hf Hr Hin Hb Hp ltac:(lia) Hk Hs Hz) as (l & Hl & Hc).
      rewrite (Hc j c Hj Hd). pose proof (last_value_only _ _ _ _ _ _ _ _ _ _ _ H0 Hm Hw Hf Hx Hu) as Heq.
      apply updates_snoc in Hu as (v1 & os1 & o & Hu1 & Hu2 & _).
      apply Forall_app in Hf as [Hf1 Hf2]. inversion Hf2 as [|? ? Hf3 _]; subst. cbn in Hf3.
      pose proof (updates_shaped _ _ _ _ _ _ _ (from_document_shaped _ _ _ _ _ _ H0 Hm Hw) Hf1 Hu1) as Hsd1.
      destruct (update_shaped _ _ _ _ _ _ _ _ Hsd1 Hf3 Hu2) as [_ Hmd]. rewrite Hmd in Hl. destruct Hsd1 as (_ & _ & Hmo).
      destruct (merge_at pos sh _ (v_model v1) x _ Hw Hmo Hf3 Hs Hl) as (Hwe & _). cbn [merge] in Hwe. injection Hwe as ->. rewrite item_merge_length. lia.
    Qed.
  End data.
End statements.

(** one repeat reaction in a reached view *)
Lemma repeat_step X fuel doc css v0 hist v os p s c z t' ids' :
  from_document X fuel doc css = Ok v0 -> updates X fuel v0 hist = Ok (v, os) ->
  reaction_ok (v_tree v) (RRepeat p s c z) -> update_tree (x_read_inline_css X) (v_tree v, v_ids v) (RRepeat p s c z) = Ok (t', ids') ->
  (forall d, d ∈ attached t' p <-> d ∈ block s c (defined (v_tree v) p) \/ (d ∈ attached (v_tree v) p /\ d ∉ block c z (defined (v_tree v) p))) /\
  NoDup (attached t' p) /\ (forall q, q <> p -> attached t' q = attached (v_tree v) q) /\
  (forall n i, text_span t' n i = text_span (v_tree v) n i) /\ (forall n k, attr t' n k = attr (v_tree v) n k).
Proof.
  intros H0 Hu Hok Ht. pose proof (reached_sound _ _ _ _ _ _ _ _ H0 Hu) as Hs. pose proof (so_live _ Hs) as Hl.
  destruct (update_tree_ok (x_read_inline_css X) _ (v_ids v) _ _ Hl Hok) as (t1 & H1 & Hl1 & Hd & He). rewrite Ht in H1. injection H1 as <- _.
  destruct He as [E1 E2 E3 [E4 E5]]. split; [|split; [apply (live_once _ _ Hl1)|done]].
  destruct Hok as (e & _ & Hscz & _). intros d. rewrite E4, elem_of_app, !elem_of_list_filter.
  pose proof (block_disjoint s c z (defined (v_tree v) p) d (proj2 (live_once _ _ Hl p)) ltac:(lia)). destruct (decide (d ∈ attached (v_tree v) p)); tauto.
Qed.

Lemma conditional_order X fuel doc css v0 hist v log q : from_document X fuel doc css = Ok v0 -> reacted X fuel v0 hist v log ->
  q <> v_root v0 -> (forall p b s z, In (p, b) (flat (v_bindings v0)) -> bd_params b <> BRepeat q s z) ->
  in_order (attached (v_tree v) q) (defined (v_tree v) q).
Proof. intros H0 Hr Hq Hno. eapply order_history; [exact H0|exact Hr|exact Hq|]. intros p b s z Hin Hb. by eapply Hno in Hb. Qed.

Lemma id_lookup X fuel doc css v0 hist v os : from_document X fuel doc css = Ok v0 -> updates X fuel v0 hist = Ok (v, os) ->
  (forall p b n i, In (p, b) (flat (v_bindings v0)) -> bd_params b <> BAttribute n "id" i /\ bd_params b <> BTag n "id") ->
  (forall s e, get_element_by_id v0 s = Some e -> e_attrs e !! "id" = Some s) ->
  forall s e, get_element_by_id v s = Some e -> e_attrs e !! "id" = Some s.
Proof.
  intros H0 Hu Hno Hn s e. destruct (updates_reacted _ _ _ _ _ _ Hu) as (log & Hr).
  set (I := fun (t : Tree) (ids : gmap string NodeId) => forall s n e, ids !! s = Some n -> get_ctx t n = Some e -> e_attrs e !! "id" = Some s).
  assert (Hat : forall t n e, get_ctx t n = Some e -> attr t n "id" = e_attrs e !! "id") by (intros t n e0 He0; unfold attr; by rewrite He0).
  cut (I (v_tree v) (v_ids v)).
  { intros HI He. unfold get_element_by_id in He. apply bind_Some in He as (n & Hs & He). by eapply HI. }
  eapply (history_inv X fuel doc css v0 hist v log I H0 Hr).
  - intros t t' ids Hsh Hj s0 n0 e0 Hs0 He0. rewrite <- (Hat _ _ _ He0), (shown_attr _ _ _ _ Hsh).
    pose proof (shown_ctx _ _ n0 Hsh) as Hx. rewrite He0 in Hx. destruct (get_ctx t n0) as [e1|] eqn:E1; [|done]. rewrite (Hat _ _ _ E1). by eapply Hj.
  - intros p b r Hin Hw t t' ids Hl Hok Hd He Hj s0 n0 e0 Hs0 He0. rewrite <- (Hat _ _ _ He0), (eff_attr _ _ _ He).
    assert (Hold : ids !! s0 = Some n0 -> attr t n0 "id" = Some s0).
    { intros Hs1. destruct (same_def_ctx _ _ _ _ (same_def_sym _ _ Hd) He0) as (e1 & He1 & _). rewrite (Hat _ _ _ He1). by eapply Hj. }
    destruct r as [m i x|? ? ?|? ? ? ?|m k f|m k i x]; cbn [attr_after ids_after] in *; try (by apply Hold).
    + rewrite decide_False; [by apply Hold|]. intros [<- <-]. destruct (bd_params b) eqn:Eb; try done. cbn in Hw. injection Hw as -> <-. by eapply (proj2 (Hno _ _ _ 0 Hin)).
    + assert (Hk : k <> "id"). { intros ->. destruct (bd_params b) eqn:Eb; try done. cbn in Hw. injection Hw as -> <- ->. by eapply (proj1 (Hno _ _ _ _ Hin)). }
      rewrite decide_False in Hs0 by done. rewrite decide_False; [by apply Hold|]. intros [_ <-]. done.
  - intros s0 n0 e0 Hs0 He0. apply Hn. unfold get_element_by_id. by rewrite Hs0.
Qed.

Lemma load_reactions_succeed X fuel templates body r root b t :
  render (x_translate X) (x_read_inline_css X) templates fuel body renderer_new = Ok (r, root, b) -> same_shown (r_tree r) t ->
  is_ok (apply_default_bindings_state (x_read_inline_css X) (r_bindings r) (t, r_static_id r)) = true.
Proof.
  intros Hr Hsh. destruct (render_any _ _ _ _ _ _ _ _ Hr) as (rn & ps & Hm & -> & -> & Hre & Hsid & Hso & Hfl & Hsch).
  destruct (rendered_live _ _ _ Hm Hre) as (Hl & _). pose proof (shown_live _ _ _ Hsh Hl) as Hl'.
  assert (Hb : forall p b, In (p, b) (flat (r_bindings r)) -> binding_ok t b).
  { intros p b Hb. eapply binding_ok_def; [by apply shown_def|]. eapply stands_bindings_ok; [apply (re_stands _ _ _ Hre)|done|].
    apply elem_of_list_In. rewrite <- Hfl. by apply elem_of_list_In. }
  destruct (update_trees_ok (x_read_inline_css X) _ t (r_static_id r) 0 Hl' (default_reactions_ok _ _ Hb)) as (t' & ids' & H' & _).
  unfold apply_default_bindings_state. by rewrite H'.
Qed.
Lemma load_succeeds X fuel doc css templates body r root b d t :
  scan_document (h_children doc) ∅ = (templates, body) ->
  render (x_translate X) (x_read_inline_css X) templates fuel body renderer_new = Ok (r, root, b) ->
  memorize_array_default "" (r_schema r) ∅ = Ok d ->
  calculate_elements_stylesheet (tree_depth (r_tree r)) (x_debug X) (css_styles css) b (r_tree r) = Ok t ->
  is_ok (from_document X fuel doc css) = true.
Proof.
  intros Hsc Hr Hd Ht. unfold from_document. rewrite Hsc, Hr. cbn [bindR]. rewrite Hd. cbn [bindR]. rewrite Ht. cbn [bindR].
  pose proof (load_reactions_succeed _ _ _ _ _ _ _ _ Hr (stylesheet_shown _ _ _ _ _ _ Ht)) as Ha.
  destruct (apply_default_bindings_state _ _ _) as [[? ?]| | |]; done.
Qed.

(** ** Null, once a value has been there *)
Definition settled X (v : View) (pos : position_) (b : Binding) : Prop := forall w,
  value_at (v_model v) pos = Some w -> exists w', piped (v_transformers v) (bd_pipe b) w w' /\
  shows (v_tree v) (slot_of (bd_params b)) (wanted (x_fmt_f64 X) b w').

Lemma update_settled X fuel v i x v' o sh pos b :
  sound v -> shaped sh v -> fits sh x = true -> obj_sorted (v_bindings v) = true -> update X fuel v i x = Ok (v', o) ->
  In (pointer_string pos, b) (flat (v_bindings v)) -> alone (v_tree v) (v_bindings v) (pointer_string pos) b -> shape_at sh pos = Some SLeaf ->
  key_only pos -> settled X v pos b -> settled X v' pos b.
Proof.
  intros Hso Hs Hf Hsrt H Hin Hal Hsh Hk Hcur w Hw.
  destruct (update_slot X fuel v i x v' o sh pos b Hso Hs Hf Hsrt H Hin Hal ltac:(eauto)) as (U1 & U2 & _).
  destruct (update_shaped _ _ _ _ _ _ _ _ Hs Hf H) as [_ Hm]. apply update_content in H as (_ & _ & _ & _ & _ & _ & _ & _ & _ & _ & _ & Htr & _).
  rewrite Htr. rewrite Hm in Hw. destruct Hs as (Hwf & Hdf & Hmo).
  destruct (merge_at pos sh SLeaf (v_model v) x w Hwf Hmo Hf Hsh Hw) as (Hwe & Hpr & _). cbn [merge project] in Hwe, Hpr.
  destruct (key_value pos sh _ _ Hk Hmo Hsh) as (ow & How & _).
  assert (Hov : old_value sh (v_model v) pos = ow) by (unfold old_value; by rewrite How).
  destruct (json_eq (old_value sh (v_model v) pos) (source x pos)) eqn:E.
  - destruct (Hcur w) as (w' & Hp & Hsw); [by rewrite Hwe, Hov|].
    exists w'. split; [done|]. apply U2; [|done].
    intros z Hz. unfold is_change, value_change in Hz. rewrite Hsh in Hz. destruct Hz as [Hz1 Hz2]. rewrite Hpr in Hz1. injection Hz1 as <-. congruence.
  - destruct (U1 (source x pos)) as (w2 & Hp2 & Hsw).
    + unfold is_change, value_change. rewrite Hsh. done.
    + rewrite Hwe. by exists w2.
Qed.
Lemma updates_app X fuel : forall h1 h2 v v' os, updates X fuel v (h1 ++ h2) = Ok (v', os) ->
  exists v1 os1 os2, updates X fuel v h1 = Ok (v1, os1) /\ updates X fuel v1 h2 = Ok (v', os2).
Proof.
  induction h1 as [|[i x] h1 IH]; intros h2 v v' os H; cbn [app updates] in H; [by exists v, [], os|].
  apply bindR_Ok in H as ([v1 o1] & H1 & H). apply bindR_Ok in H as ([v2 os2] & H2 & H). injection H as <- <-.
  destruct (IH _ _ _ _ H2) as (v3 & os3 & os4 & H3 & H4). exists v3, (o1 :: os3), os4. split; [|done]. cbn [updates]. rewrite H1. cbn. by rewrite H3.
Qed.
Lemma settled_history X fuel doc css v0 sh h1 i1 x1 h2 v os pos b :
  from_document X fuel doc css = Ok v0 -> v_model v0 = initial_model sh -> wf_shape sh = true ->
  Forall (fun e => fits sh (snd e) = true) (h1 ++ (i1, x1) :: h2) -> updates X fuel v0 (h1 ++ (i1, x1) :: h2) = Ok (v, os) ->
  In (pointer_string pos, b) (flat (v_bindings v0)) -> alone (v_tree v0) (v_bindings v0) (pointer_string pos) b -> shape_at sh pos = Some SLeaf ->
  key_only pos -> source x1 pos <> JNull -> settled X v pos b.
Proof.
  intros H0 Hm Hw Hf Hu Hin Hal Hsh Hk Hn. replace (h1 ++ (i1, x1) :: h2) with ((h1 ++ [(i1, x1)]) ++ h2) in Hf, Hu by (by rewrite <- app_assoc).
  apply updates_app in Hu as (v1 & os1 & os2 & Hu1 & Hu2). apply Forall_app in Hf as [Hf1 Hf2].
  pose proof (from_document_sound _ _ _ _ _ H0) as Hs0. pose proof (from_document_shaped _ _ _ _ _ _ H0 Hm Hw) as Hsd0.
  pose proof (loaded _ _ _ _ _ H0) as (_ & _ & _ & _ & _ & Hso & _).
  destruct (updates_reacted _ _ _ _ _ _ Hu1) as (log & Hr1). pose proof (scalar_history _ _ _ _ _ _ _ _ _ _ _ H0 Hm Hw Hf1 Hr1 Hin Hal Hsh) as Hc.
  destruct (reacted_keeps _ _ _ _ _ _ Hr1 Hs0) as (K1 & _ & K3 & _ & _ & Hs1).
  pose proof (updates_shaped _ _ _ _ _ _ _ Hsd0 Hf1 Hu1) as Hsd1.
  assert (Hst : settled X v1 pos b).
  { intros w Hv. apply Hc; [done|]. pose proof Hu1 as Hu1'. apply updates_snoc in Hu1' as (va & osa & oa & Hua & Hub & _).
    apply Forall_app in Hf1 as [Hfa Hfb]. inversion Hfb as [|? ? Hfx _]; subst. cbn in Hfx.
    pose proof (updates_shaped _ _ _ _ _ _ _ Hsd0 Hfa Hua) as Hsda. destruct (update_shaped _ _ _ _ _ _ _ _ Hsda Hfx Hub) as [_ Hmd].
    rewrite Hmd in Hv. destruct Hsda as (_ & _ & Hmo). destruct (merge_at pos sh SLeaf (v_model va) x1 w Hw Hmo Hfx Hsh Hv) as (Hwe & _). cbn [merge] in Hwe.
    destruct (json_eq _ _) eqn:E; [|by rewrite Hwe]. rewrite Hwe. intros Hnull. rewrite Hnull in E. apply Hn. by apply json_eq_null. }
  clear - Hu2 Hf2 Hs1 Hsd1 Hst Hin Hal Hsh Hk Hso K1 K3. rewrite <- K1 in Hin, Hso. apply (alone_def _ _ _ _ _ K3) in Hal. rewrite <- K1 in Hal. clear K1 K3.
  revert v1 os2 Hu2 Hs1 Hsd1 Hst Hin Hal Hso. induction h2 as [|[i x] h2 IH]; intros v1 os2 Hu2 Hs1 Hsd1 Hst Hin Hal Hso; cbn [updates] in Hu2; [by injection Hu2 as <- _|].
  apply bindR_Ok in Hu2 as ([v2 o2] & Hu & Hu2). apply bindR_Ok in Hu2 as ([v3 o3] & Hu2 & [= <- _]).
  inversion Hf2 as [|? ? Hfx Hf2']; subst. cbn in Hfx. destruct (update_keeps _ _ _ _ _ _ _ Hs1 Hu) as (K1 & _ & K3 & _).
  eapply (IH Hf2' v2 o3 Hu2).
  - by eapply update_sound.
  - by eapply update_shaped.
  - by eapply update_settled.
  - by rewrite K1.
  - rewrite K1. by eapply alone_def.
  - by rewrite K1.
Qed.

Lemma settled_text X fuel doc css v0 sh h1 i1 x1 h2 v os pos b n k :
  from_document X fuel doc css = Ok v0 -> v_model v0 = initial_model sh -> wf_shape sh = true ->
  Forall (fun e => fits sh (snd e) = true) (h1 ++ (i1, x1) :: h2) -> updates X fuel v0 (h1 ++ (i1, x1) :: h2) = Ok (v, os) ->
  In (pointer_string pos, b) (flat (v_bindings v0)) -> bd_params b = BText n k -> shape_at sh pos = Some SLeaf ->
  key_only pos -> source x1 pos <> JNull ->
  exists w w', value_at (v_model v) pos = Some w /\ piped (v_transformers v0) (bd_pipe b) w w' /\ text_span (v_tree v) n k = Some (eval_string (x_fmt_f64 X) w').
Proof.
  intros H0 Hm Hw Hf Hu Hin Hb Hsh Hk Hn. pose proof (loaded_alone _ _ _ _ _ _ _ H0 Hin) as Hal. rewrite Hb in Hal. specialize (Hal I).
  pose proof (settled_history _ _ _ _ _ _ _ _ _ _ _ _ _ _ H0 Hm Hw Hf Hu Hin Hal Hsh Hk Hn) as Hs.
  destruct (updates_shaped _ _ _ _ _ _ _ (from_document_shaped _ _ _ _ _ _ H0 Hm Hw) Hf Hu) as (_ & _ & Hmo).
  destruct (key_value pos sh _ _ Hk Hmo Hsh) as (w & Hv & _). destruct (Hs w Hv) as (w' & Hp & Hx). exists w, w'. split; [done|].
  destruct (updates_reacted _ _ _ _ _ _ Hu) as (log & Hr). destruct (reacted_keeps _ _ _ _ _ _ Hr (from_document_sound _ _ _ _ _ H0)) as (_ & K2 & _).
  rewrite K2 in Hp. split; [done|]. unfold wanted in Hx. rewrite Hb in Hx. exact Hx.
Qed.
Lemma settled_child X fuel doc css v0 sh h1 i1 x1 h2 v os pos b q c vis :
  from_document X fuel doc css = Ok v0 -> v_model v0 = initial_model sh -> wf_shape sh = true ->
  Forall (fun e => fits sh (snd e) = true) (h1 ++ (i1, x1) :: h2) -> updates X fuel v0 (h1 ++ (i1, x1) :: h2) = Ok (v, os) ->
  In (pointer_string pos, b) (flat (v_bindings v0)) -> bd_params b = BVisibility q c vis -> shape_at sh pos = Some SLeaf ->
  key_only pos -> source x1 pos <> JNull ->
  exists w w', value_at (v_model v) pos = Some w /\ piped (v_transformers v0) (bd_pipe b) w w' /\ (c ∈ attached (v_tree v) q <-> eval_boolean w' = vis).
Proof.
  intros H0 Hm Hw Hf Hu Hin Hb Hsh Hk Hn. pose proof (loaded_alone _ _ _ _ _ _ _ H0 Hin) as Hal. rewrite Hb in Hal. specialize (Hal I).
  pose proof (settled_history _ _ _ _ _ _ _ _ _ _ _ _ _ _ H0 Hm Hw Hf Hu Hin Hal Hsh Hk Hn) as Hs.
  destruct (updates_shaped _ _ _ _ _ _ _ (from_document_shaped _ _ _ _ _ _ H0 Hm Hw) Hf Hu) as (_ & _ & Hmo).
  destruct (key_value pos sh _ _ Hk Hmo Hsh) as (w & Hv & _). destruct (Hs w Hv) as (w' & Hp & Hx). exists w, w'. split; [done|].
  destruct (updates_reacted _ _ _ _ _ _ Hu) as (log & Hr). destruct (reacted_keeps _ _ _ _ _ _ Hr (from_document_sound _ _ _ _ _ H0)) as (_ & K2 & _).
  rewrite K2 in Hp. split; [done|]. unfold wanted in Hx. rewrite Hb in Hx. cbn in Hx. rewrite Hx. destruct vis, (eval_boolean w'); done.
Qed.
