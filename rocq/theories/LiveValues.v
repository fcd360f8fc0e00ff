(** * What the page shows is the current data. *)
From Coq Require Import ZArith Lia.
From stdpp Require Import gmap.
From RecordUpdate Require Import RecordUpdate.
From Verif Require Import Str StrFacts F32 Res ResFacts Json JsonFacts PropKey Html Css Element Tree ViewModel Render Update Matching
  Cascade Initial Animation Apply Styling Events View
  SpecBind SpecReact SpecLive SpecView SpecRender SpecTree BindFacts ConformFacts ChangeFacts BindProps FrameFacts
  RenderTree RenderProps RenderAny RenderMore LiveFacts LiveUpdate LiveView LiveSlots.

Lemma item_merge_lookup f d : forall next old j, item_merge f d old next !! j =
  (fun x => f (match old !! j with Some o => o | None => d end) x) <$> next !! j.
Proof.
  induction next as [|v next IH]; intros old j; [done|]. cbn [item_merge]. destruct old as [|o old]; destruct j as [|j]; cbn; try done; by rewrite IH.
Qed.
Lemma item_merge_length f d : forall next old, List.length (item_merge f d old next) = List.length next.
Proof. induction next as [|v next IH]; intros old; [done|]. cbn [item_merge]. destruct old; cbn; by rewrite IH. Qed.

Lemma field_model fs m k s : model_of (SRecord fs) m = true -> obj_get k fs = Some s -> model_of s (field m k) = true.
Proof. intros Hm Hk. apply model_of_record in Hm as (o & -> & _ & Ho). destruct (Ho _ _ Hk) as (d & Hd & H). cbn. by rewrite Hd. Qed.

(** the merged model at a position *)
Lemma merge_at p : forall sh s m v w, wf_shape sh = true -> model_of sh m = true -> fits sh v = true ->
  shape_at sh p = Some s -> value_at (merge sh m v) p = Some w ->
  w = merge s (old_value sh m p) (source v p) /\ value_at (project sh v) p = Some (project s (source v p)) /\
  wf_shape s = true /\ model_of s (old_value sh m p) = true /\ fits s (source v p) = true.
Proof.
  induction p as [|[k|j] p IH]; intros sh s m v w Hw Hm Hf Hs Hv.
  - injection Hs as <-. injection Hv as <-. done.
  - cbn [shape_at] in Hs. destruct sh as [| |fs]; try done. destruct (obj_get k fs) as [s1|] eqn:Ek; [|done].
    rewrite (old_value_key fs m k s1 p Hm Ek), source_key.
    cbn [merge value_at step_at project] in Hv |- *.
    rewrite (obj_get_map (fun e => merge (snd e) (field m (fst e)) (field v (fst e)))), Ek in Hv.
    rewrite (obj_get_map (fun e => project (snd e) (field v (fst e)))), Ek. cbn [fst snd] in *.
    eapply IH; [|by eapply field_model|by eapply field_fits|exact Hs|exact Hv].
    cbn [wf_shape] in Hw. apply andb_prop in Hw as [_ Hw]. rewrite List.forallb_forall in Hw. apply obj_get_In in Ek. exact (Hw _ Ek).
  - cbn [shape_at] in Hs. destruct sh as [|n s1|]; try done.
    rewrite (old_value_index n s1 m j p Hw Hm). cbn [merge value_at step_at project] in Hv |- *.
    rewrite item_merge_lookup in Hv. rewrite (list_lookup_fmap (project s1) (items v) j : map (project s1) (items v) !! j = _).
    destruct (items v !! j) as [x|] eqn:Ex; [|done]. cbn [fmap option_fmap option_map] in *. rewrite (source_index _ _ _ p Ex).
    eapply (IH s1 s (old_item s1 m j) x w); [|by eapply old_item_model|by eapply item_fits|exact Hs|exact Hv].
    cbn [wf_shape] in Hw. by apply andb_prop in Hw as [_ Hw].
Qed.

(** the initial model holds null at the leaves *)
Lemma initial_leaf p : forall sh w, shape_at sh p = Some SLeaf -> value_at (initial_model sh) p = Some w -> w = JNull.
Proof.
  induction p as [|[k|j] p IH]; intros sh w Hs Hv.
  - injection Hs as ->. by injection Hv as <-.
  - cbn [shape_at] in Hs. destruct sh as [| |fs]; try done. destruct (obj_get k fs) as [s1|] eqn:Ek; [|done].
    cbn [initial_model value_at step_at] in Hv. rewrite (obj_get_map (fun e => initial_model (snd e))), Ek in Hv. by eapply IH.
  - cbn [shape_at] in Hs. destruct sh as [|n s1|]; try done. cbn [initial_model value_at step_at] in Hv.
    destruct (repeat (initial_model s1) n !! j) as [x|] eqn:E; [|done]. apply repeat_lookup_inv in E as ->. by eapply IH.
Qed.
Lemma shape_at_zeroed p : forall sh, shape_at sh (zeroed p) = shape_at sh p.
Proof.
  induction p as [|[k|j] p IH]; intros sh; [done| |]; cbn [zeroed map shape_at].
  - destruct sh; try done. destruct (obj_get k fs); [apply IH|done].
  - destruct sh; solve [done | apply IH].
Qed.
Lemma old_leaf sh m p : shape_at sh p = Some SLeaf -> old_value sh m p <> JNull -> value_at m p = Some (old_value sh m p).
Proof.
  intros Hs Hn. unfold old_value in *. destruct (value_at m p) as [w|]; [done|]. exfalso. apply Hn.
  destruct (value_at (initial_model sh) (zeroed p)) as [x|] eqn:E; [|done]. eapply initial_leaf; [|exact E]. by rewrite shape_at_zeroed.
Qed.

Lemma piped_det tr pipe w a b : piped tr pipe w a -> piped tr pipe w b -> a = b.
Proof. intros Ha Hb. apply run_pipe_piped in Ha. apply run_pipe_piped in Hb. rewrite Ha in Hb. by injection Hb. Qed.

(** ** The reactions that write a slot *)
Lemma writes_expected fmt b w : fst (writes (expected fmt b w)) = slot_of b.
Proof. destruct b; cbn; try done. f_equal. lia. Qed.
Definition wanted (fmt : f64 -> string) (b : Binding) (w : json) : written := snd (writes (expected fmt (bd_params b) w)).

Lemma told_in fmt bs tr p w rs r : told fmt bs tr p w rs -> In r rs ->
  exists b w', In (pointer_string p, b) (flat bs) /\ piped tr (bd_pipe b) w w' /\ r = expected fmt (bd_params b) w'.
Proof.
  unfold told. intros H Hr. destruct (obj_get (pointer_string p) bs) as [l|] eqn:E; [|inversion H; subst; done].
  apply obj_get_In in E. apply elem_of_list_In in Hr. apply elem_of_list_lookup in Hr as [i Hi].
  destruct (Forall2_lookup_r _ _ _ _ _ H Hi) as (b & Hb & w' & Hp & ->). exists b, w'. split; [|done]. apply in_flat. exists l. split; [done|].
  apply elem_of_list_In. by eapply elem_of_list_lookup_2.
Qed.
Lemma told_some fmt bs tr p w rs b : obj_sorted bs = true -> told fmt bs tr p w rs -> In (pointer_string p, b) (flat bs) ->
  exists w', piped tr (bd_pipe b) w w' /\ In (expected fmt (bd_params b) w') rs.
Proof.
  intros Hso. unfold told. intros H Hb. apply in_flat in Hb as (l & Hl & Hb). apply obj_sorted_NoDup in Hso.
  rewrite (obj_get_NoDup _ _ _ Hso Hl) in H. apply elem_of_list_In in Hb. apply elem_of_list_lookup in Hb as [i Hi].
  destruct (Forall2_lookup_l _ _ _ _ _ H Hi) as (r & Hr & w' & Hp & ->). exists w'. split; [done|]. apply elem_of_list_In. by eapply elem_of_list_lookup_2.
Qed.

Lemma slot_told X v sh x m rs pos b :
  shaped sh v -> fits sh x = true -> view_bind X v x = Ok (m, rs) -> obj_sorted (v_bindings v) = true ->
  In (pointer_string pos, b) (flat (v_bindings v)) -> alone (v_tree v) (v_bindings v) (pointer_string pos) b -> is_Some (shape_at sh pos) ->
  (forall w, is_change sh (v_model v) x pos w -> exists w', piped (v_transformers v) (bd_pipe b) w w' /\
     last_written (slot_of (bd_params b)) rs = Some (wanted (x_fmt_f64 X) b w')) /\
  ((forall w, ~ is_change sh (v_model v) x pos w) -> last_written (slot_of (bd_params b)) rs = None).
Proof.
  intros Hs Hf Hb Hso Hin Hal Hsh. destruct (every_change_reported X v sh x m rs Hs Hf Hb) as (cs & rss & Hcs & Hnd & Htold & ->).
  assert (Hfrom : forall r, In r (List.concat rss) -> fst (writes r) = slot_of (bd_params b) ->
    exists w w', In (pos, w) cs /\ piped (v_transformers v) (bd_pipe b) w w' /\ r = expected (x_fmt_f64 X) (bd_params b) w').
  { intros r Hr Hw. apply in_concat in Hr as (rs & Hrs & Hr). apply elem_of_list_In, elem_of_list_lookup in Hrs as [i Hi].
    destruct (Forall2_lookup_r _ _ _ _ _ Htold Hi) as ([p w] & Hp & Ht). cbn [fst snd] in Ht.
    destruct (told_in _ _ _ _ _ _ _ Ht Hr) as (b' & w' & Hb' & Hpi & ->). rewrite writes_expected in Hw.
    destruct (Hal _ _ Hb') as [Hal' _]. destruct (Hal' Hw) as [Hpp ->].
    assert (Hpc : In (p, w) cs) by (apply elem_of_list_In; by eapply elem_of_list_lookup_2).
    apply (pointer_string_inj sh (proj1 Hs)) in Hpp; [|eapply is_change_shape; by apply Hcs|done]. subst p. eauto. }
  split.
  - intros w Hw. apply Hcs in Hw as Hwc. pose proof Hwc as Hwi. apply elem_of_list_In, elem_of_list_lookup in Hwi as [i Hi].
    destruct (Forall2_lookup_l _ _ _ _ _ Htold Hi) as (rs & Hrs & Ht). cbn [fst snd] in Ht.
    destruct (told_some _ _ _ _ _ _ _ Hso Ht Hin) as (w' & Hpi & Hr). exists w'. split; [done|].
    apply last_written_all.
    + intros r Hr' Hw'. destruct (Hfrom _ Hr' Hw') as (w2 & w2' & Hc2 & Hp2 & ->).
      assert (w2 = w) as ->.
      { clear - Hnd Hc2 Hwc. induction cs as [|c cs IH]; [done|]. cbn [map] in Hnd. inversion Hnd as [|? ? Hni Hnd']; subst.
        assert (Hx : forall z, In (pos, z) cs -> pointer_string pos ∈ map (fun c => pointer_string (fst c)) cs).
        { intros z Hz. apply elem_of_list_In, in_map_iff. by exists (pos, z). }
        destruct Hc2 as [->|Hc2], Hwc as [E|Hwc]; [congruence|exfalso; apply Hni; cbn; eauto| |by apply IH].
        exfalso. apply Hni. rewrite E. cbn. eauto. }
      unfold wanted. do 3 f_equal. by eapply piped_det.
    + exists (expected (x_fmt_f64 X) (bd_params b) w'). split; [|apply writes_expected]. apply in_concat. exists rs. split; [|done].
      apply elem_of_list_In. by eapply elem_of_list_lookup_2.
  - intros Hno. apply last_written_none. intros r Hr Hw. destruct (Hfrom _ Hr Hw) as (w & w' & Hc & _). apply Hcs in Hc. by eapply Hno.
Qed.

(** ** One update *)
Lemma alone_def t t' bs p b : same_definitions t t' -> alone t bs p b -> alone t' bs p b.
Proof. intros Hd Ha p' b' Hb'. destruct (Ha _ _ Hb') as [H1 H2]. split; [done|]. intros H. apply H2. by eapply disturbs_def. Qed.

Lemma view_bind_undisturbed X v x m rs p b : alone (v_tree v) (v_bindings v) p b -> view_bind X v x = Ok (m, rs) ->
  Forall (fun r => ~ disturbs (v_tree v) (slot_of (bd_params b)) (fst (writes r))) rs.
Proof.
  intros Ha H. unfold view_bind in H. apply bindR_Ok in H as ([[m' ch] rs'] & H & [= <- <-]).
  eapply bind_reacts; [|exact H]. intros q w rs Hr. eapply Forall_impl; [|by eapply react_from]. cbv beta.
  intros r (b' & w' & Hb' & ->). rewrite react_expected, writes_expected. by apply (Ha _ _ Hb').
Qed.
Lemma view_bind_in_text X v x m rs : sound v -> view_bind X v x = Ok (m, rs) -> Forall (in_text (v_tree v)) rs.
Proof.
  intros Hs H. unfold view_bind in H. apply bindR_Ok in H as ([[m' ch] rs'] & H & [= <- <-]).
  eapply bind_reacts; [|exact H]. intros q w rs Hr. eapply Forall_impl; [|by eapply react_from]. cbv beta.
  intros r (b' & w' & Hb' & ->) n i y Hy. apply (so_bind _ Hs) in Hb'. unfold binding_ok in Hb'. unfold react_value_change in Hy.
  destruct (bd_params b'); try done; [|by destruct (as_array w')]. injection Hy as -> -> _. destruct Hb' as (e & spans & He & Ht & Hlt).
  unfold text_span. rewrite He. cbn. rewrite Ht. cbn. by apply lookup_lt_is_Some.
Qed.

Lemma shown_shows t t' l w : same_shown t t' -> shows t l w -> shows t' l w.
Proof.
  intros H. destruct l, w; cbn [shows]; try done.
  - by rewrite (shown_text _ _ _ _ H).
  - by rewrite (shown_attr_spans _ _ _ _ H).
  - by rewrite (shown_attr _ _ _ _ H).
  - by rewrite (shown_attached _ _ _ H).
  - by rewrite (shown_attached _ _ _ H), (same_def_defined _ _ _ (shown_def _ _ H)).
Qed.

Lemma update_slot X fuel v i x v' o sh pos b :
  sound v -> shaped sh v -> fits sh x = true -> obj_sorted (v_bindings v) = true -> update X fuel v i x = Ok (v', o) ->
  In (pointer_string pos, b) (flat (v_bindings v)) -> alone (v_tree v) (v_bindings v) (pointer_string pos) b -> is_Some (shape_at sh pos) ->
  (forall w, is_change sh (v_model v) x pos w -> exists w', piped (v_transformers v) (bd_pipe b) w w' /\
     shows (v_tree v') (slot_of (bd_params b)) (wanted (x_fmt_f64 X) b w')) /\
  ((forall w, ~ is_change sh (v_model v) x pos w) -> forall z, shows (v_tree v) (slot_of (bd_params b)) z -> shows (v_tree v') (slot_of (bd_params b)) z) /\
  same_definitions (v_tree v) (v_tree v').
Proof.
  intros Hso Hs Hf Hsrt H Hin Hal Hsh. apply update_content in H as (m & rs & t & ids & Hb & Ht & Hm' & _ & Hc & Hbs & _ & Htr & _).
  pose proof (content_shown _ _ Hc) as Hcs. pose proof (view_bind_reactions_ok _ _ _ _ _ Hso Hb) as Hok.
  destruct (slot_told X v sh x m rs pos b Hs Hf Hb Hsrt Hin Hal Hsh) as [T1 T2].
  pose proof (update_trees_shows (x_read_inline_css X) (slot_of (bd_params b)) rs (v_tree v) (v_ids v) (v_root v) t ids (so_live _ Hso) Hok
    (view_bind_in_text _ _ _ _ _ Hso Hb) (view_bind_undisturbed _ _ _ _ _ _ _ Hal Hb) Ht) as Hshow.
  split; [|split].
  - intros w Hw. destruct (T1 _ Hw) as (w' & Hp & Hl). exists w'. split; [done|]. eapply shown_shows; [exact Hcs|]. apply Hshow. by left.
  - intros Hno z Hz. eapply shown_shows; [exact Hcs|]. apply Hshow. right. split; [by apply T2|done].
  - destruct (update_trees_ok (x_read_inline_css X) rs (v_tree v) (v_ids v) (v_root v) (so_live _ Hso) Hok) as (t2 & ids2 & H2 & _ & Hd).
    rewrite Ht in H2. injection H2 as <- <-. eapply same_def_trans; [exact Hd|by apply shown_def].
Qed.

(** ** All updates: scalar positions *)
Definition current X (v : View) (pos : position_) (b : Binding) : Prop := forall w,
  value_at (v_model v) pos = Some w -> w <> JNull -> exists w', piped (v_transformers v) (bd_pipe b) w w' /\
  shows (v_tree v) (slot_of (bd_params b)) (wanted (x_fmt_f64 X) b w').

Lemma update_current X fuel v i x v' o sh pos b :
  sound v -> shaped sh v -> fits sh x = true -> obj_sorted (v_bindings v) = true -> update X fuel v i x = Ok (v', o) ->
  In (pointer_string pos, b) (flat (v_bindings v)) -> alone (v_tree v) (v_bindings v) (pointer_string pos) b -> shape_at sh pos = Some SLeaf ->
  current X v pos b -> current X v' pos b.
Proof.
  intros Hso Hs Hf Hsrt H Hin Hal Hsh Hcur w Hw Hn.
  destruct (update_slot X fuel v i x v' o sh pos b Hso Hs Hf Hsrt H Hin Hal ltac:(eauto)) as (U1 & U2 & _).
  destruct (update_shaped _ _ _ _ _ _ _ _ Hs Hf H) as [_ Hm]. apply update_content in H as (_ & _ & _ & _ & _ & _ & _ & _ & _ & _ & _ & Htr & _).
  rewrite Htr. rewrite Hm in Hw. destruct Hs as (Hwf & Hdf & Hmo).
  destruct (merge_at pos sh SLeaf (v_model v) x w Hwf Hmo Hf Hsh Hw) as (Hwe & Hpr & _). cbn [merge project] in Hwe, Hpr.
  destruct (json_eq (old_value sh (v_model v) pos) (source x pos)) eqn:E.
  - destruct (Hcur w) as (w' & Hp & Hsw); [rewrite Hwe in Hn |- *; by apply (old_leaf sh)|done|].
    exists w'. split; [done|]. apply U2; [|done].
    intros z Hz. unfold is_change, value_change in Hz. rewrite Hsh in Hz. destruct Hz as [Hz1 Hz2]. rewrite Hpr in Hz1. injection Hz1 as <-. congruence.
  - destruct (U1 (source x pos)) as (w2 & Hp2 & Hsw).
    + unfold is_change, value_change. rewrite Hsh. done.
    + rewrite Hwe. by exists w2.
Qed.
