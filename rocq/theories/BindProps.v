(** * View-level facts about binding: proofs of C01-C04. *)
From Coq Require Import ZArith Lia.
From stdpp Require Import gmap.
From RecordUpdate Require Import RecordUpdate.
From Verif Require Import Str StrFacts F32 Res ResFacts Json JsonFacts PropKey Html Css Element Tree ViewModel Render Update Matching
  Cascade Initial Animation Apply Styling Events View BindFacts SpecBind ConformFacts ChangeFacts FrameFacts SpecReact SpecView.

(** ** C01 *)
Lemma update_again X fuel v i1 x v1 o1 : json_wf x = true -> update X fuel v i1 x = Ok (v1, o1) ->
  view_bind X v1 x = Ok (v_model v1, []) /\
  forall i2 v2 o2, update X fuel v1 i2 x = Ok (v2, o2) ->
    v_model v2 = v_model v1 /\ v_ids v2 = v_ids v1 /\ same_content (v_tree v1) (v_tree v2).
Proof.
  intros Hw H. apply update_content in H as (m & rs & t & ids & Hb & Ht & Hm & Hi & Hs & Hbs & Hd & Htr & _).
  unfold view_bind in Hb. apply bindR_Ok in Hb as ([[m' ch] rs'] & Hb & Heq). injection Heq as -> ->.
  pose proof (bind_again _ _ _ _ x Hw _ _ _ _ _ _ Hb) as Ha.
  assert (Hv : view_bind X v1 x = Ok (v_model v1, [])).
  { unfold view_bind. rewrite Hbs, Htr, Hd, Hm, Ha. done. }
  split; [done|]. intros i2 v2 o2 H2.
  apply update_content in H2 as (m2 & rs2 & t2 & ids2 & Hb2 & Ht2 & Hm2 & Hi2 & Hs2 & _).
  rewrite Hv in Hb2. injection Hb2 as <- <-. cbn in Ht2. injection Ht2 as <- <-. by rewrite Hm2, Hi2.
Qed.

(** ** Views of a shape *)
Definition shaped (sh : shape) (v : View) : Prop :=
  wf_shape sh = true /\ defaults_ok (v_defaults v) "" sh /\ model_of sh (v_model v) = true.

Lemma from_document_shaped X fuel doc css v sh :
  from_document X fuel doc css = Ok v -> v_model v = initial_model sh -> wf_shape sh = true -> shaped sh v.
Proof.
  unfold from_document. destruct (scan_document _ _) as [templates body]. intros H Hm Hw.
  apply bindR_Ok in H as ([[r root] b] & Hr & H). apply bindR_Ok in H as (d & Hd & H).
  apply bindR_Ok in H as (t & Ht & H). apply bindR_Ok in H as ([t2 ids] & Ht2 & H). injection H as <-.
  cbn in Hm. destruct (memorize_ok sh Hw "" ∅) as (D & HD & Hok & _).
  rewrite Hm in Hd. rewrite Hd in HD. injection HD as <-.
  split; [done|]. split; [done|]. cbn. rewrite Hm. apply initial_model_of.
Qed.

Lemma view_bind_shaped X v sh x : shaped sh v -> fits sh x = true ->
  view_bind X v x =
  (do! rs <- notify (x_fmt_f64 X) (v_bindings v) (v_transformers v) "" (changes sh (v_model v) x);
   Ok (merge sh (v_model v) x, rs)).
Proof.
  intros (Hw & Hd & Hm) Hf. unfold view_bind. rewrite (bind_conform _ _ _ _ sh Hw _ _ _ _ Hd Hm Hf).
  unfold outcome. by destruct (notify _ _ _ _ _).
Qed.

Lemma update_shaped X fuel v i x v' o sh : shaped sh v -> fits sh x = true -> update X fuel v i x = Ok (v', o) ->
  shaped sh v' /\ v_model v' = merge sh (v_model v) x.
Proof.
  intros Hs Hf H. pose proof Hs as (Hw & Hd & Hm).
  apply update_content in H as (m & rs & t & ids & Hb & Ht & Hm' & Hi & Hc & Hbs & Hd' & Htr & _).
  rewrite (view_bind_shaped X v sh x Hs Hf) in Hb. apply bindR_Ok in Hb as (rs0 & _ & Hb). injection Hb as <- <-.
  split; [|done]. split; [done|]. rewrite Hd', Hm'. split; [done|]. by apply merge_model.
Qed.

Lemma updates_shaped X fuel sh : forall hist v v' os, shaped sh v ->
  Forall (fun x => fits sh (snd x) = true) hist -> updates X fuel v hist = Ok (v', os) -> shaped sh v'.
Proof.
  induction hist as [|[i x] hist IH]; intros v v' os Hs Hf H; cbn [updates] in H; [by injection H as <- _|].
  apply bindR_Ok in H as ([v1 o1] & H1 & H). apply bindR_Ok in H as ([v2 os2] & H2 & H). injection H as <- <-.
  inversion Hf as [|? ? Hx Hf']; subst. cbn in Hx.
  destruct (update_shaped _ _ _ _ _ _ _ _ Hs Hx H1) as [Hs1 _]. by eapply IH.
Qed.

Lemma updates_snoc X fuel : forall hist v i x v' os, updates X fuel v (hist ++ [(i, x)]) = Ok (v', os) ->
  exists v1 os1 o, updates X fuel v hist = Ok (v1, os1) /\ update X fuel v1 i x = Ok (v', o) /\ os = os1 ++ [o].
Proof.
  induction hist as [|[i0 x0] hist IH]; intros v i x v' os H; cbn [app updates] in H.
  - apply bindR_Ok in H as ([v1 o1] & H1 & H). cbn in H. injection H as <- <-. by exists v, [], o1.
  - apply bindR_Ok in H as ([v1 o1] & H1 & H). apply bindR_Ok in H as ([v2 os2] & H2 & H). injection H as <- <-.
    apply IH in H2 as (v3 & os3 & o & H2 & H3 & ->). exists v3, (o1 :: os3), o. cbn [updates]. rewrite H1. cbn [bindR].
    by rewrite H2.
Qed.

(** ** C02 *)
Lemma last_value_only X fuel doc css v0 sh hist i x v os :
  from_document X fuel doc css = Ok v0 -> v_model v0 = initial_model sh -> wf_shape sh = true ->
  Forall (fun e => fits sh (snd e) = true) (hist ++ [(i, x)]) -> json_wf x = true ->
  updates X fuel v0 (hist ++ [(i, x)]) = Ok (v, os) ->
  json_eq (v_model v) (project sh x) = true.
Proof.
  intros H0 Hm Hw Hf Hx H. pose proof (from_document_shaped _ _ _ _ _ _ H0 Hm Hw) as Hs.
  apply updates_snoc in H as (v1 & os1 & o & H1 & H2 & _).
  apply Forall_app in Hf as [Hf1 Hf2]. inversion Hf2 as [|? ? Hfx _]; subst. cbn in Hfx.
  pose proof (updates_shaped _ _ _ _ _ _ _ Hs Hf1 H1) as Hs1.
  destruct (update_shaped _ _ _ _ _ _ _ _ Hs1 Hfx H2) as [_ ->].
  destruct Hs1 as (_ & _ & Hm1). by apply merge_project.
Qed.

(** ** C03 *)
Lemma run_pipe_piped tr pipe w w' : run_pipe tr pipe w = Ok w' <-> piped tr pipe w w'.
Proof.
  revert w; induction pipe as [|name pipe IH]; intros w; cbn [run_pipe].
  - split; [intros [= <-]; constructor|by inversion 1].
  - destruct (tr !! name) as [f|] eqn:E.
    + split.
      * intros H. inv_ok. econstructor; [done..|]. by apply IH.
      * intros H. inversion H as [|? ? ? ? Hn|? f' ? ? w1 ? Hn Hf Hp]; subst; [congruence|].
        rewrite E in Hn. injection Hn as <-. rewrite Hf. cbn. by apply IH.
    + rewrite IH. split; [by constructor|]. intros H. inversion H; subst; [done|congruence].
Qed.

Lemma react_expected fmt b w : react_value_change fmt b w = expected fmt (bd_params b) w.
Proof.
  unfold react_value_change, expected. destruct (bd_params b); try done.
  - f_equal. by destruct (eval_boolean w), visible.
  - destruct w; cbn [as_array items List.length]; try (by rewrite Nat.min_0_r, Nat.add_0_r).
    destruct (Nat.ltb_spec size (List.length l)); f_equal; lia.
Qed.

Lemma react_told fmt bs tr p w rs : react fmt bs tr (pointer_string p) w = Ok rs <-> told fmt bs tr p w rs.
Proof.
  unfold react, told. destruct (obj_get (pointer_string p) bs) as [l|].
  - rewrite mapR_Forall2. split; intros H; (eapply Forall2_impl; [exact H|]); intros b r Hb.
    + apply bindR_Ok in Hb as (w1 & Hw1 & Hb). injection Hb as <-. exists w1. rewrite react_expected. split; [by apply run_pipe_piped|done].
    + destruct Hb as (w' & Hp & ->). apply run_pipe_piped in Hp. rewrite Hp. cbn. by rewrite react_expected.
  - split; [intros [= <-]; constructor|by inversion 1].
Qed.

Lemma notify_told fmt bs tr l rs : notify fmt bs tr "" l = Ok rs ->
  exists rss, Forall2 (fun c rs => told fmt bs tr (fst c) (snd c) rs) l rss /\ rs = List.concat rss.
Proof.
  revert rs; induction l as [|[p w] l IH]; intros rs H; cbn [notify] in H.
  - injection H as <-. exists []. split; [constructor|done].
  - apply bindR_Ok in H as (a & Ha & H). apply bindR_Ok in H as (b & Hb & H). injection H as <-.
    apply IH in Hb as (rss & Hf & ->). exists (a :: rss). split; [|done]. constructor; [|done].
    cbn [fst snd]. apply react_told. exact Ha.
Qed.

Lemma is_change_shape sh m v p w : is_change sh m v p w -> is_Some (shape_at sh p).
Proof. unfold is_change, value_change. intros H. destruct (shape_at sh p); [eauto|done]. Qed.

Lemma every_change_reported X v sh x m rs :
  shaped sh v -> fits sh x = true -> view_bind X v x = Ok (m, rs) ->
  exists cs rss,
    (forall p w, In (p, w) cs <-> is_change sh (v_model v) x p w) /\
    NoDup (map (fun c => pointer_string (fst c)) cs) /\
    Forall2 (fun c r => told (x_fmt_f64 X) (v_bindings v) (v_transformers v) (fst c) (snd c) r) cs rss /\
    rs = List.concat rss.
Proof.
  intros Hs Hf Hb. pose proof Hs as (Hw & Hd & Hm). rewrite (view_bind_shaped _ _ _ _ Hs Hf) in Hb.
  apply bindR_Ok in Hb as (rs' & Hn & Hb). injection Hb as <- <-.
  apply notify_told in Hn as (rss & Hr & ->). exists (changes sh (v_model v) x), rss.
  pose proof (changes_char sh Hw _ _ Hm Hf) as Hchar.
  split; [exact Hchar|]. split; [|done].
  pose proof (changes_NoDup sh Hw (v_model v) x) as Hnd.
  assert (Hall : Forall (fun c => is_Some (shape_at sh (fst c))) (changes sh (v_model v) x)).
  { apply List.Forall_forall. intros [p w] Hin. cbn. apply Hchar in Hin. by eapply is_change_shape. }
  revert Hnd Hall. generalize (changes sh (v_model v) x) as l. clear - Hw.
  induction l as [|[p w] l IH]; intros Hnd Hall; cbn [map fst]; [constructor|].
  cbn [map fst] in Hnd. inversion Hnd as [|? ? Hni Hnd']; subst. inversion Hall as [|? ? Hp Hall']; subst. cbn in Hp.
  constructor; [|by apply IH]. intros Hin. apply Hni.
  apply elem_of_list_In, in_map_iff in Hin as ([q w'] & Hq & Hin). cbn in Hq.
  rewrite List.Forall_forall in Hall'. specialize (Hall' _ Hin). cbn in Hall'.
  apply (pointer_string_inj sh Hw) in Hq; [|done..]. subst q. apply elem_of_list_In, in_map_iff. by exists (p, w').
Qed.

(** ** C04 *)
Lemma react_total fmt bs tr p w : (forall name f x, tr !! name = Some f -> is_ok (f x) = true) ->
  exists rs, react fmt bs tr p w = Ok rs.
Proof.
  intros Ht. unfold react. destruct (obj_get p bs) as [l|]; [|eauto].
  assert (Hp : forall pipe w, exists w', run_pipe tr pipe w = Ok w').
  { induction pipe as [|name pipe IH]; intros w0; cbn [run_pipe]; [eauto|].
    destruct (tr !! name) as [f|] eqn:E; [|auto]. specialize (Ht _ _ w0 E). destruct (f w0); try done. cbn. auto. }
  induction l as [|b l [rs IH]]; cbn [mapR]; [eauto|]. destruct (Hp (bd_pipe b) w) as (w' & ->). cbn. rewrite IH. cbn. eauto.
Qed.

Lemma notify_total fmt bs tr p l : (forall name f x, tr !! name = Some f -> is_ok (f x) = true) ->
  exists rs, notify fmt bs tr p l = Ok rs.
Proof.
  intros Ht. induction l as [|[q w] l [rs IH]]; cbn [notify]; [eauto|].
  destruct (react_total fmt bs tr (p +:+ pointer_string q) w Ht) as (rs1 & ->). cbn. rewrite IH. cbn. eauto.
Qed.

Lemma binding_total X fuel doc css v0 sh hist v os x :
  from_document X fuel doc css = Ok v0 -> v_model v0 = initial_model sh -> wf_shape sh = true ->
  Forall (fun e => fits sh (snd e) = true) hist -> updates X fuel v0 hist = Ok (v, os) ->
  (forall name f y, v_transformers v !! name = Some f -> is_ok (f y) = true) ->
  fits sh x = true -> exists m rs, view_bind X v x = Ok (m, rs).
Proof.
  intros H0 Hm Hw Hf H Ht Hx. pose proof (from_document_shaped _ _ _ _ _ _ H0 Hm Hw) as Hs.
  pose proof (updates_shaped _ _ _ _ _ _ _ Hs Hf H) as Hs1.
  rewrite (view_bind_shaped _ _ _ _ Hs1 Hx).
  destruct (notify_total (x_fmt_f64 X) (v_bindings v) (v_transformers v) "" (changes sh (v_model v) x) Ht) as (rs & ->).
  cbn. eauto.
Qed.

Lemma every_change_reported_history X fuel doc css v0 sh hist v os x m rs :
  from_document X fuel doc css = Ok v0 -> v_model v0 = initial_model sh -> wf_shape sh = true ->
  Forall (fun e => fits sh (snd e) = true) hist -> updates X fuel v0 hist = Ok (v, os) ->
  fits sh x = true -> view_bind X v x = Ok (m, rs) ->
  exists cs rss,
    (forall p w, In (p, w) cs <-> is_change sh (v_model v) x p w) /\
    NoDup (map (fun c => pointer_string (fst c)) cs) /\
    Forall2 (fun c r => told (x_fmt_f64 X) (v_bindings v) (v_transformers v) (fst c) (snd c) r) cs rss /\
    rs = List.concat rss.
Proof.
  intros H0 Hm Hw Hf H Hx Hb. pose proof (from_document_shaped _ _ _ _ _ _ H0 Hm Hw) as Hs.
  pose proof (updates_shaped _ _ _ _ _ _ _ Hs Hf H) as Hs1. by eapply every_change_reported.
Qed.
