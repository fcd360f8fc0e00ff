(** * What the list of changes contains (C02, C03). *)
From Coq Require Import ZArith Lia.
From stdpp Require Import gmap.
From RecordUpdate Require Import RecordUpdate.
From Verif Require Import Str StrFacts F32 Res ResFacts Json JsonFacts PropKey Html Css Element ViewModel BindFacts SpecBind
  ConformFacts.

Lemma repeat_lookup {A} (d : A) n i : (i < n)%nat -> repeat d n !! i = Some d.
Proof. revert i; induction n as [|n IH]; intros i H; [lia|]. destruct i; simpl; [done|]. apply IH. lia. Qed.
Lemma repeat_lookup_inv {A} (d x : A) n i : repeat d n !! i = Some x -> x = d.
Proof. revert i; induction n as [|n IH]; intros i H; [done|]. destruct i; simpl in H; [congruence|]. eauto. Qed.

Lemma obj_get_map {A B} (f : string * A -> B) k m :
  obj_get k (map (fun e => (fst e, f e)) m) = match obj_get k m with Some a => Some (f (k, a)) | None => None end.
Proof.
  induction m as [|[k' a] m IH]; simpl; [done|]. destruct (String.eqb_spec k k') as [->|]; [done|exact IH].
Qed.

Lemma model_of_list n s m : model_of (SList n s) m = true -> exists l, m = JArr l /\ forallb (model_of s) l = true.
Proof. cbn. destruct m; try done. eauto. Qed.
Lemma model_of_record fs m : model_of (SRecord fs) m = true -> exists o, m = JObj o /\ map fst o = map fst fs /\
  forall k s, obj_get k fs = Some s -> exists d, obj_get k o = Some d /\ model_of s d = true.
Proof.
  intros H. destruct m as [| | | | |o]; try done. exists o. split; [done|]. apply model_of_fields in H.
  split.
  - induction H as [|[? ?] [? ?] ? ? [? ?]]; simpl in *; [done|congruence].
  - intros k s. induction H as [|[k1 s1] [k2 d2] fs o [Hk Hm] H IH]; simpl in *; [done|]. subst k2.
    destruct (String.eqb_spec k k1); [intros [= <-]; eauto|auto].
Qed.

(** initial values do not depend on indices *)
Lemma initial_zeroed sh : wf_shape sh = true -> forall p x,
  value_at (initial_model sh) p = Some x -> value_at (initial_model sh) (zeroed p) = Some x.
Proof.
  induction sh as [|n s IH|fs IH] using shape_ind'; intros Hw p x H.
  - destruct p as [|[k|i] p]; done.
  - cbn [wf_shape] in Hw. apply andb_prop in Hw as [Hw Hs]. apply andb_prop in Hw as [Hn Hl].
    apply Nat.leb_le in Hn.
    destruct p as [|[k|i] p]; try done. cbn [zeroed map].
    cbn [value_at step_at initial_model] in *. rewrite repeat_lookup by lia.
    destruct (repeat (initial_model s) n !! i) as [y|] eqn:E; [|done].
    apply repeat_lookup_inv in E as ->. by apply IH.
  - destruct p as [|[k|i] p]; try done. cbn [zeroed map].
    cbn [value_at step_at initial_model] in *.
    rewrite (obj_get_map (fun e => initial_model (snd e))) in H |- *.
    destruct (obj_get k fs) as [s|] eqn:E; [|done]. cbn [snd] in *.
    cbn [wf_shape] in Hw. apply andb_prop in Hw as [_ Hws].
    apply obj_get_In in E. rewrite List.Forall_forall in IH. apply (IH _ E); [|done].
    rewrite List.forallb_forall in Hws. exact (Hws _ E).
Qed.

Lemma old_value_initial s p : wf_shape s = true ->
  old_value s (initial_model s) p = match value_at (initial_model s) (zeroed p) with Some v => v | None => JNull end.
Proof.
  intros Hw. unfold old_value. destruct (value_at (initial_model s) p) as [x|] eqn:E; [|done].
  by rewrite (initial_zeroed _ Hw _ _ E).
Qed.

Definition old_item (s : shape) (m : json) (j : nat) : json :=
  match items m !! j with Some o => o | None => initial_model s end.

Lemma old_value_index n s m j p : wf_shape (SList n s) = true -> model_of (SList n s) m = true ->
  old_value (SList n s) m (Index j :: p) = old_value s (old_item s m j) p.
Proof.
  intros Hw Hm. apply model_of_list in Hm as (l & -> & _).
  cbn [wf_shape] in Hw. apply andb_prop in Hw as [Hw Hs]. apply andb_prop in Hw as [Hn Hl].
  apply Nat.leb_le in Hn.
  unfold old_item. cbn [items]. unfold old_value at 1. cbn [value_at step_at zeroed map initial_model].
  rewrite repeat_lookup by lia.
  destruct (l !! j) as [o|] eqn:E; [|by rewrite old_value_initial]. done.
Qed.

Lemma old_value_key fs m k s p : model_of (SRecord fs) m = true -> obj_get k fs = Some s ->
  old_value (SRecord fs) m (Key k :: p) = old_value s (field m k) p.
Proof.
  intros Hm Hk. apply model_of_record in Hm as (o & -> & _ & Ho).
  destruct (Ho _ _ Hk) as (d & Hd & _).
  unfold old_value. cbn [value_at step_at zeroed map initial_model field].
  rewrite Hd, (obj_get_map (fun e => initial_model (snd e))), Hk. done.
Qed.

Lemma source_key v k p : source v (Key k :: p) = source (field v k) p.
Proof.
  unfold source. destruct v; cbn [value_at step_at field]; try (destruct p as [|[?|?] ?]; done).
  destruct (obj_get k m); [done|]. destruct p as [|[?|?] ?]; done.
Qed.
Lemma source_index v j x p : items v !! j = Some x -> source v (Index j :: p) = source x p.
Proof. unfold source. destruct v; cbn [value_at step_at items]; try done. by intros ->. Qed.

Lemma value_change_index n s m v j p w : wf_shape (SList n s) = true -> model_of (SList n s) m = true ->
  value_change (SList n s) m v (Index j :: p) w <->
  exists x, items v !! j = Some x /\ value_change s (old_item s m j) x p w.
Proof.
  intros Hw Hm. unfold value_change. cbn [shape_at project].
  rewrite (old_value_index n s m j p Hw Hm). cbn [value_at step_at].
  rewrite (list_lookup_fmap (project s) (items v) j : map (project s) (items v) !! j = _).
  destruct (items v !! j) as [x|] eqn:Ex; cbn [fmap option_fmap option_map].
  - rewrite (source_index _ _ _ p Ex). split; [intros H; by exists x|intros (y & [= <-] & H); done].
  - destruct (shape_at s p) as [[| |]|]; split; try done; intros H; try (by destruct H as (? & ? & ?)); by destruct H.
Qed.

Lemma value_change_key fs m v k p w : model_of (SRecord fs) m = true ->
  value_change (SRecord fs) m v (Key k :: p) w <->
  exists s, obj_get k fs = Some s /\ value_change s (field m k) (field v k) p w.
Proof.
  intros Hm. unfold value_change. cbn [shape_at project].
  destruct (obj_get k fs) as [s|] eqn:Ek; [|split; [done|by intros (? & ? & ?)]].
  rewrite (old_value_key fs m k s p Hm Ek), source_key. cbn [value_at step_at].
  rewrite (obj_get_map (fun e => project (snd e) (field v (fst e)))), Ek. cbn [fst snd].
  split; [intros H; by exists s|intros (? & [= <-] & H); done].
Qed.

Lemma in_under s l p (w : json) : In (p, w) (under s l) <-> exists p', p = s :: p' /\ In (p', w) l.
Proof.
  unfold under. rewrite in_map_iff. split.
  - intros ([p' w'] & [= <- <-] & H). by exists p'.
  - intros (p' & -> & H). by exists (p', w).
Qed.

Lemma in_item_changes item d : forall next old i p w,
  In (p, w) (item_changes item d old next i) <->
  exists j x p', next !! j = Some x /\ p = Index (i + j) :: p' /\
     In (p', w) (item (match old !! j with Some o => o | None => d end) x).
Proof.
  induction next as [|v next IH]; intros old i p w.
  - split; [done|]. by intros (j & x & p' & H & _).
  - assert (Hgen : forall o old', (forall j, (match old with [] => [] | _ :: l => l end) !! j = old' !! j) ->
       o = match old !! 0%nat with Some o => o | None => d end ->
       In (p, w) (under (Index i) (item o v) ++ item_changes item d old' next (S i)) <->
       exists j x p', (v :: next) !! j = Some x /\ p = Index (i + j) :: p' /\
         In (p', w) (item (match old !! j with Some o => o | None => d end) x)).
    { intros o old' Hold ->. rewrite in_app_iff, in_under, IH. split.
      - intros [(p' & -> & H)|(j & x & p' & Hj & -> & H)].
        + exists 0%nat, v, p'. rewrite Nat.add_0_r. done.
        + exists (S j), x, p'. split; [done|]. split; [by rewrite Nat.add_succ_r|].
          rewrite <- Hold in H. destruct old as [|o old]; exact H.
      - intros ([|j] & x & p' & Hj & -> & H).
        + left. exists p'. rewrite Nat.add_0_r. split; [done|]. cbn in Hj. by injection Hj as <-.
        + right. exists j, x, p'. split; [done|]. split; [by rewrite Nat.add_succ_r|].
          rewrite <- Hold. destruct old as [|o old]; exact H. }
    destruct old as [|o old]; cbn [item_changes]; apply Hgen; done.
Qed.

Definition char (sh : shape) : Prop := wf_shape sh = true -> forall m v, model_of sh m = true -> fits sh v = true ->
  forall p w, In (p, w) (changes sh m v) <-> is_change sh m v p w.

(** a nonempty list of changes contains a value change *)
Lemma is_change_value sh m v p w : is_change sh m v p w -> exists q w', value_change sh m v (p ++ q) w'.
Proof.
  unfold is_change. intros H. destruct (shape_at sh p) as [[| |]|] eqn:E; try (exists [], w; by rewrite app_nil_r).
  by destruct H.
Qed.

Lemma value_change_is sh m v p w : value_change sh m v p w -> is_change sh m v p w.
Proof. unfold is_change, value_change. by destruct (shape_at sh p) as [[| |]|]. Qed.

Lemma is_change_key fs m v k p w : model_of (SRecord fs) m = true ->
  is_change (SRecord fs) m v (Key k :: p) w <->
  exists s, obj_get k fs = Some s /\ is_change s (field m k) (field v k) p w.
Proof.
  intros Hm. unfold is_change. cbn [shape_at].
  destruct (obj_get k fs) as [s|] eqn:Ek.
  - assert (Hv : forall p w, value_change (SRecord fs) m v (Key k :: p) w <-> value_change s (field m k) (field v k) p w).
    { intros p' w'. rewrite value_change_key by done. rewrite Ek. split; [by intros (? & [= <-] & ?)|eauto]. }
    transitivity (is_change s (field m k) (field v k) p w); [|split; [eauto|by intros (? & [= <-] & ?)]].
    unfold is_change. cbn [app]. rewrite source_key.
    destruct (shape_at s p) as [[| |]|]; try apply Hv.
    split; intros [(q & w' & H) ?]; (split; [|done]); exists q, w'; by apply Hv.
  - split; [|by intros (? & ? & ?)]. rewrite value_change_key by done. rewrite Ek. intros (? & ? & ?). done.
Qed.

Lemma is_change_index n s m v j p w : wf_shape (SList n s) = true -> model_of (SList n s) m = true ->
  is_change (SList n s) m v (Index j :: p) w <->
  exists x, items v !! j = Some x /\ is_change s (old_item s m j) x p w.
Proof.
  intros Hw Hm. unfold is_change. cbn [shape_at]. cbn [app].
  destruct (shape_at s p) as [[| |]|]; try by rewrite (value_change_index n s m v j _ _ Hw Hm).
  setoid_rewrite (value_change_index n s m v j _ _ Hw Hm).
  split.
  - intros [(q & w' & x & Hx & H) ->]. exists x. rewrite (source_index _ _ _ p Hx). split; [done|]. split; [|done]. eauto.
  - intros (x & Hx & (q & w' & H) & ->). rewrite (source_index _ _ _ p Hx). split; [|done]. eauto 6.
Qed.

Lemma item_fits n s v j x : fits (SList n s) v = true -> items v !! j = Some x -> fits s x = true.
Proof.
  intros Hf H. destruct v; cbn [items] in H; try done. cbn [fits] in Hf.
  rewrite List.forallb_forall in Hf. apply Hf. apply elem_of_list_In. by eapply elem_of_list_lookup_2.
Qed.
Lemma old_item_model n s m j : model_of (SList n s) m = true -> model_of s (old_item s m j) = true.
Proof.
  intros Hm. apply model_of_list in Hm as (l & -> & Hl). unfold old_item. cbn [items].
  destruct (l !! j) as [o|] eqn:E; [|apply initial_model_of].
  rewrite List.forallb_forall in Hl. apply Hl, elem_of_list_In. by eapply elem_of_list_lookup_2.
Qed.
Lemma field_fits fs v k s : fits (SRecord fs) v = true -> obj_get k fs = Some s -> fits s (field v k) = true.
Proof.
  intros Hf H. destruct v; try done; [apply fits_null|]. cbn [fits] in Hf.
  rewrite List.forallb_forall in Hf. apply obj_get_In in H. exact (Hf _ H).
Qed.

Theorem changes_char sh : char sh.
Proof.
  induction sh as [|n s IH|fs IH] using shape_ind'; intros Hw m v Hm Hf p w.
  - cbn [changes]. destruct p as [|[k|i] p].
    + unfold is_change, value_change, old_value. cbn [shape_at project value_at].
      destruct (json_eq m v) eqn:E; cbn [In].
      * split; [done|]. intros [[= <-] H]. congruence.
      * split; [intros [[= <-]|[]]; done|]. intros [[= <-] _]. by left.
    + destruct (json_eq m v); cbn [In]; split; try done. intros [[=]|[]].
    + destruct (json_eq m v); cbn [In]; split; try done. intros [[=]|[]].
  - pose proof Hw as Hw0. cbn [wf_shape] in Hw. apply andb_prop in Hw as [_ Hs].
    cbn [changes]. rewrite in_app_iff, in_item_changes. destruct p as [|[k|j] p].
    + transitivity (In (([] : position_), w) (if Nat.eqb (List.length (items m)) (List.length (items v)) then [] else [([], JArr (items v))])).
      { split; [|by left]. intros [H|(j & x & p' & _ & [=] & _)]. done. }
      unfold is_change, value_change, old_value, source. cbn [shape_at project value_at].
      destruct (Nat.eqb_spec (List.length (items m)) (List.length (items v))) as [He|He]; cbn [In].
      * split; [done|]. intros (l & [= <-] & H & _). by rewrite map_length in H.
      * split.
        -- intros [[= <-]|[]]. eexists. split; [done|]. by rewrite map_length.
        -- intros (l & _ & _ & ->). by left.
    + split; [|done]. intros [H|(j & x & p' & _ & [=] & _)].
      destruct (Nat.eqb _ _); [done|]. by destruct H as [[=]|[]].
    + rewrite (is_change_index n s m v j p w Hw0 Hm). split.
      * intros [H|(j' & x & p' & Hx & [= -> ->] & H)].
        { destruct (Nat.eqb _ _); [done|]. by destruct H as [[=]|[]]. }
        exists x. split; [done|]. apply IH; [done|by eapply old_item_model|by eapply item_fits|exact H].
      * intros (x & Hx & H). right. exists j, x, p. split; [done|]. split; [done|].
        apply IH in H; [exact H|done|by eapply old_item_model|by eapply item_fits].
  - pose proof Hw as Hw0. cbn [wf_shape] in Hw. apply andb_prop in Hw as [Hw Hws]. apply andb_prop in Hw as [Hsort Hns].
    pose proof (obj_sorted_NoDup _ Hsort) as Hnd.
    cbn [changes].
    set (inner := flat_map (fun e => under (Key (fst e)) (changes (snd e) (field m (fst e)) (field v (fst e)))) fs).
    assert (Hin : forall p w, In (p, w) inner <-> exists k p', p = Key k :: p' /\ is_change (SRecord fs) m v p w).
    { intros p' w'. unfold inner. rewrite in_flat_map. split.
      - intros ([k s] & Hks & H). cbn [fst snd] in H. apply in_under in H as (q & -> & H).
        exists k, q. split; [done|]. apply is_change_key; [done|]. exists s.
        pose proof (obj_get_NoDup _ _ _ Hnd Hks) as Hk.
        split; [done|]. rewrite List.Forall_forall in IH. apply (IH _ Hks); [| | |exact H].
        + rewrite List.forallb_forall in Hws. exact (Hws _ Hks).
        + pose proof Hm as Hm'. apply model_of_record in Hm' as (o & -> & _ & Ho). destruct (Ho _ _ Hk) as (d & Hd & Hmd).
          cbn [field]. by rewrite Hd.
        + by eapply field_fits.
      - intros (k & q & -> & H). apply is_change_key in H as (s & Hk & H); [|done].
        exists (k, s). pose proof (obj_get_In _ _ _ Hk) as Hks. split; [done|]. cbn [fst snd].
        apply in_under. exists q. split; [done|]. rewrite List.Forall_forall in IH. apply (IH _ Hks); [| | |exact H].
        + rewrite List.forallb_forall in Hws. exact (Hws _ Hks).
        + pose proof Hm as Hm'. apply model_of_record in Hm' as (o & -> & _ & Ho). destruct (Ho _ _ Hk) as (d & Hd & Hmd).
          cbn [field]. by rewrite Hd.
        + by eapply field_fits. }
    assert (Hne : inner <> [] <-> exists q w', value_change (SRecord fs) m v q w').
    { split.
      - intros H. destruct inner as [|[q w'] l] eqn:E; [done|].
        destruct (proj1 (Hin q w')) as (k & q' & -> & Hc); [by left|].
        apply is_change_value in Hc as (q2 & w2 & Hc). eauto.
      - intros (q & w' & H) E. destruct q as [|[k|i] q]; try done.
        assert (Hx : In (Key k :: q, w') inner).
        { apply Hin. exists k, q. split; [done|]. by apply value_change_is. }
        by rewrite E in Hx. }
    assert (Hroot : is_change (SRecord fs) m v [] w <-> inner <> [] /\ w = match v with JNull => JNull | _ => JObj [] end).
    { unfold is_change. cbn [shape_at app]. rewrite Hne. unfold source. cbn [value_at]. done. }
    assert (Hsplit : In (p, w) (match inner with [] => [] | _ :: _ => inner ++ [([], match v with JNull => JNull | _ => JObj [] end)] end)
       <-> In (p, w) inner \/ (inner <> [] /\ p = [] /\ w = match v with JNull => JNull | _ => JObj [] end)).
    { destruct inner as [|c l] eqn:E.
      - split; [done|]. intros [?|[? _]]; done.
      - rewrite in_app_iff. cbn [In]. split.
        + intros [?|[[= <- <-]|[]]]; [by left|by right].
        + intros [?|(_ & -> & ->)]; [by left|right; by left]. }
    rewrite Hsplit. clear Hsplit. destruct p as [|[k|i] p].
    + rewrite Hroot. split.
      * intros [H|(H1 & _ & H2)]; [|done]. apply Hin in H as (k & p' & [=] & _).
      * intros [H1 H2]. by right.
    + rewrite Hin. split.
      * intros [(k' & p' & _ & H)|(_ & [=] & _)]. done.
      * intros H. left. eauto.
    + split; [|done]. intros [H|(_ & [=] & _)]. by apply Hin in H as (k & p' & [=] & _).
Qed.

(** every position is reported at most once *)
Lemma under_fst s l : map fst (under s l) = map (cons s) (map fst l).
Proof. unfold under. by rewrite !map_map. Qed.

Lemma NoDup_under s (l : list change) : NoDup (map fst l) -> NoDup (map fst (under s l)).
Proof.
  rewrite under_fst. intros H. apply (NoDup_fmap_2 (cons s) (map fst l) : NoDup _ -> NoDup (map _ _)). done.
Qed.

Theorem changes_NoDup sh : wf_shape sh = true -> forall m v, NoDup (map fst (changes sh m v)).
Proof.
  induction sh as [|n s IH|fs IH] using shape_ind'; intros Hw m v.
  - cbn [changes]. destruct (json_eq m v); cbn [map]; [constructor|apply NoDup_singleton].
  - cbn [wf_shape] in Hw. apply andb_prop in Hw as [_ Hs]. cbn [changes].
    rewrite map_app. apply NoDup_app. split; [destruct (Nat.eqb _ _); cbn; [constructor|apply NoDup_singleton]|]. split.
    + intros p Hp. destruct (Nat.eqb _ _); cbn in Hp; [by apply elem_of_nil in Hp|].
      apply elem_of_list_singleton in Hp as ->. intros H. apply elem_of_list_In, in_map_iff in H as ([q w] & Hq & H).
      cbn in Hq. subst q. apply in_item_changes in H as (j & x & p' & _ & [=] & _).
    + generalize (items m) as old. generalize 0%nat as i. induction (items v) as [|x next IHn]; intros i old; [constructor|].
      assert (Hgen : forall o old', NoDup (map fst (under (Index i) (changes s o x) ++ item_changes (changes s) (initial_model s) old' next (S i)))).
      { intros o old'. rewrite map_app. apply NoDup_app. split; [by apply NoDup_under, IH|]. split; [|apply IHn].
        intros p Hp H. apply elem_of_list_In, in_map_iff in Hp as ([q w] & Hq & Hp). cbn in Hq. subst q.
        apply in_under in Hp as (p' & -> & _).
        apply elem_of_list_In, in_map_iff in H as ([q w'] & Hq & H). cbn in Hq. subst q.
        apply in_item_changes in H as (j & y & p2 & _ & [=] & _). lia. }
      destruct old as [|o old]; cbn [item_changes]; apply Hgen.
  - cbn [wf_shape] in Hw. apply andb_prop in Hw as [Hw Hws]. apply andb_prop in Hw as [Hsort Hns].
    pose proof (obj_sorted_NoDup _ Hsort) as Hnd. cbn [changes].
    set (inner := flat_map (fun e => under (Key (fst e)) (changes (snd e) (field m (fst e)) (field v (fst e)))) fs).
    assert (Hkey : forall p w, In (p, w) inner -> exists k p', p = Key k :: p' /\ In k (map fst fs)).
    { intros p w H. apply in_flat_map in H as ([k s] & Hks & H). apply in_under in H as (p' & -> & _).
      exists k, p'. split; [done|]. by apply (in_map fst) in Hks. }
    assert (Hinner : NoDup (map fst inner)).
    { unfold inner. clear - IH Hws Hnd. induction IH as [|[k s] fs Hs Hf IHf]; [constructor|].
      cbn [flat_map]. rewrite map_app. cbn [map fst snd] in *. inversion Hnd as [|? ? Hni Hnd']; subst.
      cbn [forallb snd] in Hws. apply andb_prop in Hws as [H1 H2].
      apply NoDup_app. split; [by apply NoDup_under, Hs|]. split; [|by apply IHf].
      intros p Hp H. apply elem_of_list_In, in_map_iff in Hp as ([q w] & Hq & Hp). cbn in Hq. subst q.
      apply in_under in Hp as (p' & -> & _).
      apply elem_of_list_In, in_map_iff in H as ([q w'] & Hq & H). cbn in Hq. subst q.
      apply in_flat_map in H as ([k' s'] & Hks & H). apply in_under in H as (p2 & [= -> ->] & _).
      apply Hni. apply elem_of_list_In. by apply (in_map fst) in Hks. }
    destruct inner as [|c l] eqn:E; [constructor|]. rewrite <- E in *. rewrite map_app.
    apply NoDup_app. split; [done|]. split; [|apply NoDup_singleton].
    intros p Hp H. cbn in H. apply elem_of_list_singleton in H as ->.
    apply elem_of_list_In, in_map_iff in Hp as ([q w] & Hq & Hp). cbn in Hq. subst q.
    apply Hkey in Hp as (? & ? & [=] & _).
Qed.

(** pointers of positions of one shape are distinct *)
Lemma pointer_string_slash p : slash_or_end (pointer_string p).
Proof. destruct p as [|s p]; [by left|]. right. by eexists. Qed.

Theorem pointer_string_inj sh : wf_shape sh = true -> forall p q,
  is_Some (shape_at sh p) -> is_Some (shape_at sh q) -> pointer_string p = pointer_string q -> p = q.
Proof.
  intros Hw p. revert sh Hw. induction p as [|a p IH]; intros sh Hw [|b q] Hp Hq H; try done.
  cbn [pointer_string] in H. injection H as H.
  destruct sh as [|n s|fs].
  - destruct a; by destruct Hp.
  - destruct a as [k|i]; [by destruct Hp|]. destruct b as [k|j]; [by destruct Hq|].
    cbn [shape_at] in Hp, Hq. cbn [step_string] in H.
    destruct (no_slash_split _ _ _ _ (fmt_nat_no_slash i) (fmt_nat_no_slash j) (pointer_string_slash p) (pointer_string_slash q) H) as [Hi Hpq].
    apply fmt_nat_inj in Hi as ->. f_equal. cbn [wf_shape] in Hw. apply andb_prop in Hw as [_ Hs]. by eapply (IH s).
  - destruct a as [k|i]; [|by destruct Hp]. destruct b as [l|j]; [|by destruct Hq].
    cbn [shape_at step_string] in *. cbn [wf_shape] in Hw. apply andb_prop in Hw as [Hw Hws]. apply andb_prop in Hw as [Hsort Hns].
    destruct (obj_get k fs) as [s|] eqn:Ek; [|by destruct Hp].
    destruct (obj_get l fs) as [s'|] eqn:El; [|by destruct Hq].
    pose proof (obj_get_In _ _ _ Ek) as Hk. pose proof (obj_get_In _ _ _ El) as Hl.
    rewrite List.forallb_forall in Hns, Hws.
    destruct (no_slash_split _ _ _ _ (Hns _ Hk) (Hns _ Hl) (pointer_string_slash p) (pointer_string_slash q) H) as [Hi Hpq].
    cbn [fst] in Hi. subst l. rewrite Ek in El. injection El as <-. f_equal. exact (IH s (Hws _ Hk) _ Hp Hq Hpq).
Qed.

(** ** The stored model *)
Theorem merge_model sh : wf_shape sh = true -> forall m v, model_of sh m = true -> fits sh v = true -> model_of sh (merge sh m v) = true.
Proof.
  induction sh as [|n s IH|fs IH] using shape_ind'; intros Hw m v Hm Hf.
  - cbn [merge]. by destruct (json_eq m v).
  - cbn [wf_shape] in Hw. apply andb_prop in Hw as [_ Hs].
    pose proof (model_of_list _ _ _ Hm) as (l & -> & Hl). cbn [merge model_of items].
    assert (Hv : forallb (fits s) (items v) = true) by (destruct v; done).
    clear Hm Hf. revert l Hl. induction (items v) as [|x next IHn]; intros l Hl; [done|].
    cbn [forallb] in Hv. apply andb_prop in Hv as [Hv1 Hv2].
    destruct l as [|o l]; cbn [item_merge forallb].
    + rewrite IH; [|done|apply initial_model_of|done]. by rewrite IHn.
    + cbn [forallb] in Hl. apply andb_prop in Hl as [Ho Hl]. rewrite IH by done. by rewrite IHn.
  - cbn [wf_shape] in Hw. apply andb_prop in Hw as [Hw Hws]. apply andb_prop in Hw as [Hsort Hns].
    rewrite List.forallb_forall in Hws.
    pose proof (model_of_record _ _ Hm) as (o & -> & Hk & Ho). cbn [merge]. apply model_of_fields.
    assert (Hall : Forall (fun e => model_of (snd e) (merge (snd e) (field (JObj o) (fst e)) (field v (fst e))) = true) fs).
    { pose proof (obj_sorted_NoDup _ Hsort) as Hnd. rewrite List.Forall_forall in IH |- *. intros [k s] He.
      pose proof (obj_get_NoDup _ _ _ Hnd He) as Hg. destruct (Ho _ _ Hg) as (d & Hd & Hmd).
      apply (IH _ He); [exact (Hws _ He)| |by eapply field_fits]. cbn [field fst snd]. by rewrite Hd. }
    clear - Hall. induction Hall as [|[k s] fs Hh Hall IHf]; constructor; [done|exact IHf].
Qed.

Lemma json_eq_arr_map {A} (f g : A -> json) l :
  Forall (fun a => json_eq (f a) (g a) = true) l -> json_eq (JArr (map f l)) (JArr (map g l)) = true.
Proof. induction 1 as [|a l Ha Hl IH]; [done|]. cbn [map]. by rewrite json_eq_arr, Ha. Qed.

Theorem merge_project sh : wf_shape sh = true -> forall m v, model_of sh m = true -> fits sh v = true -> json_wf v = true ->
  json_eq (merge sh m v) (project sh v) = true.
Proof.
  induction sh as [|n s IH|fs IH] using shape_ind'; intros Hw m v Hm Hf Hwf.
  - cbn [merge project]. destruct (json_eq m v) eqn:E; [done|by apply json_eq_refl].
  - cbn [wf_shape] in Hw. apply andb_prop in Hw as [_ Hs].
    pose proof (model_of_list _ _ _ Hm) as (l & -> & Hl). cbn [merge project items].
    assert (Hv : forallb (fits s) (items v) = true) by (destruct v; done).
    assert (Hx : forallb json_wf (items v) = true) by (destruct v; done).
    clear Hm Hf Hwf. revert l Hl. induction (items v) as [|x next IHn]; intros l Hl; [done|].
    cbn [forallb] in Hv, Hx. apply andb_prop in Hv as [Hv1 Hv2]. apply andb_prop in Hx as [Hx1 Hx2].
    destruct l as [|o l]; cbn [item_merge map]; rewrite json_eq_arr.
    + rewrite IH; [|done|apply initial_model_of|done|done]. by apply IHn.
    + cbn [forallb] in Hl. apply andb_prop in Hl as [Ho Hl]. rewrite IH by done. by apply IHn.
  - cbn [wf_shape] in Hw. apply andb_prop in Hw as [Hw Hws]. apply andb_prop in Hw as [Hsort Hns].
    rewrite List.forallb_forall in Hws.
    pose proof (model_of_record _ _ Hm) as (o & -> & Hk & Ho). cbn [merge project].
    assert (Hall : Forall (fun e => json_eq (merge (snd e) (field (JObj o) (fst e)) (field v (fst e))) (project (snd e) (field v (fst e))) = true) fs).
    { pose proof (obj_sorted_NoDup _ Hsort) as Hnd. rewrite List.Forall_forall in IH |- *. intros [k s] He.
      pose proof (obj_get_NoDup _ _ _ Hnd He) as Hg. destruct (Ho _ _ Hg) as (d & Hd & Hmd).
      apply (IH _ He); [exact (Hws _ He)| |by eapply field_fits|].
      - cbn [field fst snd]. by rewrite Hd.
      - destruct v as [| | | | |sm]; try done. cbn [field fst]. destruct (obj_get k sm) as [y|] eqn:Ey; [|done].
        cbn [json_wf] in Hwf. apply andb_prop in Hwf as [_ Hwf]. rewrite List.forallb_forall in Hwf.
        apply obj_get_In in Ey. exact (Hwf _ Ey). }
    clear - Hall. induction Hall as [|[k s] fs Hh Hall IHf]; [done|]. cbn [map fst snd] in *.
    rewrite json_eq_obj, String.eqb_refl, Hh. exact IHf.
Qed.
