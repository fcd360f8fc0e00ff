(** * Declared and computed values. *)
From Coq Require Import ZArith Lia.
From stdpp Require Import gmap.
From RecordUpdate Require Import RecordUpdate.
From Verif Require Import Str F32 Res ResFacts PropKey Css Element Tree Matching Cascade Initial Animation Apply Styling SpecStyle ApplyFacts.

(** ** Meaning of values *)
Scheme means_ind' := Induction for means Sort Prop with mean_all_ind' := Induction for mean_all Sort Prop.
Combined Scheme means_mutind from means_ind', mean_all_ind'.

Lemma definition_means vars : forall fuel d vs, compute_definition fuel vars d = Ok vs -> means vars d vs.
Proof.
  induction fuel as [|fuel IH]; intros d vs H; [done|].
  assert (Hall : forall sh l, mapR (compute_definition fuel vars) sh = Ok l -> mean_all vars sh (List.concat l)).
  { induction sh as [|d' sh IHs]; intros l Hl; cbn [mapR] in Hl; [injection Hl as <-; apply mean_nil|].
    apply bindR_Ok in Hl as (x & Hx & Hl). apply bindR_Ok in Hl as (y & Hy & [= <-]). cbn [List.concat]. apply mean_cons; [by apply IH|by apply IHs]. }
  destruct d as [name|name args|v]; cbn [compute_definition] in H.
  - destruct (vars !! name) as [sh|] eqn:E; [|injection H as <-; by apply means_missing].
    apply bindR_Ok in H as (l & Hl & [= <-]). eapply means_var; [exact E|by apply Hall].
  - apply bindR_Ok in H as (l & Hl & [= <-]). apply means_function. by apply Hall.
  - injection H as <-. apply means_explicit.
Qed.
Lemma shorthand_means fuel vars sh vs : compute_shorthand fuel vars sh = Ok vs -> mean_all vars sh vs.
Proof.
  unfold compute_shorthand. intros H. apply bindR_Ok in H as (l & Hl & [= <-]). revert l Hl.
  induction sh as [|d sh IH]; intros l Hl; cbn [mapR] in Hl; [injection Hl as <-; apply mean_nil|].
  apply bindR_Ok in Hl as (x & Hx & Hl). apply bindR_Ok in Hl as (y & Hy & [= <-]). cbn [List.concat]. apply mean_cons; [by eapply definition_means|by apply IH].
Qed.
Lemma means_fun_all vars : (forall d vs, means vars d vs -> forall ws, means vars d ws -> ws = vs) /\
  (forall sh vs, mean_all vars sh vs -> forall ws, mean_all vars sh ws -> ws = vs).
Proof.
  apply means_mutind.
  - intros v ws H. by inversion H.
  - intros name sh vs Hn _ IH ws H. inversion H; subst; [|congruence]. apply IH. congruence.
  - intros name Hn ws H. inversion H; subst; [congruence|done].
  - intros name args vs _ IH ws H. inversion H; subst. f_equal. f_equal. by apply IH.
  - intros ws H. by inversion H.
  - intros d sh vs ws _ IH1 _ IH2 ws' H. inversion H; subst. f_equal; [by apply IH1|by apply IH2].
Qed.
Lemma mean_all_fun vars sh vs ws : mean_all vars sh vs -> mean_all vars sh ws -> vs = ws.
Proof. intros H1 H2. by eapply means_fun_all. Qed.
(** more fuel changes nothing *)
Lemma definition_fuel vars : forall fuel d vs, compute_definition fuel vars d = Ok vs -> forall fuel', fuel <= fuel' -> compute_definition fuel' vars d = Ok vs.
Proof.
  induction fuel as [|fuel IH]; intros d vs H fuel' Hle; [done|]. destruct fuel' as [|fuel']; [lia|].
  assert (Hall : forall sh l, mapR (compute_definition fuel vars) sh = Ok l -> mapR (compute_definition fuel' vars) sh = Ok l).
  { induction sh as [|d' sh IHs]; intros l Hl; cbn [mapR] in *; [done|].
    apply bindR_Ok in Hl as (x & Hx & Hl). apply bindR_Ok in Hl as (y & Hy & [= <-]). rewrite (IH _ _ Hx fuel') by lia. cbn [bindR]. by rewrite (IHs _ Hy). }
  destruct d as [name|name args|v]; cbn [compute_definition] in *; [destruct (vars !! name) as [sh|]; [|done]| |done];
    apply bindR_Ok in H as (l & Hl & [= <-]); by rewrite (Hall _ _ Hl).
Qed.
Lemma mapR_fuel vars fuel fuel' sh l : fuel <= fuel' -> mapR (compute_definition fuel vars) sh = Ok l -> mapR (compute_definition fuel' vars) sh = Ok l.
Proof.
  intros Hle. revert l. induction sh as [|d' sh IHs]; intros l Hl; cbn [mapR] in *; [done|].
  apply bindR_Ok in Hl as (x & Hx & Hl). apply bindR_Ok in Hl as (y & Hy & [= <-]). rewrite (definition_fuel _ _ _ _ Hx fuel') by lia. cbn [bindR]. by rewrite (IHs _ Hy).
Qed.
(** a value that has a meaning is computed, given fuel enough *)
Lemma means_computed vars : (forall d vs, means vars d vs -> exists fuel, compute_definition fuel vars d = Ok vs) /\
  (forall sh vs, mean_all vars sh vs -> exists fuel l, mapR (compute_definition fuel vars) sh = Ok l /\ List.concat l = vs).
Proof.
  apply means_mutind.
  - intros v. by exists 1.
  - intros name sh vs Hn _ (fuel & l & Hl & <-). exists (S fuel). cbn [compute_definition]. destruct (vars !! name); [|done]. injection Hn as ->. by rewrite Hl.
  - intros name Hn. exists 1. cbn [compute_definition]. by destruct (vars !! name).
  - intros name args vs _ (fuel & l & Hl & <-). exists (S fuel). cbn [compute_definition]. by rewrite Hl.
  - by exists 0, [].
  - intros d sh vs ws _ (f1 & H1) _ (f2 & l & Hl & <-). exists (Nat.max f1 f2), (vs :: l). cbn [mapR].
    rewrite (definition_fuel _ _ _ _ H1) by lia. cbn [bindR]. by rewrite (mapR_fuel _ _ _ _ _ (Nat.le_max_r f1 f2) Hl).
Qed.

(** ** Assignments *)
Lemma cs_same (s : ComputedStyle) (k : PropertyKey) (i : nat) v : <[(k, i) := v]> s !! (k, i) = Some v.
Proof. apply lookup_insert. Qed.
Lemma cs_ne (s : ComputedStyle) (k k' : PropertyKey) (i i' : nat) v : (k, i) <> (k', i') -> <[(k, i) := v]> s !! (k', i') = s !! (k', i').
Proof. intros H. by apply lookup_insert_ne. Qed.
Lemma last_given_overwrite i l : forall s k j, overwrite_all i l s !! (k, j) =
  if decide (j = i) then match last_given l k with Some v => Some v | None => s !! (k, j) end else s !! (k, j).
Proof.
  unfold overwrite_all. induction l as [|[k' v'] l IH]; intros s k j; cbn [foldl last_given]; [by destruct (decide _)|].
  rewrite IH. destruct (decide (j = i)) as [->|Hj].
  - destruct (last_given l k); [done|]. destruct (decide (k' = k)) as [->|Hk]; [by rewrite cs_same|]. rewrite cs_ne by congruence. done.
  - rewrite cs_ne by congruence. done.
Qed.

(** the values of one declaration *)
Lemma values_given fuel vars key : forall values i0 s s', compute_values fuel vars key i0 values s = Ok s' ->
  (forall i sh, values !! i = Some sh -> exists vs, mean_all vars sh vs) /\
  (forall k i v, (exists j sh vs, i = i0 + j /\ values !! j = Some sh /\ mean_all vars sh vs /\ last_given (expand key vs) k = Some v) -> s' !! (k, i) = Some v) /\
  (forall k i, (forall v, ~ exists j sh vs, i = i0 + j /\ values !! j = Some sh /\ mean_all vars sh vs /\ last_given (expand key vs) k = Some v) -> s' !! (k, i) = s !! (k, i)).
Proof.
  induction values as [|sh values IH]; intros i0 s s' H; cbn [compute_values] in H.
  - injection H as <-. split; [done|]. split; [|done]. intros k i v (j & sh & vs & _ & Hj & _). done.
  - apply bindR_Ok in H as (s1 & H1 & H). unfold compute_style in H1. apply bindR_Ok in H1 as (vs & Hvs & [= <-]). apply shorthand_means in Hvs.
    destruct (IH _ _ _ H) as (I0 & I1 & I2). split; [|split].
    + intros [|i] sh' Hi; [injection Hi as <-; by exists vs|by eapply I0].
    + intros k i v (j & sh' & vs' & -> & Hj & Hm & Hv). destruct j as [|j]; cbn in Hj.
      * injection Hj as <-. assert (vs' = vs) as -> by (by eapply mean_all_fun). rewrite I2.
        -- rewrite Nat.add_0_r, last_given_overwrite, decide_True by done. by rewrite Hv.
        -- intros w (j & sh' & vs'' & Hij & _). lia.
      * apply I1. exists j, sh', vs'. split; [lia|done].
    + intros k i Hno. rewrite I2.
      * rewrite last_given_overwrite. destruct (decide (i = i0)) as [->|]; [|done]. destruct (last_given (expand key vs) k) as [v|] eqn:E; [|done].
        exfalso. apply (Hno v). exists 0, sh, vs. split; [lia|done].
      * intros v (j & sh' & vs' & -> & Hj & Hm & Hv). apply (Hno v). exists (S j), sh', vs'. split; [lia|done].
Qed.
Lemma declaration_given fuel vars d s vars' s' : compute_declaration fuel (vars, s) d = Ok (vars', s') ->
  vars' = variables_after vars [d] /\ (forall k i v, gives vars d k i v -> s' !! (k, i) = Some v) /\
  (forall k i, (forall v, ~ gives vars d k i v) -> s' !! (k, i) = s !! (k, i)).
Proof.
  destruct d as [va|p]; cbn [compute_declaration]; intros H.
  - injection H as <- <-. split; [done|]. split; [|done]. intros k i v (p & sh & vs & Hd & _). done.
  - apply bindR_Ok in H as (s1 & H1 & [= <- <-]). split; [done|]. destruct (values_given _ _ _ _ _ _ _ H1) as (_ & I1 & I2). split.
    + intros k i v (p' & sh & vs & [= <-] & Hi & Hm & Hv). apply I1. by exists i, sh, vs.
    + intros k i Hno. apply I2. intros v (j & sh & vs & Hij & Hj & Hm & Hv). apply (Hno v). exists p, sh, vs. cbn in Hij. subst j. done.
Qed.
Lemma gives_dec fuel vars d s vars' s' k i : compute_declaration fuel (vars, s) d = Ok (vars', s') ->
  (exists v, gives vars d k i v) \/ (forall v, ~ gives vars d k i v).
Proof.
  destruct d as [va|p]; cbn [compute_declaration]; intros H.
  - right. intros v (p & sh & vs & Hd & _). done.
  - apply bindR_Ok in H as (s1 & H1 & _). destruct (values_given _ _ _ _ _ _ _ H1) as (I0 & _). destruct (p_values p !! i) as [sh|] eqn:E.
    + destruct (I0 _ _ E) as [vs Hvs]. destruct (last_given (expand (p_key p) vs) k) as [v|] eqn:Ev.
      * left. exists v, p, sh, vs. done.
      * right. intros v (p' & sh' & vs' & [= <-] & Hi & Hm & Hv). rewrite E in Hi. injection Hi as <-. rewrite (mean_all_fun _ _ _ _ Hm Hvs) in Hv. congruence.
    + right. intros v (p' & sh' & vs' & [= <-] & Hi & Hm & Hv). congruence.
Qed.
Lemma variables_app vars ds es : variables_after vars (ds ++ es) = variables_after (variables_after vars ds) es.
Proof. unfold variables_after. by rewrite foldl_app. Qed.

(** the cascade of a list of declarations *)
Theorem block_wins fuel ds : forall vars s vars' s', compute_declaration_block fuel ds (vars, s) = Ok (vars', s') ->
  vars' = variables_after vars ds /\ (forall k i v, wins vars ds k i v -> s' !! (k, i) = Some v) /\
  (forall k i, ungiven vars ds k i -> s' !! (k, i) = s !! (k, i)) /\
  (forall k i, (exists v, wins vars ds k i v) \/ ungiven vars ds k i).
Proof.
  unfold compute_declaration_block. induction ds as [|d ds IH]; intros vars s vars' s' H; cbn [foldR] in H.
  - injection H as <- <-. split; [done|]. split; [|split; [done|]].
    + intros k i v (pre & d & post & Hd & _). by destruct pre.
    + intros k i. right. intros pre d post v Hd. by destruct pre.
  - apply bindR_Ok in H as ([vars1 s1] & H1 & H). destruct (declaration_given _ _ _ _ _ _ H1) as (-> & D1 & D2).
    destruct (IH _ _ _ _ H) as (-> & I1 & I2 & I3). split; [by rewrite <- variables_app|]. split; [|split].
    + intros k i v (pre & d' & post & Hd & Hg & Hlast). destruct pre as [|d0 pre]; injection Hd as -> ->.
      * rewrite I2; [by apply D1|]. intros pre' d0 post' v' Hp Hg'. apply (Hlast _ _ _ v' Hp). exact Hg'.
      * apply I1. exists pre, d', post. split; [done|]. split; [exact Hg|]. intros pre' d1 post' v' Hp Hg'. apply (Hlast _ _ _ v' Hp). exact Hg'.
    + intros k i Hno. rewrite I2.
      * apply D2. intros v Hg. exact (Hno [] d ds v eq_refl Hg).
      * intros pre d' post v Hd Hg. apply (Hno (d :: pre) d' post v); [by rewrite Hd|exact Hg].
    + intros k i. destruct (I3 k i) as [(v & pre & d' & post & Hd & Hg & Hlast)|Hun].
      * left. exists v, (d :: pre), d', post. split; [by rewrite Hd|]. split; [exact Hg|]. exact Hlast.
      * destruct (gives_dec _ _ _ _ _ _ k i H1) as [[v Hg]|Hno].
        -- left. exists v, [], d, ds. split; [done|]. split; [exact Hg|]. intros pre' d' post' v' Hp Hg'. exact (Hun _ _ _ v' Hp Hg').
        -- right. intros pre d' post v Hd Hg. destruct pre as [|d0 pre]; injection Hd as -> ->; [by eapply Hno|]. by eapply Hun.
Qed.

(** ** Tidy sheets give one value to each property that has room for one *)
Lemma last_given_in l k v : last_given l k = Some v -> In (k, v) l.
Proof.
  induction l as [|[k' v'] l IH]; cbn [last_given]; [done|]. destruct (last_given l k) as [w|]; [intros H; right; by apply IH|].
  destruct (decide (k' = k)) as [->|]; [|done]. intros [= ->]. by left.
Qed.
Lemma expand_listed key vs k v : list_property key = true -> In (k, v) (expand key vs) -> listed k = true.
Proof.
  intros Hl Hin.
  assert (Hdef : In (k, v) (match vs with [v] => [(key, v)] | _ => [] end) -> list_property key = listed key -> listed k = true).
  { intros H He. destruct vs as [|w [|]]; try done. destruct H as [[= <- _]|[]]. by rewrite <- He. }
  destruct key; try discriminate Hl; try (apply Hdef; [exact Hin|reflexivity]); cbn [expand] in Hin;
    repeat (match type of Hin with context [match ?x with _ => _ end] => destruct x end; cbn [In] in Hin);
    repeat (destruct Hin as [Hin|Hin]; [injection Hin as <- _; reflexivity|]); try done.
Qed.
Lemma values_single fuel vars key values s s' : list_property key = true \/ List.length values <= 1 ->
  compute_values fuel vars key 0 values s = Ok s' -> single s -> single s'.
Proof.
  intros Ht H Hs k i v Hv. destruct (values_given _ _ _ _ _ _ _ H) as (I0 & I1 & I2).
  destruct (values !! i) as [sh|] eqn:E.
  - destruct (I0 _ _ E) as [vs Hvs]. destruct (last_given (expand key vs) k) as [w|] eqn:Ew.
    + destruct Ht as [Ht|Ht]; [left; eapply expand_listed; [exact Ht|by apply last_given_in]|]. right. apply lookup_lt_Some in E. lia.
    + rewrite I2 in Hv; [by eapply Hs|]. intros w (j & sh' & vs' & Hij & Hj & Hm & Hw). cbn in Hij. subst j. rewrite E in Hj. injection Hj as <-.
      rewrite (mean_all_fun _ _ _ _ Hm Hvs) in Hw. congruence.
  - rewrite I2 in Hv; [by eapply Hs|]. intros w (j & sh' & vs' & Hij & Hj & Hm & Hw). cbn in Hij. subst j. congruence.
Qed.
Lemma block_single fuel ds : forall st st', Forall tidy_declaration ds -> compute_declaration_block fuel ds st = Ok st' -> single (snd st) -> single (snd st').
Proof.
  unfold compute_declaration_block. induction ds as [|d ds IH]; intros [vars s] st' Ht H Hs; cbn [foldR] in H; [by injection H as <-|].
  apply bindR_Ok in H as ([vars1 s1] & H1 & H). apply list.Forall_cons in Ht as [Ht Hts]. apply (IH _ _ Hts H). cbn [snd].
  destruct d as [va|p]; cbn [compute_declaration] in H1; [by injection H1 as <- <-|]. apply bindR_Ok in H1 as (s2 & H2 & [= <- <-]). by eapply values_single.
Qed.
