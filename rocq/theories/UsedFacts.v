(** * Only the used part of the data matters (C85): proofs. *)
From Coq Require Import ZArith Lia.
From stdpp Require Import gmap.
From RecordUpdate Require Import RecordUpdate.
From Verif Require Import Str StrFacts F32 Res ResFacts Json JsonFacts PropKey Html Css Element Tree ViewModel Render Update Matching
  Cascade Initial Animation Apply Styling Events View BindFacts SpecBind ConformFacts ChangeFacts FrameFacts SpecReact SpecView BindProps SpecUsed.

Definition alike (sh : shape) (a b : change) : Prop :=
  fst a = fst b /\ (snd a = snd b \/
    (exists n s, shape_at sh (fst a) = Some (SList n s)) /\
    exists l l', snd a = JArr l /\ snd b = JArr l' /\ List.length l = List.length l').

Lemma alike_under sh sh' s (l l' : list change) :
  (forall p n u, shape_at sh' p = Some (SList n u) -> shape_at sh (s :: p) = Some (SList n u)) ->
  Forall2 (alike sh') l l' -> Forall2 (alike sh) (under s l) (under s l').
Proof.
  intros Hs H. unfold under. induction H as [|[p v] [q w] l l' [Hp Hv] H IH]; cbn [map]; constructor; [|exact IH].
  cbn [fst snd] in *. subst q. split; [done|]. cbn [fst snd]. destruct Hv as [->|((n & u & Hn) & Hl)]; [by left|].
  right. split; [|exact Hl]. exists n, u. by apply Hs.
Qed.

Lemma agree_changes sh : wf_shape sh = true -> forall old x y, agree sh x y ->
  merge sh old x = merge sh old y /\ Forall2 (alike sh) (changes sh old x) (changes sh old y).
Proof.
  induction sh as [|n s IH|fs IH] using shape_ind'; intros Hw old x y Ha;
    [assert (x = y) as -> by (by inversion Ha)
    |assert (Hl : Forall2 (agree s) (items x) (items y)) by (by inversion Ha)
    |assert (Hnf : (x = JNull <-> y = JNull) /\ forall k s, In (k, s) fs -> agree s (field x k) (field y k)) by (by inversion Ha); destruct Hnf as [Hn Hf]].
  - split; [done|]. cbn [changes]. destruct (json_eq old y); repeat constructor.
  - cbn [wf_shape] in Hw. apply andb_prop in Hw as [_ Hw]. specialize (IH Hw).
    pose proof (Forall2_length _ _ _ Hl) as Hlen. cbn [merge changes]. rewrite Hlen. split.
    + f_equal. generalize (items old) as o. clear Ha Hlen. induction Hl as [|a b l l' Hab Hl IHl]; intros o; [done|].
      cbn [item_merge]. destruct o as [|c o]; (f_equal; [by apply IH|apply IHl]).
    + apply Forall2_app.
      { destruct (Nat.eqb _ _); constructor; [|constructor]. split; [done|]. right. cbn [fst snd]. split; [by exists n, s|].
        by exists (items x), (items y). }
      generalize 0 as i. generalize (items old) as o. clear Ha Hlen. induction Hl as [|a b l l' Hab Hl IHl]; intros o i; [constructor|].
      cbn [item_changes]. destruct o as [|c o]; (apply Forall2_app; [eapply alike_under; [|by apply IH]; intros p m u Hp; exact Hp|apply IHl]).
  - cbn [wf_shape] in Hw. apply andb_prop in Hw as [Hw Hwf]. apply andb_prop in Hw as [Hso _].
    rewrite forallb_forall in Hwf.
    assert (Hall : forall e, In e fs -> merge (snd e) (field old (fst e)) (field x (fst e)) = merge (snd e) (field old (fst e)) (field y (fst e)) /\
      Forall2 (alike (snd e)) (changes (snd e) (field old (fst e)) (field x (fst e))) (changes (snd e) (field old (fst e)) (field y (fst e)))).
    { intros [k s] He. rewrite List.Forall_forall in IH. apply (IH _ He); [by apply (Hwf _ He)|by apply Hf]. }
    split.
    { cbn [merge]. f_equal. apply map_ext_in. intros e He. f_equal. by apply Hall. }
    cbn [changes].
    assert (Hin : Forall2 (alike (SRecord fs))
      (flat_map (fun e => under (Key (fst e)) (changes (snd e) (field old (fst e)) (field x (fst e)))) fs)
      (flat_map (fun e => under (Key (fst e)) (changes (snd e) (field old (fst e)) (field y (fst e)))) fs)).
    { assert (Hsub : forall e, In e fs -> forall p n u, shape_at (snd e) p = Some (SList n u) -> shape_at (SRecord fs) (Key (fst e) :: p) = Some (SList n u)).
      { intros [k s] He p n u Hp. cbn [shape_at fst snd] in *. assert (obj_get k fs = Some s) as ->; [|exact Hp].
        apply obj_get_NoDup; [by apply obj_sorted_NoDup|exact He]. }
      revert Hall Hsub. generalize (SRecord fs) as sh0. generalize fs as gs. clear. intros gs sh0.
      induction gs as [|e gs IHg]; intros Hall Hsub; cbn [flat_map]; [constructor|]. apply Forall2_app.
      - eapply alike_under; [apply Hsub; by left|apply Hall; by left].
      - apply IHg; intros; [apply Hall; by right|apply Hsub; [by right|done]]. }
    destruct Hin as [|a b l l' Hab Hin]; [constructor|].
    apply Forall2_app; [by constructor|]. constructor; [|constructor]. split; [done|]. left. cbn [snd].
    clear -Hn. destruct x, y; try done; exfalso; destruct Hn as [H1 H2]; (discriminate (H1 eq_refl) || discriminate (H2 eq_refl)).
Qed.

Lemma react_alike fmt bs tr p l l' : List.length l = List.length l' ->
  (forall bl b, obj_get p bs = Some bl -> In b bl -> bd_pipe b = []) ->
  react fmt bs tr p (JArr l) = react fmt bs tr p (JArr l').
Proof.
  intros Hl Hp. unfold react. destruct (obj_get p bs) as [bl|] eqn:E; [|done]. specialize (Hp bl).
  assert (Hb : forall b, In b bl -> bd_pipe b = []) by auto. clear Hp E.
  induction bl as [|b bl IH]; [done|]. cbn [mapR]. rewrite (Hb b (or_introl eq_refl)). cbn [run_pipe bindR].
  rewrite IH by (intros c Hc; apply Hb; by right).
  assert (react_value_change fmt b (JArr l) = react_value_change fmt b (JArr l')) as ->; [|done].
  unfold react_value_change. destruct (bd_params b); cbn [eval_boolean eval_string as_array]; rewrite ?Hl; done.
Qed.

Lemma notify_alike fmt bs tr sh l l' : Forall2 (alike sh) l l' ->
  (forall p n s bl b, shape_at sh p = Some (SList n s) -> obj_get (pointer_string p) bs = Some bl -> In b bl -> bd_pipe b = []) ->
  notify fmt bs tr "" l = notify fmt bs tr "" l'.
Proof.
  intros H Hp. induction H as [|[p v] [q w] l l' [Hq Hv] H IH]; [done|]. cbn [fst snd] in Hq, Hv. subst q. cbn [notify].
  rewrite IH. destruct Hv as [->|((n & s & Hn) & k & k' & -> & -> & Hk)]; [done|].
  rewrite (react_alike fmt bs tr ("" +:+ pointer_string p) k k' Hk); [done|]. intros bl b. exact (Hp p n s bl b Hn).
Qed.

Lemma view_bind_agree X v sh x y : shaped sh v -> plain_lists sh v -> fits sh x = true -> fits sh y = true -> agree sh x y ->
  view_bind X v x = view_bind X v y.
Proof.
  intros Hs Hp Hx Hy Ha. rewrite (view_bind_shaped X v sh x Hs Hx), (view_bind_shaped X v sh y Hs Hy).
  destruct (agree_changes sh (proj1 Hs) (v_model v) x y Ha) as [-> Hc]. by rewrite (notify_alike _ _ _ sh _ _ Hc Hp).
Qed.

Lemma update_agree X fuel v sh i x y : shaped sh v -> plain_lists sh v -> fits sh x = true -> fits sh y = true -> agree sh x y ->
  update X fuel v i x = update X fuel v i y.
Proof. intros Hs Hp Hx Hy Ha. unfold update, prepare. by rewrite (view_bind_agree X v sh x y Hs Hp Hx Hy Ha). Qed.

Lemma updates_agree X fuel sh : forall h h' v, shaped sh v -> plain_lists sh v ->
  Forall (fun e => fits sh (snd e) = true) h -> Forall (fun e => fits sh (snd e) = true) h' -> agreeing sh h h' ->
  updates X fuel v h = updates X fuel v h'.
Proof.
  intros h h' v Hs Hp Hf Hf' Ha. revert v Hs Hp Hf Hf'.
  induction Ha as [|[i x] [j y] h h' [Hi Ha] Hh IH]; intros v Hs Hp Hf Hf'; [done|]. cbn [fst snd] in Hi, Ha. subst j.
  apply list.Forall_cons in Hf as [Hx Hf]. apply list.Forall_cons in Hf' as [Hy Hf']. cbn [snd] in Hx, Hy.
  cbn [updates]. rewrite <- (update_agree X fuel v sh i x y Hs Hp Hx Hy Ha). destruct (update X fuel v i x) as [[v1 o]| | |] eqn:E; [|done..].
  cbn [bindR]. rewrite (IH v1); [done| |..|exact Hf|exact Hf'].
  - exact (proj1 (update_shaped _ _ _ _ _ _ _ _ Hs Hx E)).
  - apply update_content in E as (m & rs & t & ids & _ & _ & _ & _ & _ & Hbs & _). unfold plain_lists. rewrite Hbs. exact Hp.
Qed.

Lemma agree_refl sh : forall x, agree sh x x.
Proof.
  induction sh as [|n s IH|fs IH] using shape_ind'; intros x; constructor; [|done|].
  - generalize (items x) as l. intros l. induction l; constructor; auto.
  - intros k s Hk. rewrite List.Forall_forall in IH. exact (IH _ Hk _).
Qed.
