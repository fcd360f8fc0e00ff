(** * Reading the page (C70). *)
From Coq Require Import ZArith Lia.
From stdpp Require Import gmap.
From Verif Require Import Str F32 Res Json PropKey Html Css Element Tree ViewModel Render Update Matching
  Cascade Initial Animation Apply Styling Events View Fragment SpecTree SpecLive SpecWalk ResFacts LiveFacts LiveView SpecLog LiveHistory EventHistory.

Section walk.
  Context (t : Tree) (root : NodeId) (L : live t root).

  Lemma live_ctx n : n < t_next t -> exists e, get_ctx t n = Some e /\ e_node e = n.
  Proof. intros H. destruct (live_node _ _ L n H) as (e & He & Hn & _). eauto. Qed.
  Lemma ctx_below n e : get_ctx t n = Some e -> n < t_next t /\ e_node e = n.
  Proof.
    intros H. destruct (decide (n < t_next t)) as [Hn|Hn].
    - destruct (live_ctx n Hn) as (e' & He & Hn'). split; [done|]. congruence.
    - unfold get_ctx in H. rewrite (live_beyond _ _ L n) in H; [done|lia].
  Qed.

  (** the children of a fragment are the elements attached to it, in order *)
  Lemma fragment_ok n e : get_ctx t n = Some e ->
    exists es, fragment_children t e = Ok es /\ map e_node es = attached t n /\ Forall (fun c => get_ctx t (e_node c) = Some c) es.
  Proof.
    intros H. destruct (ctx_below _ _ H) as [Hn He]. unfold fragment_children, children, get_node. rewrite He.
    unfold get_ctx in H. unfold attached. destruct (t_nodes t !! n) as [x|] eqn:Ex; [|done]. cbn [unwrap bindR].
    assert (Hc : forall c, c ∈ n_children x -> c < t_next t).
    { intros c Hc. apply (live_newer _ _ L n c). left. unfold attached. by rewrite Ex. }
    clear - L Hc. induction (n_children x) as [|c cs IH]; [by exists []|].
    destruct (live_ctx c) as (e & He & Hn); [apply Hc; left|].
    destruct IH as (es & H1 & H2 & H3); [intros c' H'; apply Hc; by right|].
    exists (e :: es). cbn [mapR]. rewrite He. cbn [unwrap bindR]. rewrite H1. cbn [bindR map]. rewrite Hn, H2.
    split; [done|]. split; [done|]. constructor; [by rewrite Hn|done].
  Qed.

  (** below *)
  Lemma below_newer n m : on_page t n m -> n < t_next t -> n <= m < t_next t.
  Proof.
    intros H. unfold on_page in H. induction H as [n|n c m Hc _ IH]; intros Hn; [lia|].
    pose proof (live_newer _ _ L n c (or_introl Hc)). specialize (IH ltac:(lia)). lia.
  Qed.
  Lemma page_parent n m : on_page t n m -> n = m \/ exists p, on_page t n p /\ parent_of t m = Some p.
  Proof.
    intros H. apply rtc_inv_r in H as [H|(p & H & Hc)]; [by left|]. right. exists p. split; [exact H|]. by apply (live_parent _ _ L).
  Qed.
  Lemma page_join a b m : on_page t a m -> on_page t b m -> on_page t a b \/ on_page t b a.
  Proof.
    intros Ha Hb. revert Hb. unfold on_page in Ha. revert m Ha. apply (rtc_ind_r (fun m => on_page t b m -> on_page t a b \/ on_page t b a)).
    - by right.
    - intros m c Ha Hc IH Hb. apply page_parent in Hb as [->|(p & Hp & Hpar)].
      + left. by eapply rtc_r.
      + apply IH. apply (live_parent _ _ L) in Hc. congruence.
  Qed.

  Lemma walk_ok fuel : forall n e, get_ctx t n = Some e -> t_next t - n <= fuel ->
    exists es, walk fuel t e = Ok es /\ NoDup (map e_node es) /\ (forall m, m ∈ map e_node es <-> on_page t n m) /\
      Forall (fun c => get_ctx t (e_node c) = Some c) es.
  Proof.
    induction fuel as [|fuel IH]; intros n e He Hf.
    { destruct (ctx_below _ _ He). lia. }
    destruct (ctx_below _ _ He) as [Hn Hen]. destruct (fragment_ok n e He) as (cs & Hc & Hm & Hctx).
    cbn [walk]. rewrite Hc. cbn [bindR].
    assert (Hw : exists ls, mapR (walk fuel t) cs = Ok ls /\ NoDup (map e_node (List.concat ls)) /\
      (forall m, m ∈ map e_node (List.concat ls) <-> exists c, c ∈ map e_node cs /\ on_page t c m) /\
      Forall (fun c => get_ctx t (e_node c) = Some c) (List.concat ls)).
    { assert (Hsub : forall c, c ∈ map e_node cs -> c ∈ attached t n) by (by rewrite Hm).
      assert (Hnd : NoDup (map e_node cs)) by (rewrite Hm; apply (live_once _ _ L)).
      clear Hm Hc. induction cs as [|c cs IHc].
      - exists []. cbn. split; [done|]. split; [constructor|]. split; [|constructor]. intros m. split; [by intros ?%elem_of_nil|intros (? & ?%elem_of_nil & _); done].
      - cbn [map] in Hsub, Hnd. apply list.NoDup_cons in Hnd as [Hnc Hnd]. inversion Hctx as [|? ? Hx Hctx']; subst.
        destruct IHc as (ls & W1 & W2 & W3 & W4); [done|intros c' H'; apply Hsub; by right|done|].
        assert (Hin : e_node c ∈ attached t (e_node e)) by (apply Hsub; left).
        pose proof (live_newer _ _ L _ _ (or_introl Hin)) as Hnew.
        destruct (IH (e_node c) c Hx ltac:(lia)) as (es & V1 & V2 & V3 & V4).
        exists (es :: ls). cbn [mapR]. rewrite V1. cbn [bindR]. rewrite W1. cbn [bindR]. split; [done|]. cbn [List.concat]. rewrite map_app.
        split; [|split; [|by apply Forall_app]].
        + apply NoDup_app. split; [done|]. split; [|done]. intros m M1 M2. apply V3 in M1. apply W3 in M2 as (c' & C1 & C2).
          assert (Hin' : c' ∈ attached t (e_node e)) by (apply Hsub; by right).
          assert (Hne : c' <> e_node c) by (intros ->; done).
          pose proof (live_newer _ _ L _ _ (or_introl Hin')) as Hnew'.
          assert (Hdis : forall a b, a ∈ attached t (e_node e) -> b ∈ attached t (e_node e) -> on_page t a b -> a = b).
          { intros a b A B Hab. apply page_parent in Hab as [->|(p & Hp & Hpar)]; [done|].
            apply (live_parent _ _ L) in B. rewrite B in Hpar. injection Hpar as <-.
            pose proof (live_newer _ _ L _ _ (or_introl A)). apply below_newer in Hp; lia. }
          destruct (page_join _ _ _ M1 C2) as [K|K]; apply Hdis in K; congruence || done.
        + intros m. rewrite elem_of_app, V3, W3. setoid_rewrite elem_of_cons. split.
          * intros [H|(c' & C1 & C2)]; [exists (e_node c); split; [by left|done]|exists c'; split; [by right|done]].
          * intros (c' & [->|C1] & C2); [by left|right; eauto]. }
    destruct Hw as (ls & W1 & W2 & W3 & W4). rewrite W1. cbn [bindR]. eexists. split; [reflexivity|]. cbn [map].
    split; [|split; [|constructor; [by rewrite Hen|done]]].
    - apply list.NoDup_cons. split; [|done]. rewrite W3. intros (c & C1 & C2). rewrite Hm in C1.
      pose proof (live_newer _ _ L _ _ (or_introl C1)). rewrite Hen in C2. apply below_newer in C2; lia.
    - intros m. rewrite elem_of_cons, W3, Hm, Hen. split.
      + intros [->|(c & C1 & C2)]; [constructor|by eapply rtc_l].
      + intros H. apply rtc_inv in H as [H|(c & C1 & C2)]; [by left|right; eauto].
  Qed.
End walk.

Lemma mapR_more {A B} (f g : A -> res B) l : forall l', (forall a b, f a = Ok b -> g a = Ok b) -> mapR f l = Ok l' -> mapR g l = Ok l'.
Proof.
  induction l as [|a l IH]; intros l' H; cbn [mapR]; [done|]. intros E. apply bindR_Ok in E as (b & E1 & E). apply bindR_Ok in E as (bs & E2 & E).
  rewrite (H _ _ E1). cbn [bindR]. rewrite (IH _ H E2). exact E.
Qed.
Lemma walk_more t f : forall f' e es, walk f t e = Ok es -> f <= f' -> walk f' t e = Ok es.
Proof.
  induction f as [|f IH]; intros f' e es H Hf; [done|]. destruct f' as [|f']; [lia|]. cbn [walk] in *.
  apply bindR_Ok in H as (cs & H1 & H). apply bindR_Ok in H as (ls & H2 & H). rewrite H1. cbn [bindR].
  rewrite (mapR_more (walk f t) (walk f' t) cs ls); [exact H| |exact H2]. intros a b Hab. apply (IH f' a b Hab). lia.
Qed.

Lemma page_drawn X fuel doc css v0 hist v os : from_document X fuel doc css = Ok v0 -> updates X fuel v0 hist = Ok (v, os) ->
  exists es, (forall steps, t_next (v_tree v) <= steps -> drawn steps v = Ok es) /\ NoDup (map e_node es) /\
    (forall n, n ∈ map e_node es <-> on_page (v_tree v) (v_body v) n) /\ Forall (fun e => get_ctx (v_tree v) (e_node e) = Some e) es.
Proof.
  intros H0 Hu. pose proof (load_ready _ _ _ _ _ H0) as Hr. destruct (updates_reacted _ _ _ _ _ _ Hu) as (log & Hlog).
  destruct (reacted_keeps _ _ _ _ _ _ Hlog (rd_sound _ _ Hr)) as (_ & _ & [Hn _] & _ & Hb & Hs).
  pose proof (so_live _ Hs) as L. assert (Hlt : v_body v < t_next (v_tree v)) by (rewrite Hb, (rd_body _ _ Hr), <- Hn; apply (rd_next _ _ Hr)).
  destruct (live_ctx _ _ L _ Hlt) as (e & He & _).
  destruct (walk_ok _ _ L (t_next (v_tree v)) _ _ He ltac:(lia)) as (es & W & W2 & W3 & W4).
  exists es. split; [|done]. intros steps Hst. unfold drawn, view_body. rewrite He. cbn [unwrap bindR].
  destruct (walk_ok _ _ L steps _ _ He ltac:(lia)) as (es' & W' & _). rewrite W'. f_equal.
  eapply walk_more in W; [|exact Hst]. congruence.
Qed.
Lemma fragment_page X fuel doc css v0 hist v os n e : from_document X fuel doc css = Ok v0 -> updates X fuel v0 hist = Ok (v, os) ->
  get_ctx (v_tree v) n = Some e ->
  exists es, fragment_children (v_tree v) e = Ok es /\ map e_node es = attached (v_tree v) n /\ Forall (fun c => get_ctx (v_tree v) (e_node c) = Some c) es.
Proof.
  intros H0 Hu He. pose proof (updates_sound _ _ _ _ _ _ (from_document_sound _ _ _ _ _ H0) Hu) as Hs. exact (fragment_ok _ _ (so_live _ Hs) _ _ He).
Qed.
