(** * The page in document order and the elements under the mouse. *)
From Coq Require Import ZArith Lia.
From stdpp Require Import gmap.
From RecordUpdate Require Import RecordUpdate.
From Verif Require Import Str F32 Res ResFacts Json PropKey Html Css Element Tree ViewModel Render Update Matching
  Cascade Initial Animation Apply Styling Events View SpecReact SpecLive SpecView SpecEvents FrameFacts LiveFacts LiveUpdate LiveView EventFacts.

Lemma hit_touched t p n e : get_ctx t n = Some e -> (hit p e = true <-> touched t p n).
Proof.
  intros He. unfold hit, hovers, touched, in_box, in_span. rewrite !andb_true_iff, bool_decide_eq_true. split.
  - intros ((? & ?) & ((? & ?) & ?) & ?). by exists e.
  - intros (e' & He' & ? & ? & (? & ?) & (? & ?)). assert (e' = e) as -> by congruence. done.
Qed.

Lemma children_attached t n cs : children t n = Ok cs -> attached t n = cs.
Proof. unfold children, get_node, attached. intros H. inv_ok. by rewrite Hr. Qed.

Lemma filter_concat (P : nat -> Prop) `{!forall x, Decision (P x)} (ls : list (list nat)) : filter P (List.concat ls) = List.concat (map (filter P) ls).
Proof. induction ls as [|l ls IH]; [done|]. cbn [List.concat map]. by rewrite list.filter_app, IH. Qed.

Lemma hits_order t p : forall depth n u, calculate_mouse_hovers depth t n p = Ok u ->
  exists all, document_order t n all /\ u = filter (touched t p) all.
Proof.
  induction depth as [|depth IH]; intros n u H; cbn [calculate_mouse_hovers] in H; [done|].
  apply bindR_Ok in H as (e & He & H). apply bindR_Ok in H as (cs & Hcs & H). apply bindR_Ok in H as (l & Hl & H). injection H as <-.
  apply get_element_ctx in He. apply children_attached in Hcs. apply mapR_Forall2 in Hl.
  assert (Hls : exists ls, Forall2 (document_order t) cs ls /\ l = map (filter (touched t p)) ls).
  { clear Hcs. induction Hl as [|c u cs l Hc _ IHl]; [by exists []|]. destruct IHl as (ls & H1 & ->).
    destruct (IH _ _ Hc) as (all & H2 & ->). exists (all :: ls). split; [by constructor|done]. }
  destruct Hls as (ls & H1 & ->). exists (n :: List.concat ls). split; [constructor; by rewrite Hcs|].
  rewrite filter_cons, filter_concat. pose proof (hit_touched t p n e He) as Hht.
  destruct (hit p e), (decide (touched t p n)); try done; exfalso; [by apply n0, Hht|by apply Hht in t0].
Qed.

Lemma on_page_trans t a b c : on_page t a b -> on_page t b c -> on_page t a c.
Proof. intros H1 H2. induction H2; [done|by econstructor]. Qed.

Section live.
  Context (t : Tree) (root : NodeId) (Hl : live t root).

  Lemma on_page_le a k : on_page t a k -> a <= k.
  Proof. induction 1 as [|p c _ IH Hc]; [done|]. pose proof (live_newer _ _ Hl p c (or_introl Hc)). lia. Qed.
  Lemma on_page_lt a k : a < t_next t -> on_page t a k -> k < t_next t.
  Proof. intros Ha. induction 1 as [|p c _ IH Hc]; [done|]. pose proof (live_newer _ _ Hl p c (or_introl Hc)). lia. Qed.
  Lemma on_page_chain a b k : on_page t a k -> on_page t b k -> on_page t a b \/ on_page t b a.
  Proof.
    intros Ha. revert b. induction Ha as [|p c Ha IH Hc]; intros b Hb; [by right|].
    inversion Hb as [|p' c' Hb' Hc']; subst.
    - left. by econstructor.
    - assert (p' = p) as ->. { apply (live_parent _ _ Hl) in Hc, Hc'. congruence. } by apply IH.
  Qed.
  Lemma siblings_apart n a b k : a ∈ attached t n -> b ∈ attached t n -> on_page t a k -> on_page t b k -> a = b.
  Proof.
    intros Ha Hb Hak Hbk.
    assert (Hwlog : forall x y, x ∈ attached t n -> y ∈ attached t n -> on_page t x y -> x = y).
    { intros x y Hx Hy H. inversion H as [|p c Hp Hc]; subst; [done|].
      assert (p = n) as ->. { apply (live_parent _ _ Hl) in Hc, Hy. congruence. }
      apply on_page_le in Hp. pose proof (live_newer _ _ Hl n x (or_introl Hx)). lia. }
    destruct (on_page_chain _ _ _ Hak Hbk) as [H|H]; [by apply Hwlog|symmetry; by apply Hwlog].
  Qed.

  Lemma order_ind' (P : NodeId -> list NodeId -> Prop) :
    (forall n ls, Forall2 (document_order t) (attached t n) ls -> Forall2 P (attached t n) ls -> P n (n :: List.concat ls)) ->
    forall n l, document_order t n l -> P n l.
  Proof.
    intros Hstep. fix IH 3. intros n l [m ls H]. apply Hstep; [done|]. revert H. generalize (attached t m). intros cs H.
    induction H; constructor; [by apply IH|done].
  Qed.

  Lemma order_page n l : document_order t n l -> forall k, k ∈ l <-> on_page t n k.
  Proof.
    intros H. revert n l H. apply (order_ind' (fun n l => forall k, k ∈ l <-> on_page t n k)). intros n ls _ H k.
    rewrite elem_of_cons. split.
    - intros [->|Hk]; [constructor|]. apply elem_of_list_In, in_concat in Hk as (l & Hl1 & Hl2).
      apply elem_of_list_In, elem_of_list_lookup in Hl1 as (i & Hi). destruct (Forall2_lookup_r _ _ _ _ _ H Hi) as (c & Hc & Hp).
      apply elem_of_list_In, Hp in Hl2. apply (on_page_trans _ _ c); [|done]. econstructor; [constructor|by eapply elem_of_list_lookup_2].
    - intros Hk. destruct (decide (k = n)) as [->|Hne]; [by left|right].
      assert (Hc : exists c, c ∈ attached t n /\ on_page t c k).
      { clear H. induction Hk as [|p c Hp IH Hc]; [done|]. destruct (decide (p = n)) as [->|Hpn].
        - exists c. split; [done|constructor].
        - destruct (IH Hpn) as (d & Hd & Hdp). exists d. split; [done|]. by econstructor. }
      destruct Hc as (c & Hc & Hck). apply elem_of_list_lookup in Hc as (i & Hi).
      destruct (Forall2_lookup_l _ _ _ _ _ H Hi) as (l & Hli & Hp). apply elem_of_list_In, in_concat. exists l.
      split; [apply elem_of_list_In; by eapply elem_of_list_lookup_2|]. by apply elem_of_list_In, Hp.
  Qed.

  Lemma order_nodup n l : document_order t n l -> NoDup l.
  Proof.
    intros H. revert n l H. apply (order_ind' (fun _ l => NoDup l)). intros n ls Ho H.
    apply list.NoDup_cons. split.
    - intros Hn. apply elem_of_list_In, in_concat in Hn as (l & Hl1 & Hl2). apply elem_of_list_In, elem_of_list_lookup in Hl1 as (i & Hi).
      destruct (Forall2_lookup_r _ _ _ _ _ Ho Hi) as (c & Hc & Hp). apply elem_of_list_In in Hl2. apply (order_page _ _ Hp), on_page_le in Hl2.
      pose proof (live_newer _ _ Hl n c (or_introl (elem_of_list_lookup_2 _ _ _ Hc))). lia.
    - pose proof (proj1 (live_once _ _ Hl n)) as Hnd. assert (Hsub : forall c, c ∈ attached t n -> c ∈ attached t n) by done.
      revert Hsub Hnd Ho H. generalize (attached t n) at 1 3 4 5. intros cs Hsub Hnd Ho H. revert Hsub Hnd H.
      induction Ho as [|c l cs ls Hc Ho IH]; intros Hsub Hnd H; cbn; [constructor|].
      apply list.NoDup_cons in Hnd as [Hcn Hnd]. inversion H as [|? ? ? ? Hl1 H']; subst. apply list.NoDup_app. split; [done|]. split.
      + intros k Hk Hk2. apply elem_of_list_In, in_concat in Hk2 as (l2 & H1 & H2). apply elem_of_list_In, elem_of_list_lookup in H1 as (i & Hi).
        destruct (Forall2_lookup_r _ _ _ _ _ Ho Hi) as (d & Hd & Hp). apply elem_of_list_In in H2.
        apply (order_page _ _ Hp) in H2. apply (order_page _ _ Hc) in Hk.
        assert (Hd' : d ∈ cs) by by eapply elem_of_list_lookup_2.
        assert (c = d) as ->. { eapply siblings_apart; [apply Hsub; by left|apply Hsub; by right|done|done]. } done.
      + apply IH; [|done|done]. intros d Hd. apply Hsub. by right.
  Qed.

  Lemma hits_total p : forall depth n, n < t_next t -> t_next t - n <= depth -> exists u, calculate_mouse_hovers depth t n p = Ok u.
  Proof.
    induction depth as [|depth IH]; intros n Hn Hd; [lia|]. cbn [calculate_mouse_hovers].
    destruct (live_lookup _ _ _ Hl Hn) as (x & e & Hx & Hxe & _).
    assert (He : get_element t n = Ok e). { apply get_element_ctx. unfold get_ctx. by rewrite Hx. }
    rewrite He. cbn [bindR]. assert (Hcs : children t n = Ok (attached t n)). { unfold children, get_node, attached. by rewrite Hx. }
    rewrite Hcs. cbn [bindR].
    assert (Hm : exists l, mapR (fun c => calculate_mouse_hovers depth t c p) (attached t n) = Ok l).
    { assert (Hsub : forall c, c ∈ attached t n -> n < c < t_next t) by (intros c Hc; apply (live_newer _ _ Hl); by left).
      revert Hsub. generalize (attached t n). intros cs. induction cs as [|c cs IHc]; intros Hsub; [by exists []|]. cbn [mapR].
      destruct (Hsub c) as [H1 H2]; [by left|]. destruct (IH c H2) as (u & ->); [lia|]. cbn [bindR].
      destruct IHc as (l & ->); [intros; apply Hsub; by right|]. by eexists. }
    destruct Hm as (l & ->). cbn [bindR]. by eexists.
  Qed.
End live.
