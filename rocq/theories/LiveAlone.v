(** * Bindings of a rendered template do not write each other's slots. *)
From Coq Require Import ZArith Lia.
From stdpp Require Import gmap.
From RecordUpdate Require Import RecordUpdate.
From Verif Require Import Str StrFacts F32 Res ResFacts Json JsonFacts PropKey Html Css Element Tree ViewModel Render Update Matching
  Cascade Initial Animation Apply Styling Events View
  SpecBind SpecReact SpecLive SpecView SpecRender SpecTree BindFacts ConformFacts ChangeFacts BindProps FrameFacts
  RenderTree RenderNode RenderProps RenderAny RenderMore LiveFacts LiveUpdate LiveView LiveSlots LiveValues.

(** [rk] is the part of the template that became node [m] *)
Inductive sub : nat -> rnode -> nat -> rnode -> Prop :=
| sub_here n r : sub n r n r
| sub_kid n tag binds kids marks i c k m rk :
    place (S n) kids !! i = Some c -> kids !! i = Some k -> sub c k m rk -> sub n (RElem tag binds kids marks) m rk.

Lemma place_lookup l : forall n i c k, place n l !! i = Some c -> l !! i = Some k ->
  n <= c /\ c + rsize k <= n + rsizes l /\ forall j c' k', i < j -> place n l !! j = Some c' -> l !! j = Some k' -> c + rsize k <= c'.
Proof.
  induction l as [|k0 l IH]; intros n i c k Hc Hk; [done|]. cbn [place rsizes] in *. destruct i as [|i]; cbn in Hc, Hk.
  - injection Hc as <-. injection Hk as <-. split; [lia|]. split; [lia|]. intros j c' k' Hj Hc' Hk'. destruct j as [|j]; [lia|]. cbn in Hc', Hk'.
    destruct (IH _ _ _ _ Hc' Hk') as (H & _). lia.
  - destruct (IH _ _ _ _ Hc Hk) as (H1 & H2 & H3). split; [lia|]. split; [lia|]. intros j c' k' Hj Hc' Hk'. destruct j as [|j]; [lia|]. cbn in Hc', Hk'.
    eapply (H3 j); [lia|done..].
Qed.

Lemma sub_range n r m rk : sub n r m rk -> n <= m /\ m + rsize rk <= n + rsize r.
Proof.
  induction 1 as [n r|n tag binds kids marks i c k m rk Hc Hk _ [IH1 IH2]]; [lia|]. rewrite rsize_elem.
  destruct (place_lookup _ _ _ _ _ Hc Hk) as (H1 & H2 & _). lia.
Qed.
Lemma sub_fun n r m rk : sub n r m rk -> forall rk', sub n r m rk' -> rk = rk'.
Proof.
  induction 1 as [n r|n tag binds kids marks i c k m rk Hc Hk Hs IH]; intros rk' H'.
  - inversion H' as [|? ? ? ? ? i c k ? ? Hc Hk Hs]; subst; [done|]. apply sub_range in Hs as [Hs _].
    destruct (place_lookup _ _ _ _ _ Hc Hk) as (H1 & _). lia.
  - inversion H' as [|? ? ? ? ? i' c' k' ? ? Hc' Hk' Hs']; subst.
    + apply sub_range in Hs as [Hs _]. destruct (place_lookup _ _ _ _ _ Hc Hk) as (H1 & _). lia.
    + assert (i = i') as ->.
      { pose proof (sub_range _ _ _ _ Hs) as [A1 A2]. pose proof (sub_range _ _ _ _ Hs') as [B1 B2].
        pose proof (rsize_pos rk). pose proof (rsize_pos rk').
        destruct (Nat.lt_trichotomy i i') as [Hlt|[Heq|Hgt]]; [|done|].
        - pose proof (proj2 (proj2 (place_lookup _ _ _ _ _ Hc Hk)) _ _ _ Hlt Hc' Hk'). lia.
        - pose proof (proj2 (proj2 (place_lookup _ _ _ _ _ Hc' Hk')) _ _ _ Hgt Hc Hk). lia. }
      rewrite Hc in Hc'. injection Hc' as <-. rewrite Hk in Hk'. injection Hk' as <-. by apply IH.
Qed.

Definition own_bindings (n : nat) (r : rnode) : list (string * Binding) :=
  match r with
  | RText spans => span_bindings (BText n) 0 spans
  | RImage _ => []
  | RElem _ binds kids marks => flat_map (bind_bindings n) binds ++ flat_map (mark_bindings n (place (S n) kids)) marks
  end.

Lemma kid_bindings_in l : forall m p b, In (p, b) (kid_bindings m l) -> exists i c k, place m l !! i = Some c /\ l !! i = Some k /\ In (p, b) (bindings_of c k).
Proof.
  induction l as [|k l IH]; intros m p b H; [done|]. cbn [kid_bindings] in H. apply in_app_or in H as [H|H].
  - exists 0, m, k. done.
  - destruct (IH _ _ _ H) as (i & c & k' & H1 & H2 & H3). exists (S i), c, k'. done.
Qed.
Lemma bindings_sub r : forall n p b, In (p, b) (bindings_of n r) -> exists m rk, sub n r m rk /\ In (p, b) (own_bindings m rk).
Proof.
  induction r as [spans|src|tag binds kids marks IH] using rnode_ind'; intros n p b H.
  - exists n, (RText spans). split; [constructor|done].
  - done.
  - rewrite bindings_of_elem in H. rewrite app_assoc in H. apply in_app_or in H as [H|H].
    + exists n, (RElem tag binds kids marks). split; [constructor|done].
    + apply kid_bindings_in in H as (i & c & k & Hc & Hk & H). rewrite List.Forall_forall in IH.
      destruct (IH k ltac:(apply elem_of_list_In; by eapply elem_of_list_lookup_2) _ _ _ H) as (m & rk & Hs & Hm).
      exists m, rk. split; [|done]. by eapply sub_kid.
Qed.
Lemma sub_marks_ok n r m rk : sub n r m rk -> marks_ok r -> marks_ok rk.
Proof.
  induction 1 as [n r|n tag binds kids marks i c k m rk Hc Hk Hs IH]; intros Hm; [done|]. apply IH.
  apply marks_ok_elem in Hm as [_ Hm]. rewrite List.Forall_forall in Hm. apply Hm, elem_of_list_In. by eapply elem_of_list_lookup_2.
Qed.

(** whose slot a binding of a node is *)
Definition owner (l : slot) : nat := match l with SText n _ | SAttr n _ _ | STag n _ | SChild n _ | SRange n _ _ => n end.

Lemma own_text n r p b m i : In (p, b) (own_bindings n r) -> bd_params b = BText m i ->
  m = n /\ exists spans q s, r = RText spans /\ spans !! i = Some (RGet p q s) /\ b = mkBinding (BText n i) q.
Proof.
  intros H Hb. destruct r as [spans|src|tag binds kids marks]; cbn [own_bindings] in H; [|done|].
  - apply span_bindings_in in H as (j & q & s & Hj & Hl & ->). cbn in Hb. injection Hb as -> ->. split; [done|]. rewrite Nat.sub_0_r in Hl. eauto 10.
  - exfalso. apply in_app_or in H as [H|H]; apply in_flat_map in H as (x & _ & H).
    + destruct x; try done; cbn in H; [destruct H as [[= <- <-]|[]]; done|]. apply span_bindings_in in H as (j & q & s & Hj & Hl & ->). done.
    + destruct x; cbn in H; try done; [destruct (place _ _ !! i0)|]; try done; destruct H as [[= <- <-]|[]]; done.
Qed.
Lemma own_child n r p b m c v : In (p, b) (own_bindings n r) -> bd_params b = BVisibility m c v ->
  m = n /\ exists tag binds kids marks i q, r = RElem tag binds kids marks /\ place (S n) kids !! i = Some c /\ In (MCond i v p q) marks /\ b = mkBinding (BVisibility n c v) q.
Proof.
  intros H Hb. destruct r as [spans|src|tag binds kids marks]; cbn [own_bindings] in H; [|done|].
  - exfalso. apply span_bindings_in in H as (j & q & s & Hj & Hl & ->). done.
  - apply in_app_or in H as [H|H]; apply in_flat_map in H as (x & Hx & H).
    + exfalso. destruct x; try done; cbn in H; [destruct H as [[= <- <-]|[]]; done|]. apply span_bindings_in in H as (j & q & s & Hj & Hl & ->). done.
    + destruct x as [|i v' p' q|]; cbn in H; try done; [|destruct H as [[= <- <-]|[]]; done]. destruct (place _ _ !! i) as [c'|] eqn:E; [|done].
      destruct H as [[= <- <-]|[]]. cbn in Hb. injection Hb as -> -> ->. split; [done|]. exists tag, binds, kids, marks, i, q. done.
Qed.
Lemma own_range n r p b m s z : In (p, b) (own_bindings n r) -> bd_params b = BRepeat m s z ->
  m = n /\ exists tag binds kids marks q, r = RElem tag binds kids marks /\ In (MLoop s z p q) marks /\ b = mkBinding (BRepeat n s z) q.
Proof.
  intros H Hb. destruct r as [spans|src|tag binds kids marks]; cbn [own_bindings] in H; [|done|].
  - exfalso. apply span_bindings_in in H as (j & q & s' & Hj & Hl & ->). done.
  - apply in_app_or in H as [H|H]; apply in_flat_map in H as (x & Hx & H).
    + exfalso. destruct x; try done; cbn in H; [destruct H as [[= <- <-]|[]]; done|]. apply span_bindings_in in H as (j & q & s' & Hj & Hl & ->). done.
    + destruct x as [|i v' p' q|s' c' p' q]; cbn in H; try done; [destruct (place _ _ !! i); [|done]; destruct H as [[= <- <-]|[]]; done|].
      destruct H as [[= <- <-]|[]]. cbn in Hb. injection Hb as -> -> ->. split; [done|]. exists tag, binds, kids, marks, q. done.
Qed.

Local Instance mark_eq : EqDecision mark.
Proof. solve_decision. Defined.

(** marks of a node speak about different kids *)
Lemma ordered_apart ms : forall k, ordered k ms -> forall a b lo hi lo' hi', In a ms -> In b ms ->
  mark_range a = Some (lo, hi) -> mark_range b = Some (lo', hi') -> lo < hi -> lo' < hi' -> a <> b -> hi <= lo' \/ hi' <= lo.
Proof.
  assert (Hge : forall l k, ordered k l -> forall b lo hi, In b l -> mark_range b = Some (lo, hi) -> k <= lo).
  { clear ms. induction l as [|m ms IH]; intros k Ho b lo hi Hb Hr; [done|]. cbn [ordered] in Ho. destruct Hb as [->|Hb].
    - rewrite Hr in Ho. lia.
    - destruct (mark_range m) as [[lo' hi']|] eqn:E; [|by eapply IH]. destruct Ho as [H1 H2]. specialize (IH _ H2 _ _ _ Hb Hr).
      destruct m; cbn in E; try done; injection E as <- <-; lia. }
  induction ms as [|m ms IH]; intros k Ho a b lo hi lo' hi' Ha Hb Hra Hrb H1 H2 Hne; [done|]. cbn [ordered] in Ho.
  destruct Ha as [->|Ha], Hb as [->|Hb].
  - done.
  - rewrite Hra in Ho. left. eapply Hge; [apply Ho|exact Hb|exact Hrb].
  - rewrite Hrb in Ho. right. eapply Hge; [apply Ho|exact Ha|exact Hra].
  - destruct (mark_range m) as [[? ?]|]; [destruct Ho as [_ Ho]|]; exact (IH _ Ho a b lo hi lo' hi' Ha Hb Hra Hrb H1 H2 Hne).
Qed.

(** ** Alone *)
Section alone.
  Context (read : string -> option (list Declaration)) (t : Tree) (rn : rnode) (bs : Bindings).
  Context (Hm : marks_ok rn) (Hre : rendered read t rn) (Hfl : flat bs ≡ₚ bindings_of 1 rn).

  Lemma flat_sub p b : In (p, b) (flat bs) -> exists m rk, sub 1 rn m rk /\ In (p, b) (own_bindings m rk).
  Proof. intros H. apply bindings_sub. apply elem_of_list_In. rewrite <- Hfl. by apply elem_of_list_In. Qed.

  Lemma defined_sub m tag binds kids marks : sub 1 rn m (RElem tag binds kids marks) -> defined t m = place (S m) kids.
  Proof.
    intros Hs. assert (Hst : forall par n r m rk, sub n r m rk -> stands read t par n r -> exists par', stands read t par' m rk).
    { clear. intros par n r m rk H. revert par. induction H as [n r|n tag binds kids marks i c k m rk Hc Hk Hs IH]; intros par Hst; [eauto|].
      rewrite stands_eq in Hst. destruct Hst as [_ Hall]. cbn [kids_of] in Hall. eapply IH. by eapply stand_all_lookup. }
    destruct (Hst _ _ _ _ _ Hs (re_stands _ _ _ Hre)) as (par & H). apply stands_root in H. unfold defined, get_ctx. rewrite H. cbn. done.
  Qed.

  Lemma text_alone p b n i : In (p, b) (flat bs) -> bd_params b = BText n i -> alone t bs p b.
  Proof.
    intros Hin Hb p' b' Hin'. rewrite Hb. cbn [slot_of]. split; [|destruct (bd_params b'); cbn; tauto].
    intros Heq. destruct (bd_params b') as [n' i'| | | |] eqn:Hb'; cbn in Heq; try done. injection Heq as -> ->.
    apply flat_sub in Hin as (m & rk & Hs & Ho). apply flat_sub in Hin' as (m' & rk' & Hs' & Ho').
    apply (own_text _ _ _ _ _ _ Ho) in Hb as (-> & spans & q & s & -> & Hl & ->).
    apply (own_text _ _ _ _ _ _ Ho') in Hb' as (-> & spans' & q' & s' & -> & Hl' & ->).
    pose proof (sub_fun _ _ _ _ Hs _ Hs') as [= <-]. rewrite Hl in Hl'. injection Hl' as <- <- <-. done.
  Qed.

  Lemma mark_node m tag binds kids marks : sub 1 rn m (RElem tag binds kids marks) -> ordered 0 marks /\ Forall (in_range (List.length kids)) marks.
  Proof. intros Hs. pose proof (sub_marks_ok _ _ _ _ Hs Hm) as Hk. apply marks_ok_elem in Hk as [(H1 & H2 & _) _]. done. Qed.

  Lemma child_alone p b q c v : In (p, b) (flat bs) -> bd_params b = BVisibility q c v -> alone t bs p b.
  Proof.
    intros Hin Hb p' b' Hin'. rewrite Hb. cbn [slot_of]. apply flat_sub in Hin as (m & rk & Hs & Ho). apply flat_sub in Hin' as (m' & rk' & Hs' & Ho').
    apply (own_child _ _ _ _ _ _ _ Ho) in Hb as (-> & tag & binds & kids & marks & i & pi & -> & Hi & Hmk & ->).
    destruct (mark_node _ _ _ _ _ Hs) as [Hord Hrg]. split.
    - intros Heq. destruct (bd_params b') as [|q' c' v'| | |] eqn:Hb'; cbn in Heq; try done. injection Heq as -> ->.
      apply (own_child _ _ _ _ _ _ _ Ho') in Hb' as (-> & tag' & binds' & kids' & marks' & i' & pi' & -> & Hi' & Hmk' & ->).
      pose proof (sub_fun _ _ _ _ Hs _ Hs') as [= <- <- <- <-].
      assert (i = i') as <- by (eapply NoDup_lookup; [apply place_NoDup|exact Hi|exact Hi']).
      destruct (decide (MCond i v p pi = MCond i v' p' pi')) as [[= -> -> ->]|Hne]; [done|]. exfalso.
      destruct (ordered_apart _ _ Hord _ _ i (S i) i (S i) Hmk Hmk' eq_refl eq_refl ltac:(lia) ltac:(lia) Hne); lia.
    - destruct (bd_params b') as [| | | |q' s z] eqn:Hb'; cbn [slot_of disturbs]; try tauto. intros [<- Hc].
      apply (own_range _ _ _ _ _ _ _ Ho') in Hb' as (-> & tag' & binds' & kids' & marks' & pi' & -> & Hmk' & ->).
      pose proof (sub_fun _ _ _ _ Hs _ Hs') as [= <- <- <- <-]. rewrite (defined_sub _ _ _ _ _ Hs) in Hc.
      rewrite (block_index _ _ _ _ _ (place_NoDup _ _) Hi) in Hc.
      destruct (ordered_apart _ _ Hord _ _ i (S i) s (s + z) Hmk Hmk' eq_refl eq_refl ltac:(lia) ltac:(lia) ltac:(done)); lia.
  Qed.

  Lemma range_alone p b q s z : In (p, b) (flat bs) -> bd_params b = BRepeat q s z -> 0 < z -> alone t bs p b.
  Proof.
    intros Hin Hb Hz p' b' Hin'. rewrite Hb. cbn [slot_of]. apply flat_sub in Hin as (m & rk & Hs & Ho). apply flat_sub in Hin' as (m' & rk' & Hs' & Ho').
    apply (own_range _ _ _ _ _ _ _ Ho) in Hb as (-> & tag & binds & kids & marks & pi & -> & Hmk & ->).
    destruct (mark_node _ _ _ _ _ Hs) as [Hord Hrg]. split.
    - intros Heq. destruct (bd_params b') as [| | | |q' s' z'] eqn:Hb'; cbn in Heq; try done. injection Heq as -> -> ->.
      apply (own_range _ _ _ _ _ _ _ Ho') in Hb' as (-> & tag' & binds' & kids' & marks' & pi' & -> & Hmk' & ->).
      pose proof (sub_fun _ _ _ _ Hs _ Hs') as [= <- <- <- <-].
      destruct (decide (MLoop s z p pi = MLoop s z p' pi')) as [[= -> ->]|Hne]; [done|]. exfalso.
      destruct (ordered_apart _ _ Hord _ _ s (s + z) s (s + z) Hmk Hmk' eq_refl eq_refl ltac:(lia) ltac:(lia) Hne); lia.
    - destruct (bd_params b') as [|q' c' v'| | |q' s' z'] eqn:Hb'; cbn [slot_of disturbs]; try tauto.
      + intros [<- Hc]. apply (own_child _ _ _ _ _ _ _ Ho') in Hb' as (-> & tag' & binds' & kids' & marks' & i' & pi' & -> & Hi' & Hmk' & ->).
        pose proof (sub_fun _ _ _ _ Hs _ Hs') as [= <- <- <- <-]. rewrite (defined_sub _ _ _ _ _ Hs) in Hc.
        rewrite (block_index _ _ _ _ _ (place_NoDup _ _) Hi') in Hc.
        destruct (ordered_apart _ _ Hord _ _ s (s + z) i' (S i') Hmk Hmk' eq_refl eq_refl ltac:(lia) ltac:(lia) ltac:(done)); lia.
      + intros (<- & Hne & c & Hc & Hc'). apply (own_range _ _ _ _ _ _ _ Ho') in Hb' as (-> & tag' & binds' & kids' & marks' & pi' & -> & Hmk' & ->).
        pose proof (sub_fun _ _ _ _ Hs _ Hs') as [= <- <- <- <-]. rewrite (defined_sub _ _ _ _ _ Hs) in Hc, Hc'.
        apply block_lookup in Hc as (j & Hj & Hlk). rewrite (block_index _ _ _ _ _ (place_NoDup _ _) Hlk) in Hc'.
        destruct (ordered_apart _ _ Hord _ _ s (s + z) s' (s' + z') Hmk Hmk' eq_refl eq_refl ltac:(lia) ltac:(lia)); [congruence|lia..].
  Qed.
End alone.
