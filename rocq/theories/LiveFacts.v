(** * Applying reactions to a live tree. *)
From Coq Require Import ZArith Lia.
From stdpp Require Import gmap.
From RecordUpdate Require Import RecordUpdate.
From Verif Require Import Str StrFacts F32 Res ResFacts Json JsonFacts PropKey Html Css Element Tree ViewModel Render Update
  SpecLive SpecView SpecTree.

Lemma same_def_refl t : same_definitions t t. Proof. done. Qed.
Lemma same_def_trans a b c : same_definitions a b -> same_definitions b c -> same_definitions a c.
Proof. intros [H1 H2] [H3 H4]. split; [congruence|]. intros n. by rewrite H2. Qed.
Lemma same_def_sym a b : same_definitions a b -> same_definitions b a.
Proof. intros [H1 H2]. split; [done|]. intros n. by rewrite H2. Qed.

Lemma same_def_ctx t t' n e : same_definitions t t' -> get_ctx t n = Some e ->
  exists e', get_ctx t' n = Some e' /\ definition_of e' = definition_of e.
Proof.
  intros [_ H] He. specialize (H n). rewrite He in H. cbn in H. destruct (get_ctx t' n) as [e'|]; [|done].
  exists e'. split; [done|]. symmetry. exact (inj Some _ _ H).
Qed.
Lemma same_def_defined t t' n : same_definitions t t' -> defined t' n = defined t n.
Proof.
  intros [_ H]. specialize (H n). unfold defined. destruct (get_ctx t n), (get_ctx t' n); cbn in H; try done.
  by injection H as _ <-.
Qed.

(** the definitions determine which reactions make sense *)
Lemma reaction_ok_def t t' r : same_definitions t t' -> reaction_ok t r -> reaction_ok t' r.
Proof.
  intros Hd H. destruct r as [n s x|p n v|p s c z|n k b|n k s x]; cbn [reaction_ok] in *.
  - destruct H as (e & He & [l Hl]). destruct (same_def_ctx _ _ _ _ Hd He) as (e' & He' & Heq). exists e'. split; [done|].
    injection Heq as _ _ _ Heq _ _ _. rewrite Hl in Heq. destruct (e_text e'); [eauto|done].
  - destruct H as (e & He & Hin & Htag). destruct (same_def_ctx _ _ _ _ Hd He) as (e' & He' & Heq). exists e'. split; [done|].
    injection Heq as _ -> -> _ _ _ _. done.
  - destruct H as (e & He & Hin & Htag). destruct (same_def_ctx _ _ _ _ Hd He) as (e' & He' & Heq). exists e'. split; [done|].
    injection Heq as _ -> -> _ _ _ _. done.
  - destruct H as (e & He). destruct (same_def_ctx _ _ _ _ Hd He) as (e' & He' & Heq). eauto.
  - destruct H as (e & He & [l Hl]). destruct (same_def_ctx _ _ _ _ Hd He) as (e' & He' & Heq). exists e'. split; [done|].
    injection Heq as _ _ _ _ Heq _ _. assert (Hk : (List.length <$> e_attrs_bindings e') !! k = (List.length <$> e_attrs_bindings e) !! k) by (by rewrite Heq).
    rewrite !lookup_fmap, Hl in Hk. cbn in Hk. destruct (e_attrs_bindings e' !! k); [eauto|done].
Qed.

(** ** Changing the element of a node *)
Lemma get_ctx_put n e t m : get_ctx (put_element n e t) m =
  if decide (n = m) then (fun _ => e) <$> t_nodes t !! n else get_ctx t m.
Proof.
  unfold get_ctx, put_element. cbn. destruct (decide (n = m)) as [<-|Hne].
  - rewrite lookup_alter. by destruct (t_nodes t !! n).
  - by rewrite lookup_alter_ne.
Qed.
Lemma attached_put n e t m : attached (put_element n e t) m = attached t m.
Proof.
  unfold attached, put_element. cbn. destruct (decide (n = m)) as [<-|Hne].
  - rewrite lookup_alter. by destruct (t_nodes t !! n).
  - by rewrite lookup_alter_ne.
Qed.
Lemma parent_put n e t m : parent_of (put_element n e t) m = parent_of t m.
Proof.
  unfold parent_of, put_element. cbn. destruct (decide (n = m)) as [<-|Hne].
  - rewrite lookup_alter. by destruct (t_nodes t !! n).
  - by rewrite lookup_alter_ne.
Qed.
Lemma ctx_node t n e : get_ctx t n = Some e -> exists x, t_nodes t !! n = Some x.
Proof. unfold get_ctx. destruct (t_nodes t !! n); [eauto|done]. Qed.

Lemma put_same_def n e0 e t : get_ctx t n = Some e0 -> definition_of e = definition_of e0 -> same_definitions t (put_element n e t).
Proof.
  intros H0 Hd. split; [done|]. intros m. rewrite get_ctx_put. destruct (decide (n = m)) as [<-|Hne]; [|done].
  destruct (ctx_node _ _ _ H0) as [x Hx]. rewrite Hx, H0. cbn. by rewrite Hd.
Qed.

(** a tree with the same definitions, attachments and parents is as live *)
Lemma live_same t t' root : live t root -> same_definitions t t' -> beyond t' ->
  (forall n, attached t' n = attached t n) -> (forall n, parent_of t' n = parent_of t n) -> live t' root.
Proof.
  intros [L1 L2 L3 L4 L5 L6 L7 L8] Hd Hb Ha Hp. pose proof Hd as [Hn _].
  assert (Hdd : forall n, defined t' n = defined t n) by (intros; by apply same_def_defined).
  split.
  - exact Hb.
  - intros n Hlt. rewrite <- Hn in Hlt. destruct (L2 _ Hlt) as (e & He & Hen & Himg).
    destruct (same_def_ctx _ _ _ _ Hd He) as (e' & He' & Heq). exists e'. split; [done|].
    injection Heq as -> _ -> _ _ _ _. split; [done|]. by rewrite Ha, Hdd.
  - intros n. rewrite Ha, Hdd. apply L3.
  - intros n c. rewrite Ha, Hdd. apply L4.
  - intros n c. rewrite Ha, Hdd, <- Hn. apply L5.
  - intros n c. rewrite Ha, Hp. apply L6.
  - intros n m c. rewrite !Hdd. apply L7.
  - rewrite Hdd. split; [apply L8|]. intros n c. rewrite Hdd, Ha. apply L8.
Qed.
Lemma live_put t root n e0 e : live t root -> get_ctx t n = Some e0 -> definition_of e = definition_of e0 ->
  live (put_element n e t) root /\ same_definitions t (put_element n e t).
Proof.
  intros Hl H0 Hd. pose proof (put_same_def _ _ _ _ H0 Hd) as Hs. split; [|done].
  eapply live_same; [exact Hl|exact Hs|..].
  - intros m Hm. unfold put_element. cbn. destruct (ctx_node _ _ _ H0) as [x Hx].
    destruct (decide (n = m)) as [<-|Hne]; [|rewrite lookup_alter_ne by done; by apply Hl].
    rewrite (live_beyond _ _ Hl) in Hx by done. done.
  - intros. apply attached_put.
  - intros. apply parent_put.
Qed.

(** ** Changing the children of a node *)
Definition moved (t t' : Tree) (p : NodeId) (cs : list NodeId) (c : NodeId) (o : option NodeId) : Prop :=
  t_next t' = t_next t /\ beyond t' /\ (forall q, get_ctx t' q = get_ctx t q) /\
  (forall q, attached t' q = if decide (q = p) then cs else attached t q) /\
  (forall q, parent_of t' q = if decide (q = c) then o else parent_of t q).

Lemma moved_def t t' p cs c o : moved t t' p cs c o -> same_definitions t t'.
Proof. intros (H1 & _ & H2 & _). split; [done|]. intros n. by rewrite H2. Qed.

Lemma moved_nodes t p c x y cs o : beyond t -> t_nodes t !! p = Some x -> t_nodes t !! c = Some y -> p <> c ->
  moved t (put_node (put_node t c (y <| n_parent := o |>)) p (x <| n_children := cs |>)) p cs c o.
Proof.
  intros Hb Hx Hy Hne. unfold moved, put_node. cbn. split; [done|]. split.
  { intros m Hm. cbn in *. rewrite !lookup_insert_ne; [by apply Hb|..]; intros ->; (rewrite Hb in Hx by done) || (rewrite Hb in Hy by done); done. }
  split; [|split].
  - intros q. unfold get_ctx. cbn. destruct (decide (p = q)) as [<-|Hp]; [rewrite lookup_insert, Hx; done|].
    rewrite lookup_insert_ne by done. destruct (decide (c = q)) as [<-|Hc]; [rewrite lookup_insert, Hy; done|].
    by rewrite lookup_insert_ne.
  - intros q. unfold attached. cbn. destruct (decide (q = p)) as [->|Hp]; [rewrite lookup_insert; done|].
    rewrite lookup_insert_ne by done. destruct (decide (c = q)) as [<-|Hc]; [rewrite lookup_insert, Hy; done|].
    by rewrite lookup_insert_ne.
  - intros q. unfold parent_of. cbn. destruct (decide (q = c)) as [->|Hc].
    + rewrite lookup_insert_ne by done. by rewrite lookup_insert.
    + destruct (decide (p = q)) as [<-|Hp]; [rewrite lookup_insert, Hx; done|]. rewrite !lookup_insert_ne by done. done.
Qed.

Lemma moved_live t t' root p cs c o e : live t root -> moved t t' p cs c o ->
  get_ctx t p = Some e -> c ∈ e_children e -> e_tag e <> "img" -> NoDup cs ->
  (forall d, d ∈ cs <-> (d = c /\ o = Some p) \/ (d <> c /\ d ∈ attached t p)) ->
  (o = Some p \/ (o = None /\ c ∈ attached t p)) -> live t' root.
Proof.
  intros Hl Hm He Hc Htag Hnd Hcs Ho. pose proof (moved_def _ _ _ _ _ _ Hm) as Hd. destruct Hm as (H1 & H2 & H3 & H4 & H5).
  assert (Hdd : forall n, defined t' n = defined t n) by (intros; by apply same_def_defined).
  assert (Hdp : defined t p = e_children e) by (unfold defined; by rewrite He).
  assert (Hpr : p <> root).
  { intros ->. destruct (live_root _ _ Hl) as [H _]. rewrite H in Hdp. rewrite <- Hdp in Hc. by apply elem_of_nil in Hc. }
  assert (Hpar : parent_of t c = None \/ parent_of t c = Some p).
  { destruct (parent_of t c) as [q|] eqn:Eq; [|by left]. right. apply (live_parent _ _ Hl) in Eq.
    assert (q <> root). { intros ->. eapply (proj2 (live_root _ _ Hl)); [|exact Eq]. by rewrite Hdp. }
    f_equal. eapply (live_place _ _ Hl); [eapply (live_defined _ _ Hl); [done|exact Eq]|by rewrite Hdp]. }
  pose proof Hl as [L1 L2 L3 L4 L5 L6 L7 L8]. split.
  - exact H2.
  - intros n Hn. rewrite H1 in Hn. destruct (L2 _ Hn) as (e' & He' & Hen & Himg). exists e'. rewrite H3. split; [done|]. split; [done|].
    rewrite H4, Hdd. destruct (decide (n = p)) as [->|_]; [|done]. rewrite He in He'. injection He' as <-. done.
  - intros n. rewrite H4, Hdd. split; [|apply L3]. destruct (decide (n = p)); [done|apply L3].
  - intros n d Hn. rewrite H4, Hdd. destruct (decide (n = p)) as [->|_]; [|by apply L4].
    intros Hin. apply Hcs in Hin as [[-> _]|[_ Hin]]; [by rewrite Hdp|by apply L4].
  - intros n d. rewrite H4, Hdd, H1. destruct (decide (n = p)) as [->|_]; [|by apply L5].
    intros [Hin|Hin]; [|apply L5; by right]. apply Hcs in Hin as [[-> _]|[_ Hin]]; [apply L5; right; by rewrite Hdp|apply L5; by left].
  - intros n d. rewrite H4, H5. destruct (decide (n = p)) as [->|Hn].
    + rewrite Hcs. destruct (decide (d = c)) as [->|Hdc].
      * split; [intros [[_ ?]|[? _]]; done|]. intros ->. by left.
      * rewrite <- L6. split; [by intros [[? _]|[_ ?]]|]. by right.
    + destruct (decide (d = c)) as [->|Hdc]; [|apply L6]. rewrite L6. split.
      * intros Hq. destruct Hpar as [Hpar|Hpar]; rewrite Hpar in Hq; congruence.
      * destruct Ho as [->|[-> _]]; congruence.
  - intros n m d. rewrite !Hdd. apply L7.
  - rewrite Hdd. split; [apply L8|]. intros n d. rewrite Hdd, H4. destruct (decide (root = p)); [done|]. apply L8.
Qed.

(** ** Insertion position *)
Lemma sublist_elem {A} (l k : list A) x : sublist l k -> x ∈ l -> x ∈ k.
Proof. intros H. induction H; intros Hx; [done| |]; rewrite ?elem_of_cons in *; intuition. Qed.

Lemma insert_perm {A} i (l : list A) c : take i l ++ c :: drop i l ≡ₚ c :: l.
Proof. rewrite <- Permutation_middle. by rewrite take_drop. Qed.
Lemma remove_perm {A} i (l : list A) c : l !! i = Some c -> l ≡ₚ c :: (take i l ++ drop (S i) l).
Proof. intros H. rewrite <- (take_drop_middle l i c H) at 1. by rewrite <- Permutation_middle. Qed.

Lemma insertion_index_spec def cs di : (forall d, d ∈ cs -> d ∈ def) -> forall k, k <= List.length cs ->
  exists i, insertion_index def cs di k = Ok i /\ i <= k /\
    (forall j, i <= j < k -> exists s si, cs !! j = Some s /\ position s def = Some si /\ di <= si) /\
    (i = 0 \/ exists s si, cs !! (i - 1) = Some s /\ position s def = Some si /\ si < di).
Proof.
  intros Hin. induction k as [|k IH]; intros Hk; cbn [insertion_index].
  - exists 0. split; [done|]. split; [lia|]. split; [intros; lia|by left].
  - destruct (lookup_lt_is_Some_2 cs k) as [s Hs]; [lia|]. rewrite Hs. cbn [unwrap bindR].
    destruct (proj2 (position_is_Some s def)) as [si Hsi]; [apply Hin; by eapply elem_of_list_lookup_2|].
    rewrite Hsi. cbn [ok_or bindR]. destruct (Nat.ltb_spec si di).
    + exists (S k). split; [done|]. split; [lia|]. split; [intros; lia|]. right. exists s, si. cbn. by rewrite Nat.sub_0_r.
    + destruct IH as (i & H1 & H2 & H3 & H4); [lia|]. exists i. split; [done|]. split; [lia|]. split; [|done].
      intros j Hj. destruct (decide (j = k)) as [->|Hne]; [by exists s, si|]. apply H3. lia.
Qed.

Lemma position_lookup_nodup x l i : NoDup l -> l !! i = Some x -> position x l = Some i.
Proof.
  intros Hnd Hl. destruct (position x l) as [j|] eqn:E.
  - apply position_Some in E as [E _]. f_equal. by eapply NoDup_lookup.
  - apply position_None in E. exfalso. apply E. by eapply elem_of_list_lookup_2.
Qed.

Lemma insertion_in_order def cs c di : NoDup def -> in_order cs def -> position c def = Some di -> c ∉ cs ->
  exists i, insertion_index def cs di (Nat.min (List.length cs) di) = Ok i /\ i <= List.length cs /\
    in_order (take i cs ++ c :: drop i cs) def.
Proof.
  intros Hnd Hs Hp Hc. unfold in_order in *.
  destruct (insertion_index_spec def cs di (fun d => sublist_elem _ _ d Hs) (Nat.min (List.length cs) di)) as (i & H1 & H2 & H3 & H4); [lia|].
  exists i. split; [done|]. split; [lia|].
  apply position_Some in Hp as [Hp _]. pose proof (take_drop_middle _ _ _ Hp) as Hdef.
  set (d1 := take di def) in *. set (d2 := drop (S di) def) in *. assert (Hl1 : List.length d1 = di).
  { unfold d1. rewrite take_length. apply lookup_lt_Some in Hp. lia. }
  clearbody d1 d2. rewrite <- Hdef in Hs. apply sublist_app_r in Hs as (c1 & c2 & -> & Hs1 & Hs2).
  assert (Hs3 : sublist c2 d2).
  { apply sublist_cons_r in Hs2 as [Hs2|(l' & -> & Hs2)]; [done|]. exfalso. apply Hc. apply elem_of_app. right. by left. }
  assert (Hi : i = List.length c1).
  { pose proof (sublist_length _ _ Hs1) as Hlen. destruct (Nat.lt_trichotomy i (List.length c1)) as [Hlt|[Heq|Hgt]]; [|done|].
    - destruct (H3 i) as (s & si & E1 & E2 & E3); [rewrite app_length; lia|].
      rewrite lookup_app_l in E1 by done. assert (Hin : s ∈ d1) by (eapply sublist_elem; [exact Hs1|by eapply elem_of_list_lookup_2]).
      apply elem_of_list_lookup in Hin as [j Hj]. assert (position s def = Some j) as E.
      { apply position_lookup_nodup; [done|]. rewrite <- Hdef. by apply lookup_app_l_Some. }
      rewrite E in E2. injection E2 as ->. apply lookup_lt_Some in Hj. lia.
    - destruct H4 as [->|(s & si & E1 & E2 & E3)]; [lia|]. rewrite lookup_app_r in E1 by lia.
      assert (Hin : s ∈ d2) by (eapply sublist_elem; [exact Hs3|by eapply elem_of_list_lookup_2]).
      apply elem_of_list_lookup in Hin as [j Hj]. assert (position s def = Some (di + S j)) as E.
      { apply position_lookup_nodup; [done|]. rewrite <- Hdef. rewrite lookup_app_r by lia.
        replace (di + S j - List.length d1) with (S j) by lia. done. }
      rewrite E in E2. injection E2 as <-. lia. }
  subst i. rewrite take_app, drop_app. rewrite <- Hdef. apply sublist_app; [done|]. by apply sublist_skip.
Qed.

(** ** One reaction *)
Lemma put_children_set_parent_ok t p c x y cs o : t_nodes t !! p = Some x -> t_nodes t !! c = Some y -> p <> c ->
  (do! t <- set_parent c o t; put_children p cs t) = Ok (put_node (put_node t c (y <| n_parent := o |>)) p (x <| n_children := cs |>)).
Proof.
  intros Hx Hy Hne. unfold set_parent, put_children, get_node. rewrite Hy. cbn [unwrap bindR]. unfold put_node at 1. cbn [t_nodes set].
  rewrite lookup_insert_ne, Hx by done. done.
Qed.

Lemma live_lookup t root n : live t root -> n < t_next t -> exists x e, t_nodes t !! n = Some x /\ n_ctx x = Some e /\
  attached t n = n_children x /\ get_ctx t n = Some e /\ defined t n = e_children e.
Proof.
  intros Hl Hn. destruct (live_node _ _ Hl _ Hn) as (e & He & _). destruct (ctx_node _ _ _ He) as [x Hx].
  exists x, e. unfold attached, defined. rewrite Hx, He. split; [done|]. unfold get_ctx in He. by rewrite Hx in He.
Qed.
Lemma live_lt t root n e : live t root -> get_ctx t n = Some e -> n < t_next t.
Proof.
  intros Hl He. destruct (decide (n < t_next t)); [done|]. unfold get_ctx in He. rewrite (live_beyond _ _ Hl) in He by lia. done.
Qed.

(** attaching a defined child that is not attached *)
Lemma attach_ok t root p c e cs : live t root -> get_ctx t p = Some e -> c ∈ e_children e -> e_tag e <> "img" ->
  c ∉ attached t p -> cs ≡ₚ c :: attached t p ->
  exists t', (do! t <- set_parent c (Some p) t; put_children p cs t) = Ok t' /\ moved t t' p cs c (Some p) /\ live t' root.
Proof.
  intros Hl He Hc Htag Hna Hcs. pose proof (live_lt _ _ _ _ Hl He) as Hp.
  assert (Hd : c ∈ defined t p) by (unfold defined; by rewrite He).
  destruct (live_newer _ _ Hl p c) as [Hpc Hcn]; [by right|].
  destruct (live_lookup _ _ _ Hl Hp) as (x & _ & Hx & _). destruct (live_lookup _ _ _ Hl Hcn) as (y & _ & Hy & _).
  rewrite (put_children_set_parent_ok _ _ _ _ _ _ _ Hx Hy) by lia. eexists. split; [done|].
  pose proof (moved_nodes t p c x y cs (Some p) (live_beyond _ _ Hl) Hx Hy ltac:(lia)) as Hm. split; [done|].
  eapply moved_live; [exact Hl|exact Hm|exact He|done|done| | |by left].
  - rewrite Hcs. constructor; [done|]. apply (live_once _ _ Hl).
  - intros d. rewrite Hcs, elem_of_cons. split.
    + intros [->|Hd']; [by left|]. right. split; [|done]. intros ->. done.
    + intros [[-> _]|[_ ?]]; auto.
Qed.
Lemma detach_ok t root p c e i : live t root -> get_ctx t p = Some e -> c ∈ e_children e -> e_tag e <> "img" ->
  attached t p !! i = Some c ->
  exists t', remove_child_at_index p i t = Ok t' /\ moved t t' p (take i (attached t p) ++ drop (S i) (attached t p)) c None /\ live t' root.
Proof.
  intros Hl He Hc Htag Hi. pose proof (live_lt _ _ _ _ Hl He) as Hp.
  assert (Hd : c ∈ defined t p) by (unfold defined; by rewrite He).
  destruct (live_newer _ _ Hl p c) as [Hpc Hcn]; [by right|].
  destruct (live_lookup _ _ _ Hl Hp) as (x & _ & Hx & _ & Hax & _). destruct (live_lookup _ _ _ Hl Hcn) as (y & _ & Hy & _).
  pose proof (remove_perm _ _ _ Hi) as Hperm. rewrite Hax in *.
  unfold remove_child_at_index, children, get_node. rewrite Hx. cbn [unwrap bindR]. rewrite Hi.
  unfold put_children, set_parent, get_node. rewrite Hx. cbn [unwrap bindR]. unfold put_node at 1. cbn [t_nodes set].
  rewrite lookup_insert_ne, Hy by lia. cbn [unwrap bindR]. eexists. split; [done|].
  set (cs := take i (n_children x) ++ drop (S i) (n_children x)) in *.
  pose proof (moved_nodes t p c x y cs None (live_beyond _ _ Hl) Hx Hy ltac:(lia)) as Hm.
  assert (Heq : put_node (put_node t p (x <| n_children := cs |>)) c (y <| n_parent := None |>) =
                put_node (put_node t c (y <| n_parent := None |>)) p (x <| n_children := cs |>)).
  { unfold put_node. destruct t as [nodes next]. cbn. apply (f_equal (fun m => mkTree m next)). apply (insert_commute nodes). lia. }
  rewrite Heq. split; [done|].
  assert (Hnd : NoDup (c :: cs)) by (rewrite <- Hperm, <- Hax; apply (live_once _ _ Hl)). inversion Hnd; subst.
  eapply moved_live; [exact Hl|exact Hm|exact He|done|done|done| |right; split; [done|rewrite Hax, Hperm; by left]].
  intros d. rewrite Hax, Hperm, elem_of_cons. split.
  - intros Hd'. right. split; [|by right]. intros ->. done.
  - intros [[_ ?]|[? [?|?]]]; done.
Qed.

Lemma reattach_show t root p c e : live t root -> get_ctx t p = Some e -> c ∈ e_children e -> e_tag e <> "img" -> c ∉ attached t p ->
  exists t' i, reattach p c true t = Ok t' /\ moved t t' p (take i (attached t p) ++ c :: drop i (attached t p)) c (Some p) /\ live t' root /\
    (in_order (attached t p) (defined t p) -> in_order (attached t' p) (defined t' p)).
Proof.
  intros Hl He Hc Htag Hna. pose proof (live_lt _ _ _ _ Hl He) as Hp.
  destruct (live_lookup _ _ _ Hl Hp) as (x & e' & Hx & Hxe & Hax & He' & Hdp). rewrite He in He'. injection He' as <-.
  assert (Hpr : p <> root).
  { intros ->. destruct (live_root _ _ Hl) as [H _]. rewrite <- Hdp, H in Hc. by apply elem_of_nil in Hc. }
  unfold reattach, get_element. rewrite He. cbn [ok_or bindR].
  destruct (proj2 (position_is_Some c (e_children e)) Hc) as [di Hdi]. rewrite Hdi. cbn [ok_or bindR].
  unfold children at 1, get_node. rewrite Hx. cbn [unwrap bindR]. rewrite <- Hax.
  rewrite (proj2 (position_None c (attached t p)) Hna).
  destruct (insertion_index_spec (e_children e) (attached t p) di) with (k := Nat.min (List.length (attached t p)) di) as (i & Hi & Hil & _).
  { intros d Hd. rewrite <- Hdp. by apply (live_defined _ _ Hl). }
  { lia. }
  rewrite Hi. cbn [bindR]. unfold insert_child_at_index, children, get_node. rewrite Hx. cbn [unwrap bindR]. rewrite <- Hax.
  destruct (Nat.ltb_spec (List.length (attached t p)) i) as [|_]; [lia|].
  destruct (attach_ok t root p c e (take i (attached t p) ++ c :: drop i (attached t p)) Hl He Hc Htag Hna) as (t' & Ht' & Hm & Hl').
  { apply insert_perm. }
  exists t', i. unfold set_parent, get_node in Ht'. split; [exact Ht'|]. split; [done|]. split; [done|].
  intros Hord. rewrite (same_def_defined _ _ _ (moved_def _ _ _ _ _ _ Hm)).
  destruct Hm as (_ & _ & _ & Ha & _). rewrite Ha. rewrite decide_True by done.
  rewrite Hdp in *. destruct (insertion_in_order (e_children e) (attached t p) c di) as (i' & Hi' & _ & Ho); [|done..|].
  { rewrite <- Hdp. apply (live_once _ _ Hl). }
  rewrite Hi in Hi'. injection Hi' as <-. done.
Qed.

Lemma reattach_hide t root p c e i : live t root -> get_ctx t p = Some e -> c ∈ e_children e -> e_tag e <> "img" -> attached t p !! i = Some c ->
  exists t', reattach p c false t = Ok t' /\ moved t t' p (take i (attached t p) ++ drop (S i) (attached t p)) c None /\ live t' root.
Proof.
  intros Hl He Hc Htag Hi. pose proof (live_lt _ _ _ _ Hl He) as Hp.
  destruct (live_lookup _ _ _ Hl Hp) as (x & e' & Hx & Hxe & Hax & He' & Hdp). rewrite He in He'. injection He' as <-.
  unfold reattach, get_element. rewrite He. cbn [ok_or bindR].
  destruct (proj2 (position_is_Some c (e_children e)) Hc) as [di Hdi]. rewrite Hdi. cbn [ok_or bindR].
  unfold children at 1, get_node. rewrite Hx. cbn [unwrap bindR]. rewrite <- Hax.
  assert (position c (attached t p) = Some i) as ->.
  { apply position_lookup_nodup; [apply (live_once _ _ Hl)|done]. }
  destruct (detach_ok t root p c e i Hl He Hc Htag Hi) as (t' & Ht' & Hm & Hl'). eauto.
Qed.

(** nothing to do *)
Lemma reattach_same t root p c e visible : live t root -> get_ctx t p = Some e -> c ∈ e_children e ->
  (visible = true <-> c ∈ attached t p) -> reattach p c visible t = Ok t.
Proof.
  intros Hl He Hc Hv. pose proof (live_lt _ _ _ _ Hl He) as Hp.
  destruct (live_lookup _ _ _ Hl Hp) as (x & e' & Hx & Hxe & Hax & He' & Hdp). rewrite He in He'. injection He' as <-.
  unfold reattach, get_element. rewrite He. cbn [ok_or bindR].
  destruct (proj2 (position_is_Some c (e_children e)) Hc) as [di Hdi]. rewrite Hdi. cbn [ok_or bindR].
  unfold children at 1, get_node. rewrite Hx. cbn [unwrap bindR]. rewrite <- Hax.
  destruct visible.
  - destruct (proj2 (position_is_Some c (attached t p))) as [i ->]; [by apply Hv|done].
  - rewrite (proj2 (position_None c (attached t p))); [done|]. intros H. by apply Hv in H.
Qed.

(** the state of children after showing or hiding one *)
Lemma sublist_delete_mid {A} i (l : list A) : sublist (take i l ++ drop (S i) l) l.
Proof.
  revert i; induction l as [|a l IH]; intros [|i]; cbn; [done|done|apply sublist_cons, sublist_drop|apply sublist_skip, IH].
Qed.

Lemma reattach_ok t root p c e visible : live t root -> get_ctx t p = Some e -> c ∈ e_children e -> e_tag e <> "img" ->
  exists t', reattach p c visible t = Ok t' /\ live t' root /\ t_next t' = t_next t /\ (forall q, get_ctx t' q = get_ctx t q) /\
    (forall q d, d ∈ attached t' q <-> if decide (q = p /\ d = c) then visible = true else d ∈ attached t q) /\
    (forall q, q <> p -> attached t' q = attached t q) /\
    (in_order (attached t p) (defined t p) -> in_order (attached t' p) (defined t p)).
Proof.
  intros Hl He Hc Htag. destruct (decide (c ∈ attached t p)) as [Hin|Hni].
  - destruct visible.
    + exists t. rewrite (reattach_same t root p c e true); [|done..]. do 4 (split; [done|]). split; [|done].
      intros q d. destruct (decide _) as [[-> ->]|_]; done.
    + apply elem_of_list_lookup in Hin as [i Hi]. destruct (reattach_hide t root p c e i) as (t' & Ht & Hm & Hl'); [done..|].
      exists t'. split; [done|]. split; [done|]. destruct Hm as (M1 & M2 & M3 & M4 & M5). split; [done|]. split; [done|].
      pose proof (remove_perm _ _ _ Hi) as Hperm.
      assert (Hnd : NoDup (c :: (take i (attached t p) ++ drop (S i) (attached t p)))) by (rewrite <- Hperm; apply (live_once _ _ Hl)).
      inversion Hnd as [|? ? Hnc _]; subst.
      split; [|split].
      * intros q d. rewrite M4. destruct (decide (q = p)) as [->|Hq]; [|rewrite decide_False; [done|intros [? _]; done]].
        destruct (decide (d = c)) as [->|Hd].
        -- rewrite decide_True by done. split; done.
        -- rewrite decide_False by (intros [_ ?]; done). rewrite Hperm at 3. rewrite elem_of_cons. split; [by right|]. intros [?|?]; done.
      * intros q Hq. rewrite M4. by rewrite decide_False.
      * intros Ho. rewrite M4, decide_True by done. unfold in_order in *. etransitivity; [apply sublist_delete_mid|done].
  - destruct visible.
    + destruct (reattach_show t root p c e) as (t' & i & Ht & Hm & Hl' & Ho); [done..|].
      exists t'. split; [done|]. split; [done|]. pose proof (moved_def _ _ _ _ _ _ Hm) as Hd. destruct Hm as (M1 & M2 & M3 & M4 & M5). split; [done|]. split; [done|].
      split; [|split].
      * intros q d. rewrite M4. destruct (decide (q = p)) as [->|Hq]; [|rewrite decide_False; [done|intros [? _]; done]].
        rewrite insert_perm, elem_of_cons. destruct (decide (d = c)) as [->|Hdc].
        -- rewrite decide_True by done. split; [done|by left].
        -- rewrite decide_False by (intros [_ ?]; done). split; [intros [?|?]; done|by right].
      * intros q Hq. rewrite M4. by rewrite decide_False.
      * intros Hord. specialize (Ho Hord). by rewrite (same_def_defined _ _ _ Hd) in Ho.
    + exists t. rewrite (reattach_same t root p c e false); [|done..]. do 4 (split; [done|]). split; [|done].
      intros q d. destruct (decide _) as [[-> ->]|_]; done.
Qed.

(** ** Repeats *)
Lemma filter_ext_in (P Q : nat -> Prop) `{!forall x, Decision (P x), !forall x, Decision (Q x)} (l : list nat) :
  (forall d, d ∈ l -> P d <-> Q d) -> filter P l = filter Q l.
Proof.
  intros Hal. induction l as [|a l IH]; [done|]. assert (Ha : P a <-> Q a) by (apply Hal; by left).
  assert (IH' : filter P l = filter Q l) by (apply IH; intros d Hd; apply Hal; by right).
  rewrite !filter_cons, IH'. destruct (decide (P a)), (decide (Q a)); tauto || done.
Qed.
Lemma filter_all_in (P : nat -> Prop) `{!forall x, Decision (P x)} (l : list nat) : (forall d, d ∈ l -> P d) -> filter P l = l.
Proof.
  intros Hal. induction l as [|a l IH]; [done|]. rewrite filter_cons_True by (apply Hal; by left). by rewrite IH by (intros d Hd; apply Hal; by right).
Qed.
Lemma remove_filter (i : nat) (l : list nat) (c : nat) : NoDup l -> l !! i = Some c ->
  take i l ++ drop (S i) l = filter (fun d => d <> c) l.
Proof.
  intros Hnd Hi. rewrite <- (take_drop_middle l i c Hi) in Hnd |- * at 3. 
  apply NoDup_app in Hnd as (H1 & H2 & H3). apply list.NoDup_cons in H3 as [H3 H4].
  rewrite list.filter_app, filter_cons_False by (intros H; by apply H).
  assert (Hf : forall k : list nat, c ∉ k -> filter (fun d => d <> c) k = k).
  { intros k Hk. induction k as [|a k IH]; [done|]. rewrite not_elem_of_cons in Hk. destruct Hk. rewrite filter_cons_True by done. by rewrite IH. }
  rewrite !Hf; [done|done|]. intros H. eapply H2; [exact H|]. by left.
Qed.

Lemma block_sub a b (l : list nat) d : d ∈ block a b l -> d ∈ l.
Proof.
  unfold block. intros H. rewrite <- (take_drop a l). apply elem_of_app. right.
  rewrite <- (take_drop (b - a) (drop a l)). apply elem_of_app. by left.
Qed.
Lemma block_NoDup a b (l : list nat) : NoDup l -> NoDup (block a b l).
Proof.
  intros H. unfold block. rewrite <- (take_drop a l) in H. apply NoDup_app in H as (_ & _ & H).
  rewrite <- (take_drop (b - a) (drop a l)) in H. by apply NoDup_app in H as (H & _).
Qed.
Lemma block_disjoint a b c (l : list nat) d : NoDup l -> a <= b -> d ∈ block a b l -> d ∉ block b c l.
Proof.
  intros Hnd Hab H1 H2. unfold block in *.
  assert (Heq : drop b l = drop (b - a) (drop a l)) by (rewrite drop_drop; f_equal; lia).
  rewrite Heq in H2. rewrite <- (take_drop a l) in Hnd. apply NoDup_app in Hnd as (_ & _ & Hnd).
  rewrite <- (take_drop (b - a) (drop a l)) in Hnd. apply NoDup_app in Hnd as (_ & Hnd & _).
  eapply Hnd; [exact H1|]. rewrite <- (take_drop (c - b) (drop (b - a) (drop a l))). apply elem_of_app. by left.
Qed.

Section repeats.
  Context (root p : NodeId) (e : Element) (A : list NodeId).
  Context (Htag : e_tag e <> "img").

  Lemma show_all l : NoDup l -> (forall d, d ∈ l -> d ∈ e_children e) -> forall t B, live t root -> get_ctx t p = Some e ->
    attached t p = A ++ B -> (forall d, d ∈ l -> d ∉ B) ->
    exists t', foldR (fun t n => if memb n A then Ok t else add_child p n t) t l = Ok t' /\ live t' root /\ t_next t' = t_next t /\
      (forall q, get_ctx t' q = get_ctx t q) /\ (forall q, q <> p -> attached t' q = attached t q) /\
      attached t' p = A ++ B ++ filter (fun d => d ∉ A) l.
  Proof.
    induction l as [|c l IH]; intros Hnd Hdef t B Hl He Ha HB.
    - exists t. rewrite app_nil_r. done.
    - apply list.NoDup_cons in Hnd as [Hc Hnd]. cbn [foldR]. destruct (memb c A) eqn:Em.
      + cbn [bindR]. apply memb_spec in Em. rewrite filter_cons_False by (intros H; by apply H).
        apply IH; try done. { intros d Hd. apply Hdef. by right. } { intros d Hd. apply HB. by right. }
      + apply memb_false in Em. rewrite filter_cons_True by done.
        assert (Hna : c ∉ attached t p). { rewrite Ha, elem_of_app. intros [H|H]; [done|]. by apply (HB c); [left|]. }
        destruct (attach_ok t root p c e (attached t p ++ [c]) Hl He) as (t1 & Ht1 & Hm & Hl1); [apply Hdef; by left|done|done|by rewrite Permutation_app_comm|].
        assert (Hadd : add_child p c t = Ok t1).
        { unfold add_child. destruct (live_lookup _ _ _ Hl (live_lt _ _ _ _ Hl He)) as (x & _ & Hx & _ & Hax & _).
          apply bindR_Ok in Ht1 as (t0 & Ht0 & Ht1). rewrite Ht0. cbn [bindR].
          assert (Hch : children t0 p = Ok (attached t p)).
          { unfold set_parent in Ht0. apply bindR_Ok in Ht0 as (y & Hy & [= <-]). unfold children, get_node. unfold get_node in Hy. apply unwrap_Ok in Hy.
            unfold put_node. cbn. destruct (decide (c = p)) as [->|Hne].
            - rewrite lookup_insert. cbn. rewrite Hx in Hy. injection Hy as ->. by rewrite Hax.
            - rewrite lookup_insert_ne, Hx by done. cbn. by rewrite Hax. }
          rewrite Hch. cbn [bindR]. exact Ht1. }
        rewrite Hadd. cbn [bindR]. destruct Hm as (M1 & M2 & M3 & M4 & M5).
        destruct (IH Hnd (fun d Hd => Hdef d (elem_of_list_further _ _ _ Hd)) t1 (B ++ [c]) Hl1) as (t' & Ht' & Hl' & N1 & N2 & N3 & N4).
        { by rewrite M3. }
        { rewrite M4, decide_True by done. by rewrite Ha, app_assoc. }
        { intros d Hd Hin. apply elem_of_app in Hin as [Hin|Hin]; [apply (HB d); [by right|done]|].
          apply elem_of_list_singleton in Hin as ->. done. }
        exists t'. split; [done|]. split; [done|]. split; [by rewrite N1|]. split; [intros q; by rewrite N2, M3|]. split.
        * intros q Hq. rewrite N3, M4 by done. by rewrite decide_False.
        * rewrite N4. by rewrite <- !app_assoc.
  Qed.

  Lemma hide_all l : NoDup l -> (forall d, d ∈ l -> d ∈ e_children e) -> forall t, live t root -> get_ctx t p = Some e ->
    (forall d, d ∈ l -> d ∈ A <-> d ∈ attached t p) ->
    exists t', foldR (fun t n => if memb n A then remove_child p n t else Ok t) t l = Ok t' /\ live t' root /\ t_next t' = t_next t /\
      (forall q, get_ctx t' q = get_ctx t q) /\ (forall q, q <> p -> attached t' q = attached t q) /\
      attached t' p = filter (fun d => d ∉ l) (attached t p).
  Proof.
    induction l as [|c l IH]; intros Hnd Hdef t Hl He HA.
    - exists t. cbn. do 5 (split; [done|]). clear. induction (attached t p) as [|d k IH]; [done|]. rewrite filter_cons_True by apply not_elem_of_nil. by rewrite <- IH.
    - apply list.NoDup_cons in Hnd as [Hc Hnd]. cbn [foldR]. destruct (memb c A) eqn:Em.
      + apply memb_spec in Em. assert (Hin : c ∈ attached t p) by (apply HA; [by left|done]).
        apply elem_of_list_lookup in Hin as [i Hi].
        destruct (detach_ok t root p c e i Hl He) as (t1 & Ht1 & Hm & Hl1); [apply Hdef; by left|done..|].
        assert (Hrem : remove_child p c t = Ok t1).
        { unfold remove_child. destruct (live_lookup _ _ _ Hl (live_lt _ _ _ _ Hl He)) as (x & _ & Hx & _ & Hax & _).
          unfold children, get_node. rewrite Hx. cbn [unwrap bindR]. rewrite <- Hax.
          rewrite (position_lookup_nodup c (attached t p) i); [done|apply (live_once _ _ Hl)|done]. }
        rewrite Hrem. cbn [bindR]. destruct Hm as (M1 & M2 & M3 & M4 & M5).
        rewrite (remove_filter _ _ _ (proj1 (live_once _ _ Hl p)) Hi) in M4.
        destruct (IH Hnd (fun d Hd => Hdef d (elem_of_list_further _ _ _ Hd)) t1 Hl1) as (t' & Ht' & Hl' & N1 & N2 & N3 & N4).
        { by rewrite M3. }
        { intros d Hd. rewrite M4, decide_True by done. rewrite elem_of_list_filter. rewrite (HA d) by (by right).
          split; [|by intros [_ ?]]. intros Hda. split; [|done]. intros ->. done. }
        exists t'. split; [done|]. split; [done|]. split; [by rewrite N1|]. split; [intros q; by rewrite N2, M3|]. split.
        * intros q Hq. rewrite N3, M4 by done. by rewrite decide_False.
        * rewrite N4, M4, decide_True by done. rewrite list_filter_filter. apply list_filter_iff. intros d. rewrite not_elem_of_cons. intuition.
      + apply memb_false in Em. cbn [bindR].
        destruct (IH Hnd (fun d Hd => Hdef d (elem_of_list_further _ _ _ Hd)) t Hl He) as (t' & Ht' & Hl' & N1 & N2 & N3 & N4).
        { intros d Hd. apply HA. by right. }
        exists t'. do 5 (split; [done|]). rewrite N4. apply filter_ext_in. intros d Hd. rewrite not_elem_of_cons.
        assert (d <> c); [|intuition]. intros ->. apply Em. apply HA; [by left|done].
  Qed.
End repeats.

Lemma repeat_ok t root p s c z e : live t root -> get_ctx t p = Some e -> s <= c <= z -> z <= List.length (e_children e) -> e_tag e <> "img" ->
  exists t', repeat_children p s c z t = Ok t' /\ live t' root /\ t_next t' = t_next t /\ (forall q, get_ctx t' q = get_ctx t q) /\
    (forall q, q <> p -> attached t' q = attached t q) /\
    attached t' p = filter (fun d => d ∉ block c z (e_children e)) (attached t p) ++
                    filter (fun d => d ∉ attached t p) (block s c (e_children e)).
Proof.
  intros Hl He Hscz Hz Htag.
  destruct (live_lookup _ _ _ Hl (live_lt _ _ _ _ Hl He)) as (x & e' & Hx & _ & Hax & He' & Hdp). rewrite He in He'. injection He' as <-.
  assert (Hnd : NoDup (e_children e)) by (rewrite <- Hdp; apply (live_once _ _ Hl)).
  unfold repeat_children, get_element. rewrite He. cbn [ok_or bindR]. unfold children, get_node. rewrite Hx. cbn [unwrap bindR]. rewrite <- Hax.
  unfold slice. rewrite !(proj2 (Nat.leb_le _ _)) by lia. cbn [andb bindR]. fold (block s c (e_children e)) (block c z (e_children e)).
  destruct (show_all root p e (attached t p) Htag (block s c (e_children e))) with (t := t) (B := @nil nat)
    as (t1 & H1 & L1 & N1 & C1 & O1 & A1); [by apply block_NoDup|apply block_sub|done|done|by rewrite app_nil_r|intros d _; apply not_elem_of_nil|].
  rewrite H1. cbn [bindR]. cbn [app] in A1.
  destruct (hide_all root p e (attached t p) Htag (block c z (e_children e))) with (t := t1)
    as (t2 & H2 & L2 & N2 & C2 & O2 & A2); [by apply block_NoDup|apply block_sub|done|by rewrite C1| |].
  { intros d Hd. rewrite A1, elem_of_app, elem_of_list_filter. split; [by left|]. intros [?|[_ Hs]]; [done|]. exfalso.
    eapply (block_disjoint s c z); [exact Hnd|lia|exact Hs|exact Hd]. }
  exists t2. split; [done|]. split; [done|]. split; [by rewrite N2|]. split; [intros q; by rewrite C2, C1|]. split.
  - intros q Hq. rewrite O2, O1 by done. done.
  - rewrite A2, A1, list.filter_app. f_equal. apply filter_all_in. intros d Hd. apply elem_of_list_filter in Hd as [_ Hd].
    eapply (block_disjoint s c z); [exact Hnd|lia|exact Hd].
Qed.
