(** * Rendering a whole template. *)
From Coq Require Import ZArith Lia.
From stdpp Require Import gmap.
From RecordUpdate Require Import RecordUpdate.
From Verif Require Import Str StrFacts F32 Res ResFacts Json JsonFacts PropKey Html Css Element Tree ViewModel Render SpecRender SpecTree RenderFacts RenderTree.

Lemma agree_seq {B St} (step : St -> nat -> res St) (f : nat -> option B) (Inv : list B -> St -> Prop) count :
  (forall dn s, List.length dn < count -> Inv dn s ->
     agree (step s (List.length dn)) (f (List.length dn)) (fun s' b => Inv (dn ++ [b]) s')) ->
  forall s, Inv [] s -> agree (foldR step s (seq 0 count)) (mapM f (seq 0 count)) (fun s' bs => Inv bs s' /\ List.length bs = count).
Proof.
  intros Hs. assert (H : forall k dn s, List.length dn + k = count -> Inv dn s ->
    agree (foldR step s (seq (List.length dn) k)) (mapM f (seq (List.length dn) k))
      (fun s' bs => Inv (dn ++ bs) s' /\ List.length (dn ++ bs) = count)).
  { induction k as [|k IH]; intros dn s Hk Hi.
    - cbn. rewrite app_nil_r. split; [done|lia].
    - cbn [seq foldR]. change (mapM f (?a :: ?l)) with (b ← f a; k ← mapM f l; mret (b :: k)).
      eapply agree_bind; [apply Hs; [lia|exact Hi]|]. intros s' b Hi'. cbn beta.
      specialize (IH (dn ++ [b]) s'). rewrite app_length in IH. cbn in IH.
      replace (List.length dn + 1) with (S (List.length dn)) in IH by lia.
      specialize (IH ltac:(lia) Hi').
      destruct (foldR _ _ _), (mapM _ _); simpl in *; try done. rewrite <- app_assoc in IH. done. }
  intros s Hi. specialize (H count [] s eq_refl Hi). done.
Qed.

(** permutations of concatenations: bring equal heads to the front *)
Ltac perm_head x :=
  repeat first
    [ apply (Permutation_app_head x)
    | match goal with
      | |- x ++ ?a ≡ₚ ?y ++ ?b => rewrite (Permutation_app_comm y b), <- ?app_assoc
      | |- x ≡ₚ ?y ++ ?b => rewrite (Permutation_app_comm y b), <- ?app_assoc
      end ].
Lemma perm_swap_app {A} (a b c : list A) : a ++ b ++ c ≡ₚ b ++ a ++ c.
Proof. rewrite !app_assoc. by rewrite (Permutation_app_comm a b). Qed.
Ltac perm_front x :=
  match goal with
  | |- _ ≡ₚ x ++ _ => idtac
  | |- _ ≡ₚ x => idtac
  | |- _ ≡ₚ ?y ++ x ++ ?c => rewrite (perm_swap_app y x c)
  | |- _ ≡ₚ ?y ++ x => rewrite (Permutation_app_comm y x)
  | |- _ ≡ₚ ?y ++ ?z => 
      let H := fresh in
      let w := fresh "w" in
      evar (w : list string); assert (H : z ≡ₚ x ++ w); [perm_front x; unfold w; reflexivity|];
      rewrite H; unfold w; clear H w; rewrite (perm_swap_app y x)
  end.
Ltac perm :=
  cbn [app]; 
  repeat match goal with |- context [?a :: ?l] => lazymatch l with [] => fail | _ => change (a :: l) with ([a] ++ l) end end;
  rewrite <- ?app_assoc;
  repeat match goal with
  | |- ?x ≡ₚ ?x => reflexivity
  | |- ?x ++ ?a ≡ₚ _ => perm_front x; apply Permutation_app_head
  end.

Definition in_range (k : nat) (m : mark) : Prop :=
  match m with MName _ => True | MCond i _ _ _ => i < k | MLoop s c _ _ => s + c <= k end.

Lemma gather_app a : forall k b, gather k (a ++ b) =
  (fst (gather k a) ++ fst (gather (k + List.length (fst (gather k a))) b),
   snd (gather k a) ++ snd (gather (k + List.length (fst (gather k a))) b)).
Proof.
  induction a as [|[ks ms] a IH]; intros k b; cbn [app gather].
  - cbn. rewrite Nat.add_0_r. by destruct (gather k b).
  - rewrite IH. destruct (gather (k + List.length ks) a) as [ks' ms'] eqn:E. cbn [fst snd].
    rewrite app_length, !Nat.add_assoc, <- !app_assoc. done.
Qed.
Lemma gather_snoc a ks ms : gather 0 (a ++ [(ks, ms)]) =
  (fst (gather 0 a) ++ ks, snd (gather 0 a) ++ map (shift (List.length (fst (gather 0 a)))) ms).
Proof. rewrite gather_app. cbn [gather]. cbn [fst snd]. by rewrite !app_nil_r. Qed.

Lemma mark_bindings_app n a b ms : Forall (in_range (List.length a)) ms ->
  flat_map (mark_bindings n (a ++ b)) ms = flat_map (mark_bindings n a) ms.
Proof.
  induction 1 as [|m ms Hm _ IH]; [done|]. cbn [flat_map]. rewrite IH. f_equal.
  destruct m as [|i v p q|]; try done. cbn in *. by rewrite lookup_app_l.
Qed.

Section node.
  Context (read : string -> option (list Declaration)) (translate : string -> string) (templates : gmap string Html).
  Notation post := (post read). Notation postq := (postq read). Notation stands := (stands read). Notation stand_all := (stand_all read).

  (** Kids rendered so far under the open node [lo], whose bindings were done at [r0]. *)
  Record built (lo : nat) (r0 : Renderer) (kids : list rnode) (new : list (string * Binding)) (qs : list string) (r : Renderer) : Prop := {
    bu_next : t_next (r_tree r) = S lo + rsizes kids;
    bu_beyond : beyond (r_tree r);
    bu_old : forall m, m <= lo -> t_nodes (r_tree r) !! m = t_nodes (r_tree r0) !! m;
    bu_kids : stand_all (r_tree r) None (S lo) kids;
    bu_ids : r_static_id r = add_ids (r_static_id r0) (kid_ids (S lo) kids);
    bu_adv : adv r0 r (new ++ kid_bindings (S lo) kids) qs
  }.

  Lemma built_quiet lo r0 kids new qs r r' new' qs' : built lo r0 kids new qs r ->
    r_tree r' = r_tree r -> r_static_id r' = r_static_id r -> adv r r' new' qs' ->
    built lo r0 kids (new ++ new') (qs ++ qs') r'.
  Proof.
    intros [B1 B2 B3 B4 B5 B6] HT HS HA. split; rewrite ?HT, ?HS; try done.
    eapply adv_trans; [exact B6|exact HA| |done].
    rewrite <- !app_assoc. apply Permutation_app_head, Permutation_app_comm.
  Qed.
  Lemma built_same lo r0 kids new qs r r' : built lo r0 kids new qs r ->
    r_tree r' = r_tree r -> r_static_id r' = r_static_id r -> r_bindings r' = r_bindings r -> r_schema r' = r_schema r ->
    built lo r0 kids new qs r'.
  Proof.
    intros [B1 B2 B3 B4 B5 B6] HT HS HB HC. split; rewrite ?HT, ?HS; try done. by eapply adv_ext.
  Qed.
  Lemma built_perm lo r0 kids new qs r new' qs' : built lo r0 kids new qs r -> new' ≡ₚ new -> qs' ≡ₚ qs ->
    built lo r0 kids new' qs' r.
  Proof.
    intros [B1 B2 B3 B4 B5 B6] Hn Hq. split; try done. eapply adv_perm; [exact B6|by rewrite Hn|done].
  Qed.

  Lemma built_kid lo r0 kids new qs r r' c rn ps : built lo r0 kids new qs r -> postq r r' c rn ps ->
    built lo r0 (kids ++ [rn]) new (qs ++ ps) r' /\ place (S lo) (kids ++ [rn]) = place (S lo) kids ++ [c].
  Proof.
    intros [B1 B2 B3 B4 B5 B6] (-> & P2 & P3 & P4 & P5 & P7 & P8). cbn in B1. split.
    - split.
      + rewrite P2, B1, rsizes_app. cbn. lia.
      + done.
      + intros m Hm. rewrite P4 by lia. by apply B3.
      + apply stand_all_app. split.
        * eapply stand_all_frame; [|exact B4]. intros m Hm. apply P4. lia.
        * cbn. split; [|done]. by rewrite <- B1.
      + rewrite P7, B5, kid_ids_app, add_ids_app. cbn. rewrite app_nil_r. by rewrite B1.
      + rewrite kid_bindings_app. cbn. rewrite !app_nil_r. rewrite <- B1.
        eapply adv_trans; [exact B6|exact P8|by rewrite <- ?app_assoc..].
    - rewrite place_app. cbn. by rewrite <- B1.
  Qed.

  Lemma restore_one_E name (E E' : gmap string string) : (forall k, k <> name -> E' !! k = E !! k) -> restore_one name (E !! name) E' = E.
  Proof.
    intros H. apply map_eq. intros k. unfold restore_one. destruct (E !! name) as [v|] eqn:Ev.
    - destruct (decide (name = k)) as [<-|Hne]; [by rewrite lookup_insert|]. rewrite lookup_insert_ne by done. by apply H.
    - destruct (decide (name = k)) as [<-|Hne]; [by rewrite lookup_delete|]. rewrite lookup_delete_ne by done. by apply H.
  Qed.

  Lemma r_index_agree b i r : agree (r_index b i r) (resolve (r_locals r) b)
    (fun '(r', p) q => p = q +:+ "/" +:+ fmt_nat i /\ quiet r r' /\ adv r r' [] [p]).
  Proof.
    unfold r_index, schema_index. rewrite to_json_pointer_resolve. destruct (resolve _ b) as [p|]; [|done]. cbn.
    split; [done|]. split; [done|]. split; [intros; by rewrite app_nil_r|]. by eexists [_].
  Qed.

  Lemma resolve_other (E E' : env) b name : (forall k, k <> name -> E' !! k = E !! k) ->
    match b_path b with h :: _ => h <> name | [] => True end -> resolve E' b = resolve E b.
  Proof. intros H Hn. unfold resolve. destruct (b_path b) as [|h t]; [done|]. by rewrite H. Qed.

  (** the groups of kids done so far *)
  Definition children_inv (lo : nat) (r0 : Renderer) (dn : list (list rnode * list mark)) (st : Renderer * list NodeId) : Prop :=
    let '(kids, marks) := gather 0 dn in
    snd st = place (S lo) kids /\ r_locals (fst st) = r_locals r0 /\ Forall (in_range (List.length kids)) marks /\
    built lo r0 kids (flat_map (mark_bindings lo (place (S lo) kids)) marks) (flat_map mark_paths marks ++ flat_map pointers kids) (fst st).

  Lemma children_inv_group lo r0 dn r children ks ms r' :
    children_inv lo r0 dn (r, children) ->
    let kids := fst (gather 0 dn) in
    let marks := snd (gather 0 dn) in
    let ms' := map (shift (List.length kids)) ms in
    Forall (in_range (List.length ks)) ms ->
    r_locals r' = r_locals r0 ->
    built lo r0 (kids ++ ks) (flat_map (mark_bindings lo children) marks ++ flat_map (mark_bindings lo (place (S lo) (kids ++ ks))) ms')
      (flat_map mark_paths marks ++ flat_map mark_paths ms' ++ flat_map pointers kids ++ flat_map pointers ks) r' ->
    children_inv lo r0 (dn ++ [(ks, ms)]) (r', place (S lo) (kids ++ ks)).
  Proof.
    unfold children_inv. rewrite gather_snoc. destruct (gather 0 dn) as [kids marks]. cbn [fst snd].
    intros (-> & Hl & Hr & Hb) Hms Hl' Hb'. split; [done|]. split; [done|]. split.
    - apply Forall_app. split.
      + eapply Forall_impl; [|exact Hr]. intros [|i v p q|s c p q]; cbn; rewrite ?app_length; try done; lia.
      + apply Forall_map. eapply Forall_impl; [|exact Hms]. intros [|i v p q|s c p q]; cbn; rewrite ?app_length; try done; lia.
    - rewrite !flat_map_app. rewrite place_app at 1. rewrite mark_bindings_app by (by rewrite place_length). rewrite <- app_assoc. exact Hb'.
  Qed.

  Definition childless_void tag : is_void tag = existsb (String.eqb tag) childless. Proof. reflexivity. Qed.

  Lemma names_bindings lo ids names : flat_map (mark_bindings lo ids) (map MName names) = [].
  Proof. induction names; [done|]. done. Qed.
  Lemma names_paths names : flat_map mark_paths (map MName names) = names.
  Proof. induction names as [|x l IH]; [done|]. cbn. by rewrite IH. Qed.
  Lemma shift_names k names : map (shift k) (map MName names) = map MName names.
  Proof. induction names as [|x l IH]; [done|]. cbn. by rewrite IH. Qed.
  Lemma names_range k names : Forall (in_range k) (map MName names).
  Proof. induction names; constructor; done. Qed.

  Definition node_ok (fuel : nat) : Prop := forall h r, beyond (r_tree r) -> clean templates h ->
    agree (render_node translate read templates fuel h r) (meaning translate templates fuel (r_locals r) h)
      (fun '(r', n) rn => post r r' n rn).

  Lemma linked_agree child : agree (expand_child templates child) (linked templates child) eq.
  Proof.
    unfold expand_child, linked. destruct (as_template_link child) as [[id bs]|]; [|done]. by destruct (templates !! id).
  Qed.

  Lemma child_agree fuel lo r0 h child : node_ok fuel -> clean templates h -> child ∈ h_children h ->
    forall dn st, children_inv lo r0 dn st ->
    agree
      ((fun '(r, children) child =>
               do! child <- expand_child templates child;
               do! (r, overridden) <- foldR bind_alias (r, ∅) (aliases (h_bindings child));
               do! (r, children) <-
                 match as_visibility child with
                 | Some (visible, binder) =>
                     do! (r, path) <- r_field binder r;
                     do! (r, c) <- render_node translate read templates fuel child r;
                     let b := mkBinding (BVisibility lo c visible) (b_pipe binder) in
                     Ok (r <| r_bindings ::= push_binding path b |>, children ++ [c])
                 | None =>
                     match as_repeat child with
                     | Some (name, count, binder) =>
                         do! (r, array) <- r_field binder r;
                         let start := List.length children in
                         let b := mkBinding (BRepeat lo start count) (b_pipe binder) in
                         let r := r <| r_bindings ::= push_binding array b |> in
                         let old := r_locals r !! name in
                         let r := r <| r_locals ::= delete name |> in
                         do! (r, children) <-
                           foldR (fun '(r, children) n =>
                             do! (r, path) <- r_index binder n r;
                             let r := r <| r_locals ::= <[name := path]> |> in
                             do! (r, c) <- render_node translate read templates fuel child r;
                             Ok (r, children ++ [c])) (r, children) (seq 0 count);
                         Ok (r <| r_locals ::= restore_one name old |>, children)
                     | None =>
                         do! (r, c) <- render_node translate read templates fuel child r;
                         Ok (r, children ++ [c])
                     end
                 end;
               Ok (restore overridden r, children)) st child)
      (child ← linked templates child;
       '(E, names) ← resolve_aliases (r_locals r0) (aliases (h_bindings child));
       match as_visibility child with
       | Some (visible, b) =>
           p ← resolve E b;
           k ← meaning translate templates fuel E child;
           Some ([k], map MName names ++ [MCond 0 visible p (b_pipe b)])
       | None =>
           match as_repeat child with
           | Some (name, count, b) =>
               p ← resolve E b;
               kids ← mapM (fun i => meaning translate templates fuel (<[name := p +:+ "/" +:+ fmt_nat i]> E) child) (seq 0 count);
               Some (kids, map MName names ++ [MLoop 0 count p (b_pipe b)])
           | None => k ← meaning translate templates fuel E child; Some ([k], map MName names)
           end
       end)
      (fun st' g => children_inv lo r0 (dn ++ [g]) st').
  Proof.
    intros IH Hclean Hin dn [r children] Hinv.
    pose proof (linked_agree child) as Hl. destruct (linked templates child) as [c|] eqn:El;
      [|by destruct (expand_child templates child)].
    destruct (expand_child templates child); try done. cbn in Hl. subst a. cbn [bindR mbind option_bind].
    apply elem_of_list_In in Hin.
    assert (Hcc : clean_element c) by (apply Hclean; by eapply inside_child).
    assert (Hcl : clean templates c) by (intros d Hd; apply Hclean; by eapply inside_below).
    destruct Hcc as [Hnd Hown].
    destruct (gather 0 dn) as [kids marks] eqn:Eg.
    pose proof Hinv as Hinv'. unfold children_inv in Hinv'. rewrite Eg in Hinv'. cbn [fst snd] in Hinv'.
    destruct Hinv' as (Hch & Hloc & Hrange & Hbuilt).
    rewrite <- Hloc.
    (* aliases *)
    eapply agree_bind.
    { apply (bind_alias_agree (aliases (h_bindings c)) r ∅ (r_locals r)).
      - unfold remembers, restored. by rewrite map_fold_empty.
      - exact Hnd.
      - done. }
    intros [r1 over] [E names] (HE & Hrem & Ht1 & Hs1 & Ha1).
    pose proof (built_quiet _ _ _ _ _ _ r1 [] names Hbuilt Ht1 Hs1 Ha1) as Hb1. rewrite app_nil_r in Hb1.
    assert (Hfin : forall r2 : Renderer, r_locals r2 = E -> r_locals (restore over r2) = r_locals r0).
    { intros r2 HE2. cbn. rewrite HE2, <- Hloc. exact Hrem. }
    assert (Hres : forall r2 ks nw qs, built lo r0 ks nw qs r2 -> built lo r0 ks nw qs (restore over r2)).
    { intros r2 ks nw qs Hb. by eapply built_same. }
    destruct (as_visibility c) as [[visible b]|] eqn:Ev.
    - (* condition *)
      pose proof (r_field_agree b r1) as Hf. rewrite HE in Hf.
      destruct (resolve E b) as [p|]; [|by destruct (r_field b r1) as [[? ?]| | |]].
      destruct (r_field b r1) as [[r2 p']| | |]; try done. destruct Hf as (-> & (Q1 & Q2 & Q3) & Ha2).
      cbn [bindR mbind option_bind].
      pose proof (built_quiet _ _ _ _ _ _ r2 [] [p] Hb1 Q1 Q3 Ha2) as Hb2. rewrite app_nil_r in Hb2.
      specialize (IH c r2 (bu_beyond _ _ _ _ _ _ Hb2) Hcl). rewrite Q2, HE in IH.
      destruct (meaning translate templates fuel E c) as [k|]; [|by destruct (render_node _ _ _ _ _ _) as [[? ?]| | |]].
      destruct (render_node _ _ _ _ _ _) as [[r3 c3]| | |]; try done. cbn in IH. destruct IH as [IHp IHl]. cbn [bindR mbind option_bind].
      destruct (built_kid _ _ _ _ _ _ _ _ _ _ Hb2 IHp) as [Hb3 Hpl].
      assert (Hch' : children ++ [c3] = place (S lo) (kids ++ [k])) by (rewrite Hch; exact (eq_sym Hpl)).
      rewrite Hch'. apply agree_ret.
      replace kids with (fst (gather 0 dn)) by (by rewrite Eg).
      eapply children_inv_group; [exact Hinv| | |].
      + apply Forall_app. split; [apply names_range|]. repeat constructor.
      + apply Hfin. cbn. rewrite IHl. by rewrite Q2.
      + apply Hres. rewrite Eg. cbn [fst snd].
        set (r4 := r3 <| r_bindings ::= _ |>).
        assert (Ha4 : adv r3 r4 [(p, mkBinding (BVisibility lo c3 visible) (b_pipe b))] []).
        { split; [|by exists []]. intros Hs. cbn. split; [by apply push_sorted|by apply push_flat]. }
        pose proof (built_quiet _ _ _ _ _ _ r4 _ _ Hb3 eq_refl eq_refl Ha4) as Hb4.
        eapply built_perm; [exact Hb4|..].
        * rewrite Hch, !map_app, !flat_map_app, shift_names, names_bindings. cbn [map shift flat_map mark_bindings app].
          rewrite Nat.add_0_r, Hpl. rewrite lookup_app_r by (rewrite place_length; lia). rewrite place_length, Nat.sub_diag. cbn. done.
        * rewrite !map_app, !flat_map_app, shift_names, names_paths. cbn. rewrite !app_nil_r. perm.
    - destruct (as_repeat c) as [[[name count] b]|] eqn:Er.
      + (* repeat *)
        assert (Hhead : match b_path b with h :: _ => h <> name | [] => True end).
        { unfold own_name in Hown. rewrite Er in Hown. destruct (b_path b); [done|]. by apply String.eqb_neq. }
        pose proof (r_field_agree b r1) as Hf. rewrite HE in Hf.
        destruct (resolve E b) as [p|] eqn:Ep; [|by destruct (r_field b r1) as [[? ?]| | |]].
        destruct (r_field b r1) as [[r2 p']| | |]; try done. destruct Hf as (-> & (Q1 & Q2 & Q3) & Ha2).
        cbn [bindR mbind option_bind].
        pose proof (built_quiet _ _ _ _ _ _ r2 [] [p] Hb1 Q1 Q3 Ha2) as Hb2. rewrite app_nil_r in Hb2.
        set (r3 := r2 <| r_bindings ::= push_binding p (mkBinding (BRepeat lo (List.length children) count) (b_pipe b)) |>).
        assert (Ha3 : adv r2 r3 [(p, mkBinding (BRepeat lo (List.length children) count) (b_pipe b))] []).
        { split; [|by exists []]. intros Hs. cbn. split; [by apply push_sorted|by apply push_flat]. }
        pose proof (built_quiet _ _ _ _ _ _ r3 _ _ Hb2 eq_refl eq_refl Ha3) as Hb3.
        assert (HE3 : r_locals r3 = E) by (cbn; by rewrite Q2).
        rewrite HE3.
        set (r4 := r3 <| r_locals ::= delete name |>).
        set (nw := flat_map (mark_bindings lo (place (S lo) kids)) marks ++ [(p, mkBinding (BRepeat lo (List.length children) count) (b_pipe b))]) in *.
        set (qs := ((flat_map mark_paths marks ++ flat_map pointers kids) ++ names) ++ [p]) in *.
        pose (Inv := fun (ks : list rnode) (st : Renderer * list NodeId) =>
           snd st = place (S lo) (kids ++ ks) /\ (forall k, k <> name -> r_locals (fst st) !! k = E !! k) /\
           built lo r0 (kids ++ ks) nw (qs ++ map (fun i => p +:+ "/" +:+ fmt_nat i) (seq 0 (List.length ks)) ++ flat_map pointers ks) (fst st)).
        pose proof (agree_seq (fun '(r, children) n =>
                             do! (r, path) <- r_index b n r;
                             let r := r <| r_locals ::= <[name := path]> |> in
                             do! (r, c) <- render_node translate read templates fuel c r;
                             Ok (r, children ++ [c]))
                     (fun i => meaning translate templates fuel (<[name := p +:+ "/" +:+ fmt_nat i]> E) c) Inv count) as Hseq.
        assert (Hinit : Inv [] (r4, children)).
        { unfold Inv. cbn [fst snd List.length seq map flat_map app]. rewrite !app_nil_r. split; [done|]. split.
          - intros k Hk. unfold r4. cbn. rewrite lookup_delete_ne by done. by rewrite Q2, HE.
          - eapply (built_same _ _ _ _ _ r3); [|done..]. rewrite app_nil_r in Hb3. exact Hb3. }
        assert (Hstep : forall dn0 s, List.length dn0 < count -> Inv dn0 s ->
          agree ((fun '(r, children) n =>
                             do! (r, path) <- r_index b n r;
                             let r := r <| r_locals ::= <[name := path]> |> in
                             do! (r, c) <- render_node translate read templates fuel c r;
                             Ok (r, children ++ [c])) s (List.length dn0))
            (meaning translate templates fuel (<[name := p +:+ "/" +:+ fmt_nat (List.length dn0)]> E) c)
            (fun s' b => Inv (dn0 ++ [b]) s')).
        { intros dn0 [r5 ch5] _ (I1 & I2 & I3). cbn [fst snd] in I1, I2, I3.
          pose proof (r_index_agree b (List.length dn0) r5) as Hi.
          rewrite (resolve_other E (r_locals r5) b name I2 Hhead), Ep in Hi.
          destruct (r_index b (List.length dn0) r5) as [[r6 p6]| | |]; try done. destruct Hi as (-> & (Q4 & Q5 & Q6) & Ha6).
          cbn [bindR].
          set (r7 := r6 <| r_locals ::= _ |>).
          pose proof (built_quiet _ _ _ _ _ _ r6 [] _ I3 Q4 Q6 Ha6) as Hb6. rewrite app_nil_r in Hb6.
          assert (Hb7 : built lo r0 (kids ++ dn0) nw ((qs ++ map (fun i => p +:+ "/" +:+ fmt_nat i) (seq 0 (List.length dn0)) ++ flat_map pointers dn0) ++ [p +:+ "/" +:+ fmt_nat (List.length dn0)]) r7)
            by (eapply (built_same _ _ _ _ _ r6); done).
          assert (HE7 : r_locals r7 = <[name := p +:+ "/" +:+ fmt_nat (List.length dn0)]> E).
          { change (r_locals r7) with (<[name := p +:+ "/" +:+ fmt_nat (List.length dn0)]> (r_locals r6)). rewrite Q5. apply map_eq. intros k. destruct (decide (name = k)) as [<-|Hne].
            - etransitivity; [apply lookup_insert|symmetry; apply lookup_insert].
            - etransitivity; [by apply lookup_insert_ne|]. rewrite I2 by done. symmetry. by apply lookup_insert_ne. }
          specialize (IH c r7 (bu_beyond _ _ _ _ _ _ Hb7) Hcl). rewrite HE7 in IH.
          destruct (meaning _ _ _ _ c) as [k|]; [|by destruct (render_node _ _ _ _ _ _) as [[? ?]| | |]].
          destruct (render_node _ _ _ _ _ _) as [[r8 c8]| | |]; try done. cbn in IH. destruct IH as [IHp IHl]. cbn [bindR agree].
          destruct (built_kid _ _ _ _ _ _ _ _ _ _ Hb7 IHp) as [Hb8 Hpl].
          unfold Inv. cbn [fst snd]. rewrite app_assoc, Hpl, I1. split; [done|]. split.
          - rewrite IHl, HE7. intros k' Hk'. by rewrite lookup_insert_ne.
          - rewrite app_length. cbn [List.length]. rewrite Nat.add_1_r, seq_S, map_app, flat_map_app. cbn [map Nat.add flat_map].
            eapply built_perm; [exact Hb8|done|]. rewrite app_nil_r. perm. }
        specialize (Hseq Hstep (r4, children) Hinit). clear Hstep Hinit.
        destruct (foldR _ _ _) as [[r9 ch9]| | |], (mapM _ _) as [ks|]; try done.
        cbn [agree] in Hseq. destruct Hseq as [(I1 & I2 & I3) Hlen]. cbn [fst snd] in I1, I2, I3.
        cbn [bindR mbind option_bind agree]. subst ch9.
        replace kids with (fst (gather 0 dn)) by (by rewrite Eg).
        eapply children_inv_group; [exact Hinv| | |].
        * apply Forall_app. split; [apply names_range|]. constructor; [cbn; lia|done].
        * apply Hfin. cbn. by apply restore_one_E.
        * apply Hres. eapply (built_same _ _ _ _ _ r9); [|done..]. rewrite Eg. cbn [fst snd].
          eapply built_perm; [exact I3|..].
          -- unfold nw. rewrite Hch, !map_app, !flat_map_app, shift_names, names_bindings.
             cbn [map shift flat_map mark_bindings app]. by rewrite place_length, Nat.add_0_r.
          -- unfold qs. rewrite !map_app, !flat_map_app, shift_names, names_paths. cbn. rewrite app_nil_r, Hlen. perm.
      + (* plain *)
        specialize (IH c r1 (bu_beyond _ _ _ _ _ _ Hb1) Hcl). rewrite HE in IH.
        destruct (meaning translate templates fuel E c) as [k|]; [|by destruct (render_node _ _ _ _ _ _) as [[? ?]| | |]].
        destruct (render_node _ _ _ _ _ _) as [[r3 c3]| | |]; try done. cbn in IH. destruct IH as [IHp IHl]. cbn [bindR mbind option_bind].
        destruct (built_kid _ _ _ _ _ _ _ _ _ _ Hb1 IHp) as [Hb3 Hpl].
        assert (Hch' : children ++ [c3] = place (S lo) (kids ++ [k])) by (rewrite Hch; exact (eq_sym Hpl)).
      rewrite Hch'. apply agree_ret.
        replace kids with (fst (gather 0 dn)) by (by rewrite Eg).
        eapply children_inv_group; [exact Hinv| | |].
        * apply names_range.
        * apply Hfin. by rewrite IHl.
        * apply Hres. rewrite Eg. cbn [fst snd]. eapply built_perm; [exact Hb3|..].
          -- rewrite Hch, shift_names, names_bindings. by rewrite app_nil_r.
          -- rewrite shift_names, names_paths. cbn. rewrite !app_nil_r. perm.
  Qed.

  Lemma stand_all_roots t par l : forall n c, stand_all t par n l -> In c (place n l) ->
    exists y, t_nodes t !! c = Some y /\ n_parent y = par.
  Proof.
    induction l as [|k l IH]; intros n c; [done|]. cbn [SpecTree.stand_all place]. intros [H1 H2] [<-|Hin].
    - apply stands_root in H1. rewrite H1. eauto.
    - by eapply IH.
  Qed.

  (** closing an element *)
  Lemma close_element lo r0 r1 r2 tag binds kids marks e0 qs :
    beyond (r_tree r0) -> lo = t_next (r_tree r0) ->
    e0 = foldl (apply_rbind read) (create_element lo <| e_tag := tag |>) binds ->
    r_tree r1 = (r_tree r0) <| t_nodes ::= <[lo := mkNode None [] default_layout None layout_zero]> |> <| t_next := S lo |> ->
    r_static_id r1 = add_ids (r_static_id r0) (own_ids lo binds) ->
    adv r0 r1 (flat_map (bind_bindings lo) binds) (flat_map bind_paths binds) ->
    built lo r1 kids (flat_map (mark_bindings lo (place (S lo) kids)) marks) qs r2 ->
    exists t3 t4, set_ctx lo (e0 <| e_children := place (S lo) kids |>) (r_tree r2) = Ok t3 /\
      set_children lo (place (S lo) kids) t3 = Ok t4 /\
      postq r0 (r2 <| r_tree := t4 |>) lo (RElem tag binds kids marks) (flat_map bind_paths binds ++ qs).
  Proof.
    intros Hb Hlo He Ht1 Hs1 Ha1 [B1 B2 B3 B4 B5 B6].
    assert (Hn : t_nodes (r_tree r2) !! lo = Some (mkNode None [] default_layout None layout_zero)).
    { rewrite B3, Ht1 by done. cbn. by rewrite lookup_insert. }
    unfold set_ctx, get_node. rewrite Hn. cbn [unwrap bindR].
    set (x := mkNode None [] default_layout (Some (e0 <| e_children := place (S lo) kids |>)) layout_zero).
    set (t3 := put_node (r_tree r2) lo _).
    assert (Hx : t_nodes t3 !! lo = Some x) by (unfold t3, put_node; cbn; by rewrite lookup_insert).
    assert (Hne : forall m, m <> lo -> t_nodes t3 !! m = t_nodes (r_tree r2) !! m).
    { intros m Hm. unfold t3, put_node. cbn. by rewrite lookup_insert_ne. }
    destruct (set_children_fresh lo (place (S lo) kids) t3 x) as (t4 & H4 & Hnx & Hlo4 & Hin4 & Hout4); [done..| | | |].
    { apply place_NoDup. }
    { intros Hin. apply place_ge in Hin. lia. }
    { intros c Hc. pose proof (place_ge _ _ _ Hc). rewrite Hne by lia. by eapply stand_all_roots. }
    exists t3, t4. split; [done|]. split; [done|]. unfold postq. split; [done|].
    cbn [r_tree set r_locals r_static_id r_bindings r_schema].
    assert (Hnx3 : t_next t3 = t_next (r_tree r2)) by done.
    split; [rewrite Hnx, Hnx3, B1, rsize_elem; lia|].
    split; [|split; [|split; [|split]]].
    - intros m Hm. rewrite Hnx, Hnx3, B1 in Hm. rewrite Hout4; [|intros Hc; apply place_ge in Hc; lia|lia].
      rewrite Hne by lia. apply B2. lia.
    - intros m Hm. rewrite Hout4; [|intros Hc; apply place_ge in Hc; lia|lia]. rewrite Hne by lia. rewrite B3, Ht1 by lia.
      cbn. by rewrite lookup_insert_ne by lia.
    - rewrite stands_eq. cbn [kids_of style_for elem_of]. split; [etransitivity; [exact Hlo4|]; unfold x; by rewrite He|].
      assert (Hsub : forall c, S lo <= c -> In c (place (S lo) kids) -> t_nodes t4 !! c = (fun x => x <| n_parent := Some lo |>) <$> t_nodes (r_tree r2) !! c).
      { intros c Hc Hd. rewrite <- Hne by lia. by apply Hin4. }
      assert (Hsub' : forall c, S lo <= c -> ~ In c (place (S lo) kids) -> t_nodes t4 !! c = t_nodes (r_tree r2) !! c).
      { intros c Hc Hd. rewrite <- Hne by lia. apply Hout4; [done|lia]. }
      clear - B4 Hsub Hsub'.
      assert (Hg : forall l a, kids = a ++ l -> stand_all (r_tree r2) None (S lo + rsizes a) l -> stand_all t4 (Some lo) (S lo + rsizes a) l).
      { induction l as [|k l IH]; intros a Heq; [done|]. cbn [SpecTree.stand_all]. intros [H1 H2].
        assert (Hpl : place (S lo) kids = place (S lo) a ++ (S lo + rsizes a) :: place (S lo + rsizes a + rsize k) l).
        { rewrite Heq, place_app. done. }
        split.
        - eapply stands_parent; [| |exact H1].
          + apply Hsub; [lia|]. rewrite Hpl. apply in_app_iff. right. by left.
          + intros m Hm. apply Hsub'; [lia|]. rewrite Hpl. intros Hin.
            apply in_app_iff in Hin as [Hin|[Heq'|Hin]]; [apply place_ge in Hin; lia|lia|apply place_ge in Hin; lia].
        - specialize (IH (a ++ [k])). rewrite rsizes_app in IH. cbn [rsizes] in IH.
          replace (S lo + (rsizes a + (rsize k + 0))) with (S lo + rsizes a + rsize k) in IH by lia.
          apply IH; [by rewrite <- app_assoc|done]. }
      specialize (Hg kids [] eq_refl). cbn [rsizes] in Hg. rewrite Nat.add_0_r in Hg. by apply Hg.
    - rewrite B5, Hs1, ids_of_elem, add_ids_app. done.
    - rewrite bindings_of_elem.
      assert (Ha : adv r0 r2 (flat_map (bind_bindings lo) binds ++ flat_map (mark_bindings lo (place (S lo) kids)) marks ++ kid_bindings (S lo) kids)
        (flat_map bind_paths binds ++ qs)).
      { eapply adv_trans; [exact Ha1|exact B6|done..]. }
      eapply (adv_ext r0 r0 r2); [exact Ha|done..].
  Qed.

  Lemma render_node_agree fuel : node_ok fuel.
  Proof.
    induction fuel as [|fuel IH]; intros h r Hb Hcl; [done|].
    cbn [render_node meaning]. destruct (h_text h) as [text|]; [by apply render_text_agree|].
    cbn [new_leaf]. set (lo := t_next (r_tree r)).
    set (t1 := mkTree (<[lo := _]> _) _). set (r1 := r <| r_tree := t1 |>).
    pose proof (render_bindings_agree read lo r1 (create_element lo <| e_tag := h_tag h |>) (h_bindings h)) as Hbs.
    change (r_locals r1) with (r_locals r) in Hbs.
    eapply agree_bind; [exact Hbs|]. clear Hbs.
    intros [r2 e2] binds (HT & HL & HS & He & HA).
    assert (HA' : adv r r2 (flat_map (bind_bindings lo) binds) (flat_map bind_paths binds)) by (eapply (adv_ext r1 r r2); [exact HA|done..]).
    assert (Htag : e_tag e2 = h_tag h).
    { rewrite He. destruct (apply_rbinds_keep read binds (create_element lo <| e_tag := h_tag h |>)) as (_ & -> & _). done. }
    rewrite Htag.
    assert (HT2 : r_tree r2 = (r_tree r) <| t_nodes ::= <[lo := mkNode None [] default_layout None layout_zero]> |> <| t_next := S lo |>).
    { rewrite HT. done. }
    assert (Hb2 : beyond (r_tree r2)).
    { rewrite HT. intros m Hm. cbn in *. rewrite lookup_insert_ne by lia. apply Hb. lia. }
    assert (Hbuilt0 : built lo r2 [] [] [] r2).
    { split; try done. - rewrite HT. cbn. lia. - cbn. apply adv_refl. }
    assert (Hclose : forall r3 kids marks, r_locals r3 = r_locals r2 ->
      built lo r2 kids (flat_map (mark_bindings lo (place (S lo) kids)) marks) (flat_map mark_paths marks ++ flat_map pointers kids) r3 ->
      agree (do! t <- set_ctx lo (e2 <| e_children := place (S lo) kids |>) (r_tree r3);
             do! t <- set_children lo (place (S lo) kids) t; Ok (r3 <| r_tree := t |>, lo))
            (Some (RElem (h_tag h) binds kids marks)) (fun '(r', n) rn => post r r' n rn)).
    { intros r3 kids marks Hl3 Hbu.
      destruct (close_element lo r r2 r3 (h_tag h) binds kids marks e2 _ Hb eq_refl He HT2 HS HA' Hbu) as (t3 & t4 & E3 & E4 & Hp).
      rewrite E3. cbn [bindR]. rewrite E4. cbn [bindR]. apply agree_ret. split; [exact Hp|]. cbn. by rewrite Hl3, HL. }
    destruct (String.eqb (h_tag h) "img").
    - unfold render_img.
      assert (Hsrc : match e_attrs e2 !! "src" with Some s => s | None => "" end = default "" (static_attr "src" binds)).
      { unfold static_attr. rewrite He. rewrite (static_attr_spec read "src" binds _ None) by done. done. }
      rewrite Hsrc. destruct (render_bg_image_post read (default "" (static_attr "src" binds)) r2 Hb2) as (r3 & c & E3 & Hp).
      rewrite E3. cbn [bindR].
      destruct (built_kid _ _ _ _ _ _ _ _ _ _ Hbuilt0 (proj1 Hp)) as [Hbu Hpl]. cbn [app place] in Hbu, Hpl.
      injection Hpl as <-. apply (Hclose r3 [RImage (default "" (static_attr "src" binds))] []); [|exact Hbu].
      apply Hp.
    - rewrite childless_void. destruct (existsb _ _).
      + cbn [bindR]. change (@nil NodeId) with (place (S lo) []). apply Hclose; [done|exact Hbuilt0].
      + eapply agree_bind.
        * assert (HLr : r_locals r = r_locals r2) by (by rewrite HL).
          rewrite HLr.
          apply (agree_fold _ _ (children_inv lo r2) (h_children h)) with (dn := []).
          -- intros dn s a Ha Hi. eapply child_agree; done.
          -- unfold children_inv. cbn. split; [done|]. split; [done|]. split; [done|]. exact Hbuilt0.
        * intros [r3 children] groups Hinv. cbn [app] in Hinv. unfold children_inv in Hinv.
          destruct (gather 0 groups) as [kids marks]. cbn [fst snd] in Hinv. destruct Hinv as (-> & Hl3 & _ & Hbu).
          apply Hclose; done.
  Qed.
End node.
