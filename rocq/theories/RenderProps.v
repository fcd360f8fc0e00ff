(** * Rendered documents: proofs of C14-C16. *)
From Coq Require Import ZArith Lia.
From stdpp Require Import gmap.
From RecordUpdate Require Import RecordUpdate.
From Verif Require Import Str StrFacts F32 Res ResFacts Json JsonFacts PropKey Html Css Element Tree ViewModel Render
  SpecRender SpecTree RenderFacts RenderTree RenderNode.

Section props.
  Context (read : string -> option (list Declaration)) (translate : string -> string) (templates : gmap string Html).
  Notation stands := (stands read). Notation stand_all := (stand_all read). Notation elem_of := (elem_of read).
  Notation post := (post read).

  (** ** Bindings *)
  (** the ranges of kids that marks are about come one after the other *)
  Definition mark_range (m : mark) : option (nat * nat) :=
    match m with MName _ => None | MCond i _ _ _ => Some (i, S i) | MLoop s c _ _ => Some (s, s + c) end.
  Fixpoint ordered (k : nat) (ms : list mark) : Prop :=
    match ms with
    | [] => True
    | m :: ms => match mark_range m with None => ordered k ms | Some (lo, hi) => k <= lo /\ ordered hi ms end
    end.
  Lemma ordered_snoc k m lo hi ms : mark_range m = Some (lo, hi) -> k <= lo -> Forall (in_range k) ms -> forall a, a <= k -> ordered a ms -> ordered a (ms ++ [m]).
  Proof.
    intros Hm Hk. induction 1 as [|m' ms Hr _ IH]; intros a Ha; cbn [app ordered].
    - rewrite Hm. intros _. split; [lia|done].
    - destruct m' as [p|i v p q|s c p q]; cbn in *; [by apply IH|..]; intros [H1 H2]; (split; [done|]); apply IH; try done; lia.
  Qed.

  Fixpoint marks_ok (r : rnode) : Prop :=
    match r with
    | RElem tag binds kids marks =>
        (Forall (in_range (List.length kids)) marks /\ ordered 0 marks /\
         (tag = "img" -> marks = [] /\ kids = [RImage (default "" (static_attr "src" binds))])) /\
        (fix go (l : list rnode) : Prop := match l with [] => True | k :: l => marks_ok k /\ go l end) kids
    | _ => True
    end.
  Lemma marks_ok_iff tag binds kids marks : marks_ok (RElem tag binds kids marks) <->
    (Forall (in_range (List.length kids)) marks /\ ordered 0 marks /\ (tag = "img" -> marks = [] /\ kids = [RImage (default "" (static_attr "src" binds))])) /\ Forall marks_ok kids.
  Proof.
    cbn. apply and_iff_compat_l. induction kids as [|k l IH]; [split; [constructor|done]|]. rewrite IH. split; [intros [? ?]; by constructor|by inversion 1].
  Qed.
  Lemma marks_ok_elem tag binds kids marks : marks_ok (RElem tag binds kids marks) ->
    (Forall (in_range (List.length kids)) marks /\ ordered 0 marks /\ (tag = "img" -> marks = [] /\ List.length kids = 1)) /\ Forall marks_ok kids.
  Proof.
    intros H. apply marks_ok_iff in H as [(H1 & H2 & H3) H4]. split; [|done]. split; [done|]. split; [done|]. intros Hi. destruct (H3 Hi) as [-> ->]. done.
  Qed.

  Lemma stand_all_lookup t par l : forall n i c k, stand_all t par n l -> place n l !! i = Some c -> l !! i = Some k -> stands t par c k.
  Proof.
    induction l as [|k0 l IH]; intros n i c k; [done|]. cbn [SpecTree.stand_all place]. intros [H1 H2].
    destruct i as [|i]; cbn.
    - intros [= <-] [= <-]. done.
    - intros Hc Hk. by eapply IH.
  Qed.

  Lemma place_cover l : forall n m, n <= m < n + rsizes l -> exists i c k, place n l !! i = Some c /\ l !! i = Some k /\ c <= m < c + rsize k.
  Proof.
    induction l as [|k l IH]; intros n m Hm; cbn in *; [lia|].
    destruct (decide (m < n + rsize k)) as [Hlt|Hge].
    - exists 0, n, k. cbn. split; [done|]. split; [done|]. lia.
    - destruct (IH (n + rsize k) m) as (i & c & k' & H1 & H2 & H3); [lia|]. by exists (S i), c, k'.
  Qed.

  (** every node of the range is the root or a kid of an earlier node *)
  Lemma stands_sub t rn : forall par n m, stands t par n rn -> n <= m < n + rsize rn ->
    exists par' rk, stands t par' m rk /\ (marks_ok rn -> marks_ok rk) /\ m + rsize rk <= n + rsize rn /\
      ((m = n /\ rk = rn /\ par' = par) \/
       (exists q pq rq i, par' = Some q /\ n <= q < m /\ stands t pq q rq /\ place (S q) (kids_of rq) !! i = Some m /\ kids_of rq !! i = Some rk)).
  Proof.
    induction rn as [spans|src|tag binds kids marks IH] using rnode_ind'; intros par n m Hs Hm.
    - cbn in Hm. assert (m = n) as -> by lia. exists par, (RText spans). split; [done|]. split; [done|]. cbn. split; [lia|]. by left.
    - cbn in Hm. assert (m = n) as -> by lia. exists par, (RImage src). split; [done|]. split; [done|]. cbn. split; [lia|]. by left.
    - destruct (decide (m = n)) as [->|Hne].
      { exists par, (RElem tag binds kids marks). split; [done|]. split; [done|]. split; [lia|]. by left. }
      rewrite rsize_elem in *. destruct (place_cover kids (S n) m) as (i & c & k & Hc & Hk & Hr); [lia|].
      pose proof Hs as Hs'. rewrite stands_eq in Hs'. destruct Hs' as [_ Hall]. cbn [kids_of] in Hall.
      pose proof (stand_all_lookup _ _ _ _ _ _ _ Hall Hc Hk) as Hsc.
      rewrite List.Forall_forall in IH. specialize (IH k). 
      assert (Hin : In k kids) by (apply elem_of_list_In; by eapply elem_of_list_lookup_2).
      assert (Hbound : c + rsize k <= S n + rsizes kids).
      { clear - Hc Hk. revert Hc Hk. generalize (S n). revert i. induction kids as [|k0 l IH]; intros i a; [done|].
        destruct i as [|i]; cbn; [intros [= <-] [= <-]; lia|]. intros H1 H2. specialize (IH _ _ H1 H2). lia. }
      destruct (IH Hin (Some n) c m Hsc Hr) as (par' & rk & H1 & Hmk & Hsz & H2).
      exists par', rk. split; [done|]. split.
      { intros Hm'. apply Hmk. apply marks_ok_elem in Hm' as [_ Hm']. rewrite List.Forall_forall in Hm'. by apply Hm'. }
      split; [lia|]. right. destruct H2 as [(-> & -> & ->)|(q & pq & rq & j & E1 & E2 & E3 & E4 & E5)].
      + exists n, par, (RElem tag binds kids marks), i. split; [done|]. split; [lia|]. done.
      + exists q, pq, rq, j. split; [done|]. split; [|done]. 
        assert (S n <= c) by (eapply (place_ge (S n) kids); apply elem_of_list_In; by eapply elem_of_list_lookup_2). lia.
  Qed.

  Lemma elem_of_facts n rn : e_node (elem_of n rn) = n /\ e_children (elem_of n rn) = place (S n) (kids_of rn).
  Proof.
    destruct rn as [spans|src|tag binds kids marks]; cbn; [done..|]. split; [|done].
    destruct (apply_rbinds_keep read binds (create_element n <| e_tag := tag |>)) as (-> & _). done.
  Qed.

  (** the tree of [stands] plus the document root *)
  Record rendered (t : Tree) (rn : rnode) : Prop := {
    re_root : t_nodes t !! 0 = Some (mkNode None [1] default_layout (Some (create_element 0)) layout_zero);
    re_next : t_next t = 1 + rsize rn;
    re_beyond : beyond t;
    re_stands : stands t (Some 0) 1 rn
  }.

  Lemma render_agree fuel body : clean templates body ->
    agree (render translate read templates fuel body renderer_new) (meaning translate templates fuel ∅ body)
      (fun '(r, root, b) rn => root = 0 /\ b = 1 /\ rendered (r_tree r) rn /\ r_locals r = ∅ /\
         r_static_id r = add_ids ∅ (ids_of 1 rn) /\ obj_sorted (r_bindings r) = true /\
         flat (r_bindings r) ≡ₚ bindings_of 1 rn /\
         exists ps, ps ≡ₚ pointers rn /\ r_schema r = foldl define_value schema_new ps).
  Proof.
    intros Hcl. unfold render. cbn [new_leaf renderer_new r_tree tree_new t_next t_nodes].
    unfold set_ctx, get_node. cbn [t_nodes]. rewrite lookup_insert. cbn [unwrap bindR].
    match goal with |- context [render_node _ _ _ _ _ ?r] => set (r0 := r) end.
    assert (Hb : beyond (r_tree r0)).
    { intros m Hm. cbn in *. rewrite !lookup_insert_ne by lia. apply lookup_empty. }
    pose proof (render_node_agree read translate templates fuel body r0 Hb Hcl) as H.
    change (r_locals r0) with (∅ : gmap string string) in H.
    destruct (meaning translate templates fuel ∅ body) as [rn|]; [|by destruct (render_node _ _ _ _ _ _) as [[? ?]| | |]].
    destruct (render_node _ _ _ _ _ _) as [[r1 b]| | |]; try done. cbn in H. destruct H as ((-> & P2 & P3 & P4 & P5 & P7 & P8 & P9) & P6).
    cbn [bindR]. change (t_next (r_tree r0)) with 1 in *.
    pose proof (stands_root _ _ _ _ _ P5) as Hroot.
    unfold add_child, set_parent, get_node. rewrite Hroot. cbn [unwrap bindR].
    unfold children, get_node. unfold put_node at 1. cbn [t_nodes set]. rewrite lookup_insert_ne by done. rewrite P4 by lia.
    change (t_nodes (r_tree r0) !! 0) with (Some (mkNode None [] default_layout (Some (create_element 0)) layout_zero)).
    cbn [unwrap bindR]. unfold put_children, get_node. unfold put_node at 1. cbn [t_nodes set]. rewrite lookup_insert_ne by done. rewrite P4 by lia.
    change (t_nodes (r_tree r0) !! 0) with (Some (mkNode None [] default_layout (Some (create_element 0)) layout_zero)).
    cbn [unwrap bindR n_children app]. apply agree_ret. split; [done|]. split; [done|].
    cbn [r_tree set r_locals r_static_id r_bindings r_schema]. split; [|split; [|split; [|split; [|split]]]].
    - split.
      + unfold put_node. cbn. by rewrite lookup_insert.
      + unfold put_node. cbn. exact P2.
      + intros m Hm. unfold put_node in *. cbn in *. pose proof (rsize_pos rn).
        rewrite !lookup_insert_ne by lia. by apply P3.
      + eapply stands_parent; [| |exact P5].
        * unfold put_node. cbn. rewrite lookup_insert_ne by done. rewrite lookup_insert, Hroot. done.
        * intros m Hm. unfold put_node. cbn. rewrite !lookup_insert_ne by lia. done.
    - exact P6.
    - exact P7.
    - by destruct (P8 eq_refl).
    - by destruct (P8 eq_refl).
    - exact P9.
  Qed.

  Lemma rendered_tree_ok t rn : marks_ok rn -> rendered t rn -> tree_ok t 0.
  Proof.
    intros Hmo [R1 R2 R3 R4] n Hn. rewrite R2 in Hn.
    (* parents of kids *)
    assert (Hpar : forall c y q, t_nodes t !! c = Some y -> n_parent y = Some q ->
      exists x, t_nodes t !! q = Some x /\ c ∈ n_children x).
    { intros c y q Hy Hq. destruct (decide (c = 0)) as [->|Hc0].
      { change (t_nodes t !! 0 = Some y) in Hy. rewrite R1 in Hy. injection Hy as <-. done. }
      assert (Hlt : c < 1 + rsize rn).
      { destruct (decide (c < 1 + rsize rn)); [done|]. rewrite R3 in Hy by lia. done. }
      destruct (stands_sub t rn (Some 0) 1 c R4) as (par' & rk & H1 & _ & _ & H2); [lia|].
      apply stands_root in H1. change (t_nodes t !! c = Some y) in Hy. rewrite H1 in Hy. injection Hy as <-. cbn in Hq. subst par'.
      destruct H2 as [(-> & -> & [= ->])|(q' & pq & rq & i & [= <-] & _ & Hsq & Hpl & _)].
      - eexists. split; [exact R1|]. cbn. by left.
      - apply stands_root in Hsq. eexists. split; [exact Hsq|]. cbn. by eapply elem_of_list_lookup_2. }
    destruct (decide (n = 0)) as [->|Hn0].
    - eexists _, _. split; [exact R1|]. cbn. split; [done|]. split; [done|]. split; [done|]. split; [repeat constructor; set_solver|].
      pose proof (rsize_pos rn). split; [intros c Hc; apply elem_of_list_singleton in Hc as ->; lia|]. split; [|split; [done|done]].
      intros c. split.
      + intros Hc. apply elem_of_list_singleton in Hc as ->. apply stands_root in R4. by eexists.
      + intros (y & Hy & Hq). destruct (Hpar _ _ _ Hy Hq) as (x & Hx & Hc). change (t_nodes t !! 0 = Some x) in Hx. rewrite R1 in Hx. by injection Hx as <-.
    - destruct (stands_sub t rn (Some 0) 1 n R4) as (par' & rk & H1 & Hmk & Hsz & H2); [lia|].
      pose proof (stands_root _ _ _ _ _ H1) as Hx. eexists _, _. split; [exact Hx|]. cbn. split; [done|].
      destruct (elem_of_facts n rk) as [Hen Hec]. split; [exact Hen|]. split; [intros _; exact Hec|]. split; [apply place_NoDup|].
      split; [|split].
      + intros c Hc. apply elem_of_list_In, place_ge in Hc.
        assert (rsizes (kids_of rk) < rsize rk) by (destruct rk; rewrite ?rsize_elem; cbn [kids_of rsizes rsize]; lia). rewrite R2. lia.
      + intros c. split.
        * intros Hc. rewrite stands_eq in H1. destruct H1 as [_ Hall]. eapply stand_all_roots; [exact Hall|]. by apply elem_of_list_In.
        * intros (y & Hy & Hq). destruct (Hpar _ _ _ Hy Hq) as (x & Hx' & Hc). change (t_nodes t !! n = Some x) in Hx'. rewrite Hx in Hx'. by injection Hx' as <-.
      + split.
        * split; [|done]. intros ->. destruct H2 as [(_ & _ & H2)|(q & _ & _ & _ & H2 & _)]; done.
        * specialize (Hmk Hmo). rewrite place_length. destruct rk as [spans|src|tag binds kids marks]; [done..|].
          intros Htag. cbn in Htag. destruct (apply_rbinds_keep read binds (create_element n <| e_tag := tag |>)) as (_ & Ht & _). rewrite Ht in Htag. cbn in Htag.
          apply marks_ok_elem in Hmk as [(_ & _ & Hi) _]. by apply Hi.
  Qed.

  Lemma span_bindings_in mk : forall l i p b, In (p, b) (span_bindings mk i l) ->
    exists j q s, i <= j < i + List.length l /\ l !! (j - i) = Some (RGet p q s) /\ b = mkBinding (mk j) q.
  Proof.
    induction l as [|[s|p' q s] l IH]; intros i p b; cbn [span_bindings]; [done|..].
    - intros H. apply IH in H as (j & q & s' & H1 & H2 & H3). exists j, q, s'. cbn. split; [lia|]. split; [|done].
      replace (j - i) with (S (j - S i)) by lia. done.
    - intros [[= <- <-]|H].
      + exists i, q, s. cbn. split; [lia|]. by rewrite Nat.sub_diag.
      + apply IH in H as (j & q' & s' & H1 & H2 & H3). exists j, q', s'. cbn. split; [lia|]. split; [|done].
        replace (j - i) with (S (j - S i)) by lia. done.
  Qed.

  Lemma attr_binding_set binds key : forall e, (is_Some (e_attrs_bindings e !! key) \/ exists spans, In (RAttr key spans) binds) ->
    is_Some (e_attrs_bindings (foldl (apply_rbind read) e binds) !! key).
  Proof.
    induction binds as [|b binds IH]; intros e H; cbn [foldl].
    - destruct H as [H|(? & [])]. done.
    - apply IH. destruct H as [H|(spans & [->|H])].
      + left. destruct b as [k v|k v|k p q|k spans|ev args]; cbn [apply_rbind]; try exact H.
        * destruct (String.eqb k "style"); [destruct (read v)|]; exact H.
        * cbn. destruct (decide (k = key)) as [->|Hne]; [rewrite lookup_insert|rewrite lookup_insert_ne by done]; eauto.
      + left. cbn. rewrite lookup_insert. eauto.
      + right. eauto.
  Qed.

  Lemma stands_bindings_ok t rn : forall par n p b, stands t par n rn -> marks_ok rn -> In (p, b) (bindings_of n rn) -> binding_ok t b.
  Proof.
    induction rn as [spans|src|tag binds kids marks IH] using rnode_ind'; intros par n p b Hs Hm Hin.
    - cbn [bindings_of] in Hin. apply span_bindings_in in Hin as (j & q & s & Hj & _ & ->). unfold binding_ok. cbn.
      apply stands_root in Hs. unfold get_ctx. change (t_nodes t !! n) with (t_nodes t !! n) in *.
      eexists _, _. split; [rewrite Hs; done|]. cbn. split; [done|]. rewrite map_length. lia.
    - done.
    - rewrite bindings_of_elem in Hin. apply marks_ok_elem in Hm as [(Hm1 & _ & Himg) Hm2].
      pose proof (stands_root _ _ _ _ _ Hs) as Hx.
      assert (Hctx : get_ctx t n = Some (elem_of n (RElem tag binds kids marks))) by (unfold get_ctx; rewrite Hx; done).
      assert (Htag : forall m, In m marks -> e_tag (elem_of n (RElem tag binds kids marks)) <> "img").
      { intros m Hmk E. cbn in E. destruct (apply_rbinds_keep read binds (create_element n <| e_tag := tag |>)) as (_ & Ht & _). rewrite Ht in E. cbn in E.
        destruct (Himg E) as [-> _]. done. }
      apply in_app_iff in Hin as [Hin|Hin]; [|apply in_app_iff in Hin as [Hin|Hin]].
      + apply in_flat_map in Hin as (rb & Hrb & Hin). destruct rb as [k v|k v|k p' q|k spans|ev args]; cbn [bind_bindings] in Hin; try done.
        * destruct Hin as [[= <- <-]|[]]. unfold binding_ok. cbn. rewrite Hctx. eauto.
        * apply span_bindings_in in Hin as (j & q & s & Hj & _ & ->). unfold binding_ok. cbn [bd_params]. eexists. split; [exact Hctx|].
          cbn. apply attr_binding_set. right. eauto.
      + apply in_flat_map in Hin as (m & Hmk & Hin). destruct m as [p'|i v p' q|s c p' q]; cbn [mark_bindings] in Hin; [done|..].
        * destruct (place (S n) kids !! i) as [c|] eqn:Ec; [|done]. destruct Hin as [[= <- <-]|[]]. unfold binding_ok. cbn [bd_params].
          eexists. split; [exact Hctx|]. split; [cbn; by eapply elem_of_list_lookup_2|]. by eapply Htag.
        * destruct Hin as [[= <- <-]|[]]. unfold binding_ok. cbn [bd_params]. eexists. split; [exact Hctx|]. cbn.
          rewrite place_length. rewrite List.Forall_forall in Hm1. split; [by specialize (Hm1 _ Hmk)|]. by eapply Htag.
      + rewrite stands_eq in Hs. destruct Hs as [_ Hall]. cbn [kids_of] in Hall. clear Hx Hctx Hm1 Himg Htag.
        revert Hall Hin. generalize (S n) as m. induction IH as [|k l Hk IHk IHl]; intros m; [done|].
        cbn [SpecTree.stand_all kid_bindings]. intros [H1 H2] Hin. inversion Hm2; subst. apply in_app_iff in Hin as [Hin|Hin].
        * by eapply Hk.
        * by eapply IHl.
  Qed.
End props.

