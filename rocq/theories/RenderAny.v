(** * Rendering any template: whatever the names are, the result is a
      well-formed tree whose bindings point into it. *)
From Coq Require Import ZArith Lia.
From stdpp Require Import gmap.
From RecordUpdate Require Import RecordUpdate.
From Verif Require Import Str StrFacts F32 Res ResFacts Json JsonFacts PropKey Html Css Element Tree ViewModel Render
  SpecRender SpecTree RenderFacts RenderTree RenderNode RenderProps.

Lemma agree_Ok {A B} (m : res A) (o : option B) P a : agree m o P -> m = Ok a -> exists b, o = Some b /\ P a b.
Proof. intros H ->. destruct o; [|done]. eauto. Qed.

Lemma foldR_inv {A St} (f : St -> A -> res St) (Inv : St -> Prop) l : forall s s',
  foldR f s l = Ok s' -> Inv s -> (forall s a s', In a l -> Inv s -> f s a = Ok s' -> Inv s') -> Inv s'.
Proof.
  induction l as [|a l IH]; intros s s' H Hi Hs; cbn [foldR] in H.
  - injection H as <-. done.
  - apply bindR_Ok in H as (s1 & H1 & H2). eapply IH; [exact H2| |].
    + eapply Hs; [by left|exact Hi|exact H1].
    + intros s2 b s3 Hb. apply Hs. by right.
Qed.

Section any.
  Context (read : string -> option (list Declaration)) (translate : string -> string) (templates : gmap string Html).
  Notation postq := (postq read). Notation built := (built read).

  Definition any_post (r r' : Renderer) (n : NodeId) : Prop := exists rn qs, marks_ok rn /\ postq r r' n rn qs.

  Definition any_inv (lo : nat) (r0 : Renderer) (st : Renderer * list NodeId) : Prop :=
    exists kids marks qs, snd st = place (S lo) kids /\ (Forall (in_range (List.length kids)) marks /\ ordered 0 marks) /\ Forall marks_ok kids /\
      built lo r0 kids (flat_map (mark_bindings lo (place (S lo) kids)) marks) qs (fst st).

  Lemma any_inv_quiet lo r0 r children r' qs' : any_inv lo r0 (r, children) ->
    r_tree r' = r_tree r -> r_static_id r' = r_static_id r -> adv r r' [] qs' -> any_inv lo r0 (r', children).
  Proof.
    intros (kids & marks & qs & H1 & H2 & H3 & H4) HT HS HA. cbn [fst snd] in *.
    exists kids, marks, (qs ++ qs'). cbn [fst snd]. split; [done|]. split; [done|]. split; [done|].
    pose proof (built_quiet _ _ _ _ _ _ _ r' [] qs' H4 HT HS HA) as H. by rewrite app_nil_r in H.
  Qed.
  Lemma any_inv_same lo r0 r children r' : any_inv lo r0 (r, children) ->
    r_tree r' = r_tree r -> r_static_id r' = r_static_id r -> r_bindings r' = r_bindings r -> r_schema r' = r_schema r ->
    any_inv lo r0 (r', children).
  Proof.
    intros (kids & marks & qs & H1 & H2 & H3 & H4) HT HS HB HC. exists kids, marks, qs. cbn [fst snd] in *.
    split; [done|]. split; [done|]. split; [done|]. by eapply built_same.
  Qed.
  Lemma any_inv_kid lo r0 r children r' c : any_inv lo r0 (r, children) -> any_post r r' c -> any_inv lo r0 (r', children ++ [c]).
  Proof.
    intros (kids & marks & qs & H1 & [H2 H2'] & H3 & H4) (rn & ps & Hm & Hp). cbn [fst snd] in *.
    destruct (built_kid _ _ _ _ _ _ _ _ _ _ _ H4 Hp) as [Hb Hpl].
    exists (kids ++ [rn]), marks, (qs ++ ps). cbn [fst snd]. split; [rewrite H1; exact (eq_sym Hpl)|]. split.
    { split; [|done]. eapply Forall_impl; [|exact H2]. intros [|i v p q|s k p q]; cbn; rewrite ?app_length; try done; lia. }
    split; [apply Forall_app; split; [done|by constructor]|].
    rewrite Hpl, mark_bindings_app by (rewrite place_length; apply H2). exact Hb.
  Qed.
  Lemma push_adv r p b : adv r (r <| r_bindings ::= push_binding p b |>) [(p, b)] [].
  Proof. split; [|by exists []]. intros Hs. cbn. split; [by apply push_sorted|by apply push_flat]. Qed.
  (** a mark about kids already there *)
  Lemma any_inv_mark lo r0 r children c r' visible p pipe : any_inv lo r0 (r, children) -> any_post r r' c ->
    any_inv lo r0 (r' <| r_bindings ::= push_binding p (mkBinding (BVisibility lo c visible) pipe) |>, children ++ [c]).
  Proof.
    intros (kids & marks & qs & H1 & H2 & H3 & H4) (rn & ps & Hm & Hp). cbn [fst snd] in *.
    destruct (built_kid _ _ _ _ _ _ _ _ _ _ _ H4 Hp) as [Hb Hpl].
    exists (kids ++ [rn]), (marks ++ [MCond (List.length kids) visible p pipe]), ((qs ++ ps) ++ []). cbn [fst snd].
    split; [rewrite H1; exact (eq_sym Hpl)|]. destruct H2 as [H2 H2']. split.
    { split.
      - apply Forall_app. split; [|constructor; [cbn; rewrite app_length; cbn; lia|done]].
        eapply Forall_impl; [|exact H2]. intros [|i v p' q|s k p' q]; cbn; rewrite ?app_length; try done; lia.
      - eapply (ordered_snoc (List.length kids)); [done|lia|done|lia|done]. }
    split; [apply Forall_app; split; [done|by constructor]|].
    rewrite flat_map_app. cbn [flat_map mark_bindings]. rewrite Hpl, mark_bindings_app by (by rewrite place_length).
    rewrite lookup_app_r by (by rewrite place_length). rewrite place_length, Nat.sub_diag. cbn [lookup list_lookup]. rewrite app_nil_r.
    eapply built_quiet; [exact Hb|done..|apply push_adv].
  Qed.
  Lemma foldR_alias_any lo r0 children l : forall r over r' over',
    foldR bind_alias (r, over) l = Ok (r', over') -> any_inv lo r0 (r, children) -> any_inv lo r0 (r', children).
  Proof.
    induction l as [|[name b] l IH]; intros r over r' over' H Hi; cbn [foldR] in H.
    - injection H as <- <-. done.
    - apply bindR_Ok in H as ([r1 o1] & H1 & H2). cbn [bind_alias] in H1. apply bindR_Ok in H1 as ([r2 p] & H1 & H3).
      injection H3 as <- <-. eapply IH; [exact H2|].
      pose proof (agree_Ok _ _ _ _ (r_field_agree b r) H1) as (q & _ & -> & (Q1 & _ & Q3) & Ha).
      eapply (any_inv_same _ _ r2); [|done..]. by eapply any_inv_quiet.
  Qed.

  Lemma r_field_any b r r' p : r_field b r = Ok (r', p) -> r_tree r' = r_tree r /\ r_static_id r' = r_static_id r /\ adv r r' [] [p].
  Proof. intros H. pose proof (agree_Ok _ _ _ _ (r_field_agree b r) H) as (q & _ & -> & (Q1 & _ & Q3) & Ha). done. Qed.
  Lemma r_index_any b i r r' p : r_index b i r = Ok (r', p) -> r_tree r' = r_tree r /\ r_static_id r' = r_static_id r /\ adv r r' [] [p].
  Proof. intros H. pose proof (agree_Ok _ _ _ _ (r_index_agree b i r) H) as (q & _ & -> & (Q1 & _ & Q3) & Ha). done. Qed.

  Lemma any_inv_next lo r0 r children : any_inv lo r0 (r, children) -> beyond (r_tree r).
  Proof. intros (kids & marks & qs & _ & _ & _ & []). done. Qed.

  Lemma render_node_any fuel : forall h r r' n, beyond (r_tree r) ->
    render_node translate read templates fuel h r = Ok (r', n) -> any_post r r' n.
  Proof.
    induction fuel as [|fuel IH]; intros h r r' n Hb H; [done|]. cbn [render_node] in H.
    destruct (h_text h) as [text|].
    { pose proof (agree_Ok _ _ _ _ (render_text_agree read translate text r Hb) H) as (rn & Hrn & Hp & _).
      apply bind_Some in Hrn as (spans & _ & [= <-]). by exists (RText spans), (pointers (RText spans)). }
    cbn [new_leaf] in H. set (lo := t_next (r_tree r)) in *.
    set (t1 := mkTree (<[lo := _]> _) _) in H. set (r1 := r <| r_tree := t1 |>) in H.
    apply bindR_Ok in H as ([r2 e2] & H2 & H).
    pose proof (agree_Ok _ _ _ _ (render_bindings_agree read lo r1 (create_element lo <| e_tag := h_tag h |>) (h_bindings h)) H2)
      as (binds & _ & HT & HL & HS & He & HA).
    assert (HA' : adv r r2 (flat_map (bind_bindings lo) binds) (flat_map bind_paths binds)) by (eapply (adv_ext r1 r r2); [exact HA|done..]).
    assert (HT2 : r_tree r2 = (r_tree r) <| t_nodes ::= <[lo := mkNode None [] default_layout None layout_zero]> |> <| t_next := S lo |>).
    { rewrite HT. done. }
    assert (Hb2 : beyond (r_tree r2)).
    { rewrite HT. intros m Hm. cbn in *. rewrite lookup_insert_ne by lia. apply Hb. lia. }
    assert (Hinv0 : any_inv lo r2 (r2, [])).
    { exists [], [], []. split; [done|]. split; [done|]. split; [done|]. split; try done.
      - cbn. rewrite HT. cbn. lia.
      - cbn. apply adv_refl. }
    apply bindR_Ok in H as ([r3 children] & H3 & H).
    assert (Htag : e_tag e2 = h_tag h).
    { rewrite He. destruct (apply_rbinds_keep read binds (create_element lo <| e_tag := h_tag h |>)) as (_ & -> & _). done. }
    rewrite Htag in H3.
    assert (Hinv : exists kids marks qs, children = place (S lo) kids /\ marks_ok (RElem (h_tag h) binds kids marks) /\
      built lo r2 kids (flat_map (mark_bindings lo (place (S lo) kids)) marks) qs r3).
    { destruct (String.eqb (h_tag h) "img") eqn:Eimg.
      { apply bindR_Ok in H3 as ([r4 c] & H3 & [= <- <-]). unfold render_img in H3.
        match type of H3 with render_bg_image ?src _ = _ =>
          destruct (render_bg_image_post read src r2 Hb2) as (r5 & c' & E & Hp & _); rewrite E in H3;
          exists [RImage src], [], (pointers (RImage src)) end.
        injection H3 as <- <-. split; [|split].
        - destruct Hp as (-> & _). rewrite HT. done.
        - apply marks_ok_iff. split; [|repeat constructor]. split; [constructor|]. split; [done|]. intros _. split; [done|].
          unfold static_attr. rewrite He. by rewrite (static_attr_spec read "src" binds _ None) by done.
        - assert (Hbu : built lo r2 [] [] [] r2).
          { split; try done. - rewrite HT. cbn. lia. - cbn. apply adv_refl. }
          by destruct (built_kid _ _ _ _ _ _ _ _ _ _ _ Hbu Hp) as [Hb3 _]. }
      assert (Hinv : any_inv lo r2 (r3, children)); cycle 1.
      { destruct Hinv as (kids & marks & qs & K1 & [K2 K2'] & K3 & K4). cbn [fst snd] in *. exists kids, marks, qs. split; [done|]. split; [|done].
        apply marks_ok_iff. split; [|done]. split; [done|]. split; [done|]. intros Ei. rewrite Ei in Eimg. done. }
      destruct (is_void (h_tag h)).
      - injection H3 as <- <-. exact Hinv0.
      - eapply (foldR_inv _ (any_inv lo r2) _ _ _ H3 Hinv0). clear H3 H.
        intros [r4 ch4] child [r9 ch9] _ Hi H.
        apply bindR_Ok in H as (c & _ & H). apply bindR_Ok in H as ([r5 over] & Ha & H).
        pose proof (foldR_alias_any _ _ _ _ _ _ _ _ Ha Hi) as H5. clear Ha Hi.
        apply bindR_Ok in H as ([r8 ch8] & H8 & [= <- <-]).
        eapply (any_inv_same _ _ r8); [|done..].
        destruct (as_visibility c) as [[visible b]|]; [|destruct (as_repeat c) as [[[name count] b]|]].
        + apply bindR_Ok in H8 as ([r6 p] & Hf & H8). apply bindR_Ok in H8 as ([r7 k] & Hk & [= <- <-]).
          apply r_field_any in Hf as (Q1 & Q2 & Q3). pose proof (any_inv_quiet _ _ _ _ _ _ H5 Q1 Q2 Q3) as H6.
          pose proof (IH _ _ _ _ (any_inv_next _ _ _ _ H6) Hk) as Hp.
          by eapply any_inv_mark.
        + apply bindR_Ok in H8 as ([r6 p] & Hf & H8). apply bindR_Ok in H8 as ([r7 ch7] & H7 & [= <- <-]).
          eapply (any_inv_same _ _ r7); [|done..].
          apply r_field_any in Hf as (Q1 & Q2 & Q3). pose proof (any_inv_quiet _ _ _ _ _ _ H5 Q1 Q2 Q3) as H6.
          (* the mark is about kids to come *)
          set (bd := mkBinding (BRepeat lo (List.length ch4) count) (b_pipe b)) in *.
          pose (K := fun (k : nat) (st : Renderer * list NodeId) => exists kids marks qs,
             snd st = place (S lo) kids /\ List.length kids = List.length ch4 + k /\
             (Forall (in_range (List.length ch4)) marks /\ ordered 0 marks) /\ Forall marks_ok kids /\
             built lo r2 kids (flat_map (mark_bindings lo (place (S lo) kids)) marks ++ [(p, bd)]) qs (fst st)).
          assert (HK : K count (r7, ch7)).
          { assert (Hgen : forall j i st st', K i st ->
               foldR (fun '(r, children) n =>
                     do! (r, path) <- r_index b n r;
                     let r := r <| r_locals ::= <[name := path]> |> in
                     do! (r, c) <- render_node translate read templates fuel c r;
                     Ok (r, children ++ [c])) st (seq i j) = Ok st' -> K (i + j) st').
            { induction j as [|j IHj]; intros i st st' HKi HH; cbn [seq foldR] in HH.
              - injection HH as <-. by rewrite Nat.add_0_r.
              - apply bindR_Ok in HH as (st1 & HH1 & HH). replace (i + S j) with (S i + j) by lia.
                eapply IHj; [|exact HH]. clear HH IHj. destruct st as [ra cha].
                apply bindR_Ok in HH1 as ([rb q] & Hq & HH). apply bindR_Ok in HH as ([rc kc] & Hkc & [= <-]).
                apply r_index_any in Hq as (T1 & T2 & T3).
                destruct HKi as (kids & marks & qs & K1 & K2 & K3 & K4 & K5). cbn [fst snd] in *.
                pose proof (built_quiet _ _ _ _ _ _ _ rb [] _ K5 T1 T2 T3) as Kb. rewrite app_nil_r in Kb.
                set (rb' := rb <| r_locals ::= _ |>) in Hkc.
                assert (Kb' : built lo r2 kids (flat_map (mark_bindings lo (place (S lo) kids)) marks ++ [(p, bd)]) (qs ++ [q]) rb')
                  by (eapply (built_same _ _ _ _ _ _ rb); done).
                pose proof (IH _ _ _ _ (bu_beyond _ _ _ _ _ _ _ Kb') Hkc) as (rn & ps & Hm & Hp).
                destruct (built_kid _ _ _ _ _ _ _ _ _ _ _ Kb' Hp) as [Kc Hpl].
                exists (kids ++ [rn]), marks, ((qs ++ [q]) ++ ps). cbn [fst snd]. split; [rewrite K1; exact (eq_sym Hpl)|].
                split; [rewrite app_length; cbn; lia|]. split; [done|].
                split; [apply Forall_app; split; [done|by constructor]|].
                rewrite Hpl, mark_bindings_app; [exact Kc|]. rewrite place_length. destruct K3 as [K3 _].
                eapply Forall_impl; [|exact K3]. intros [|i0 v p0 q0|s k p0 q0]; cbn; try done; lia. }
            specialize (Hgen count 0). cbn [Nat.add] in Hgen. eapply Hgen; [|exact H7].
            destruct H6 as (kids & marks & qs & K1 & K2 & K3 & K4). cbn [fst snd] in *.
            exists kids, marks, (qs ++ []). cbn [fst snd]. split; [done|]. split; [rewrite K1, place_length; lia|].
            split; [rewrite K1, place_length; done|]. split; [done|].
            set (r6' := r6 <| r_bindings ::= push_binding p bd |>).
            assert (built lo r2 kids (flat_map (mark_bindings lo (place (S lo) kids)) marks ++ [(p, bd)]) (qs ++ []) r6').
            { eapply built_quiet; [exact K4|done..|apply push_adv]. }
            by eapply (built_same _ _ _ _ _ _ r6'). }
          destruct HK as (kids & marks & qs & K1 & K2 & K3 & K4 & K5). cbn [fst snd] in *.
          exists kids, (marks ++ [MLoop (List.length ch4) count p (b_pipe b)]), qs. cbn [fst snd].
          destruct K3 as [K3 K3'].
          split; [done|]. split.
          { split.
            - apply Forall_app; split; [|constructor; [cbn; lia|done]].
              eapply Forall_impl; [|exact K3]. intros [|i0 v p0 q0|s k p0 q0]; cbn; try done; lia.
            - eapply (ordered_snoc (List.length ch4)); [done|lia|done|lia|done]. }
          split; [done|].
          rewrite flat_map_app. exact K5.
        + apply bindR_Ok in H8 as ([r7 k] & Hk & [= <- <-]).
          pose proof (IH _ _ _ _ (any_inv_next _ _ _ _ H5) Hk) as Hp. by eapply any_inv_kid. }
    destruct Hinv as (kids & marks & qs & K1 & K2 & K4). subst children.
    destruct (close_element _ lo r r2 r3 (h_tag h) binds kids marks e2 _ Hb eq_refl He HT2 HS HA' K4) as (t3 & t4 & E3 & E4 & Hp).
    change (NodeId) with nat in *.
    rewrite E3 in H. cbn [bindR] in H. rewrite E4 in H. cbn [bindR] in H. injection H as <- <-.
    eexists _, _. split; [|exact Hp]. done.
  Qed.

  Lemma render_any fuel body r root b :
    render translate read templates fuel body renderer_new = Ok (r, root, b) ->
    exists rn ps, marks_ok rn /\ root = 0 /\ b = 1 /\ rendered read (r_tree r) rn /\
         r_static_id r = add_ids ∅ (ids_of 1 rn) /\ obj_sorted (r_bindings r) = true /\
         flat (r_bindings r) ≡ₚ bindings_of 1 rn /\ r_schema r = foldl define_value schema_new ps.
  Proof.
    unfold render. cbn [new_leaf renderer_new r_tree tree_new t_next t_nodes].
    unfold set_ctx, get_node. cbn [t_nodes]. rewrite lookup_insert. cbn [unwrap bindR].
    match goal with |- context [render_node _ _ _ _ _ ?r] => set (r0 := r) end.
    assert (Hb : beyond (r_tree r0)).
    { intros m Hm. cbn in *. rewrite !lookup_insert_ne by lia. apply lookup_empty. }
    intros H. apply bindR_Ok in H as ([r1 b1] & H1 & H).
    pose proof (render_node_any _ _ _ _ _ Hb H1) as (rn & qs & Hm & -> & P2 & P3 & P4 & P5 & P7 & P8 & P9).
    change (t_next (r_tree r0)) with 1 in *.
    pose proof (stands_root _ _ _ _ _ P5) as Hroot. revert H.
    unfold add_child, set_parent, get_node. rewrite Hroot. cbn [unwrap bindR].
    unfold children, get_node. unfold put_node at 1. cbn [t_nodes set]. rewrite lookup_insert_ne by done. rewrite P4 by lia.
    change (t_nodes (r_tree r0) !! 0) with (Some (mkNode None [] default_layout (Some (create_element 0)) layout_zero)).
    cbn [unwrap bindR]. unfold put_children, get_node. unfold put_node at 1. cbn [t_nodes set]. rewrite lookup_insert_ne by done. rewrite P4 by lia.
    change (t_nodes (r_tree r0) !! 0) with (Some (mkNode None [] default_layout (Some (create_element 0)) layout_zero)).
    cbn [unwrap bindR n_children app]. intros [= <- <- <-].
    destruct P9 as (ps & _ & P9). exists rn, ps. split; [done|]. split; [done|]. split; [done|].
    cbn [r_tree set r_locals r_static_id r_bindings r_schema]. split; [|split; [|split; [|split]]].
    - split.
      + unfold put_node. cbn. by rewrite lookup_insert.
      + unfold put_node. cbn. exact P2.
      + intros m Hm'. unfold put_node in *. cbn in *. pose proof (rsize_pos rn).
        rewrite !lookup_insert_ne by lia. by apply P3.
      + eapply stands_parent; [| |exact P5].
        * unfold put_node. cbn. rewrite lookup_insert_ne by done. rewrite lookup_insert, Hroot. done.
        * intros m Hm'. unfold put_node. cbn. rewrite !lookup_insert_ne by lia. done.
    - exact P7.
    - by destruct (P8 eq_refl).
    - by destruct (P8 eq_refl).
    - exact P9.
  Qed.
End any.
