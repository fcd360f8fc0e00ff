(** * Consequences of the rendering refinement used by C14-C16, C46. *)
From Coq Require Import ZArith Lia.
From stdpp Require Import gmap.
From RecordUpdate Require Import RecordUpdate.
From Verif Require Import Str StrFacts F32 Res ResFacts Json JsonFacts PropKey Html Css Element Tree ViewModel Render
  SpecRender SpecTree RenderFacts RenderTree RenderNode RenderProps RenderAny.

Lemma in_flat p b bs : In (p, b) (flat bs) <-> exists l, In (p, l) bs /\ In b l.
Proof.
  unfold flat. rewrite in_flat_map. split.
  - intros ([k l] & H1 & H2). apply in_map_iff in H2 as (b' & [= -> ->] & H2). eauto.
  - intros (l & H1 & H2). exists (p, l). split; [done|]. apply in_map_iff. eauto.
Qed.

Section more.
  Context (read : string -> option (list Declaration)) (translate : string -> string) (templates : gmap string Html).

  (** C15 *)
  Lemma render_well_formed fuel body r root b :
    render translate read templates fuel body renderer_new = Ok (r, root, b) ->
    tree_ok (r_tree r) root /\ beyond (r_tree r) /\
    (forall p bd, In (p, bd) (flat (r_bindings r)) -> binding_ok (r_tree r) bd).
  Proof.
    intros H. apply render_any in H as (rn & ps & Hm & -> & -> & Hr & _ & _ & Hf & _). split; [by apply rendered_tree_ok with (read := read) (rn := rn)|].
    split; [by destruct Hr|]. intros p bd Hin. apply elem_of_list_In in Hin. rewrite Hf in Hin. apply elem_of_list_In in Hin.
    eapply stands_bindings_ok; [apply Hr|exact Hm|exact Hin].
  Qed.

  (** C14 *)
  Lemma render_lexical fuel body : clean templates body ->
    match meaning translate templates fuel ∅ body with
    | Some rn => exists r, render translate read templates fuel body renderer_new = Ok (r, 0, 1) /\
        stands read (r_tree r) (Some 0) 1 rn /\ flat (r_bindings r) ≡ₚ bindings_of 1 rn
    | None => is_ok (render translate read templates fuel body renderer_new) = false
    end.
  Proof.
    intros Hc. pose proof (render_agree read translate templates fuel body Hc) as H.
    destruct (meaning _ _ _ _ _) as [rn|]; destruct (render _ _ _ _ _ _) as [[[r root] b]| | |]; try done.
    destruct H as (-> & -> & Hr & _ & _ & _ & Hf & _). exists r. split; [done|]. split; [apply Hr|done].
  Qed.
  Lemma render_node_locals fuel h r r' n : beyond (r_tree r) -> clean templates h ->
    render_node translate read templates fuel h r = Ok (r', n) -> r_locals r' = r_locals r.
  Proof.
    intros Hb Hc H. pose proof (render_node_agree read translate templates fuel h r Hb Hc) as Ha. rewrite H in Ha.
    destruct (meaning _ _ _ _ _); [|done]. by destruct Ha as [_ Ha].
  Qed.

  (** C16 *)
  Lemma meaning_repeat fuel E h before c0 after c name count b rn :
    h_text h = None -> String.eqb (h_tag h) "img" = false -> existsb (String.eqb (h_tag h)) childless = false ->
    h_children h = before ++ c0 :: after -> linked templates c0 = Some c ->
    as_visibility c = None -> as_repeat c = Some (name, count, b) ->
    meaning translate templates (S fuel) E h = Some rn ->
    exists binds kids1 copies kids2 marks E' names p,
      rn = RElem (h_tag h) binds (kids1 ++ copies ++ kids2) marks /\
      resolve_aliases E (aliases (h_bindings c)) = Some (E', names) /\ resolve E' b = Some p /\
      List.length copies = count /\
      (forall i, i < count -> copies !! i = meaning translate templates fuel (<[name := p +:+ "/" +:+ fmt_nat i]> E') c) /\
      In (MLoop (List.length kids1) count p (b_pipe b)) marks.
  Proof.
    intros Ht Himg Hcl Hch Hln Hv Hr H. cbn [meaning] in H. rewrite Ht, Himg, Hcl in H.
    apply bind_Some in H as (binds & _ & H). apply bind_Some in H as (groups & Hg & H).
    destruct (gather 0 groups) as [kids marks] eqn:Eg. injection H as <-.
    apply mapM_Some in Hg. rewrite Hch in Hg.
    apply Forall2_app_inv_l in Hg as (g1 & g2 & H1 & H2 & ->).
    apply Forall2_cons_inv_l in H2 as (g & g3 & Hc & H3 & ->).
    rewrite Hln in Hc. cbn [mbind option_bind] in Hc. apply bind_Some in Hc as ([E' names] & Ha & Hc).
    rewrite Hv, Hr in Hc. apply bind_Some in Hc as (p & Hp & Hc). apply bind_Some in Hc as (copies & Hk & [= <-]).
    rewrite gather_app in Eg. cbn [gather] in Eg.
    destruct (gather (0 + List.length (fst (gather 0 g1)) + List.length copies) g3) as [ks3 ms3]. cbn [fst snd] in Eg.
    injection Eg as <- <-. apply mapM_Some in Hk. pose proof (Forall2_length _ _ _ Hk) as Hlen. rewrite seq_length in Hlen.
    exists binds, (fst (gather 0 g1)), copies, ks3. eexists. exists E', names, p. split; [done|]. split; [done|]. split; [done|]. split; [done|]. split.
    - intros i Hi. assert (Hs : seq 0 count !! i = Some i) by (by apply lookup_seq_lt).
      destruct (Forall2_lookup_l _ _ _ _ _ Hk Hs) as (k & Hk1 & Hk2). by rewrite Hk1, Hk2.
    - apply in_app_iff. right. apply in_app_iff. left. rewrite map_app. apply in_app_iff. right. left. cbn. by rewrite Nat.add_0_r.
  Qed.

  Lemma mark_binding_in n r tag binds kids marks s c p q : r = RElem tag binds kids marks -> In (MLoop s c p q) marks ->
    In (p, mkBinding (BRepeat n s c) q) (bindings_of n r).
  Proof.
    intros -> Hin. rewrite bindings_of_elem. apply in_app_iff. right. apply in_app_iff. left.
    apply in_flat_map. eexists. split; [exact Hin|]. by left.
  Qed.

  Lemma render_repeat fuel h before c0 after c name count b r r' n :
    beyond (r_tree r) -> obj_sorted (r_bindings r) = true -> clean templates h ->
    h_text h = None -> String.eqb (h_tag h) "img" = false -> existsb (String.eqb (h_tag h)) childless = false ->
    h_children h = before ++ c0 :: after -> linked templates c0 = Some c ->
    as_visibility c = None -> as_repeat c = Some (name, count, b) ->
    render_node translate read templates (S fuel) h r = Ok (r', n) ->
    exists binds kids1 copies kids2 marks E names p,
      stands read (r_tree r') None n (RElem (h_tag h) binds (kids1 ++ copies ++ kids2) marks) /\
      resolve_aliases (r_locals r) (aliases (h_bindings c)) = Some (E, names) /\ resolve E b = Some p /\
      List.length copies = count /\
      (forall i, i < count -> copies !! i = meaning translate templates fuel (<[name := p +:+ "/" +:+ fmt_nat i]> E) c) /\
      In (p, mkBinding (BRepeat n (List.length kids1) count) (b_pipe b)) (flat (r_bindings r')) /\
      (forall i j c', place (S n) (kids1 ++ copies ++ kids2) !! (List.length kids1 + i) = Some c' ->
         copies !! i = Some j -> forall e, In e (bindings_of c' j) -> In e (flat (r_bindings r'))).
  Proof.
    intros Hb Hs Hc Ht Himg Hcl Hch Hln Hv Hr H.
    pose proof (render_node_agree read translate templates (S fuel) h r Hb Hc) as Ha. rewrite H in Ha.
    destruct (meaning _ _ (S fuel) _ _) as [rn|] eqn:Hm; [|done]. destruct Ha as [(-> & _ & _ & _ & P5 & _ & P8 & _) _].
    destruct (meaning_repeat _ _ _ _ _ _ _ _ _ _ _ Ht Himg Hcl Hch Hln Hv Hr Hm)
      as (binds & kids1 & copies & kids2 & marks & E & names & p & -> & H1 & H2 & H3 & H4 & H5).
    exists binds, kids1, copies, kids2, marks, E, names, p. split; [exact P5|]. do 4 (split; [done|]).
    destruct (P8 Hs) as [_ Hf].
    assert (Hin : forall e, In e (bindings_of (t_next (r_tree r)) (RElem (h_tag h) binds (kids1 ++ copies ++ kids2) marks)) -> In e (flat (r_bindings r'))).
    { intros e He. apply elem_of_list_In. rewrite Hf. apply elem_of_app. right. by apply elem_of_list_In. }
    split.
    - apply Hin. by eapply mark_binding_in.
    - intros i j c' Hpl Hj e He. apply Hin. rewrite bindings_of_elem. apply in_app_iff. right. apply in_app_iff. right.
      assert (Hk : (kids1 ++ copies ++ kids2) !! (List.length kids1 + i) = Some j).
      { rewrite lookup_app_r by lia. replace (List.length kids1 + i - List.length kids1) with i by lia. by apply lookup_app_l_Some. }
      clear - Hpl Hk He. revert Hpl Hk. generalize (List.length kids1 + i) as m, (S (t_next (r_tree r))) as a. generalize (kids1 ++ copies ++ kids2) as l.
      induction l as [|k l IH]; intros m a Hpl Hk; [done|]. destruct m as [|m]; cbn in Hpl, Hk.
      + injection Hpl as <-. injection Hk as <-. cbn. apply in_app_iff. by left.
      + cbn. apply in_app_iff. right. by eapply IH.
  Qed.

  (** C46: more fuel gives the same meaning *)
  Lemma mapM_mono {A B} (f g : A -> option B) l k : (forall a b, f a = Some b -> g a = Some b) -> mapM f l = Some k -> mapM g l = Some k.
  Proof.
    intros Hfg H. apply mapM_Some in H. apply mapM_Some. eapply Forall2_impl; [exact H|]. done.
  Qed.
  Lemma meaning_mono fuel : forall E h rn, meaning translate templates fuel E h = Some rn -> meaning translate templates (S fuel) E h = Some rn.
  Proof.
    induction fuel as [|fuel IH]; intros E h rn H; [done|]. cbn [meaning] in H.
    set (k := S fuel) in *. cbn [meaning]. destruct (h_text h); [done|].
    apply bind_Some in H as (binds & -> & H). cbn [mbind option_bind].
    destruct (String.eqb _ _); [done|]. destruct (existsb _ _); [done|].
    apply bind_Some in H as (groups & Hg & H).
    eapply mapM_mono in Hg; [rewrite Hg; cbn [mbind option_bind]; exact H|].
    clear - IH. intros c g Hc. apply bind_Some in Hc as (c' & -> & Hc). cbn [mbind option_bind].
    apply bind_Some in Hc as ([E' names] & -> & Hc). cbn [mbind option_bind].
    destruct (as_visibility c') as [[visible b]|].
    - apply bind_Some in Hc as (p & -> & Hc). cbn [mbind option_bind]. apply bind_Some in Hc as (k0 & Hk & <-). by rewrite (IH _ _ _ Hk).
    - destruct (as_repeat c') as [[[name count] b]|].
      + apply bind_Some in Hc as (p & -> & Hc). cbn [mbind option_bind]. apply bind_Some in Hc as (ks & Hk & <-).
        eapply mapM_mono in Hk; [rewrite Hk; done|]. intros. by apply IH.
      + apply bind_Some in Hc as (k0 & Hk & <-). by rewrite (IH _ _ _ Hk).
  Qed.
  Lemma meaning_mono_le fuel fuel' E h rn : fuel <= fuel' -> meaning translate templates fuel E h = Some rn -> meaning translate templates fuel' E h = Some rn.
  Proof. induction 1; [done|]. intros. apply meaning_mono. auto. Qed.

  Lemma render_mono fuel fuel' body r rn : clean templates body -> fuel <= fuel' ->
    meaning translate templates fuel ∅ body = Some rn ->
    render translate read templates fuel body renderer_new = Ok r -> is_ok (render translate read templates fuel' body renderer_new) = true.
  Proof.
    intros Hc Hle Hm _. pose proof (render_lexical fuel' body Hc) as H. rewrite (meaning_mono_le _ _ _ _ _ Hle Hm) in H.
    destruct H as (r' & -> & _). done.
  Qed.
End more.

(** ** Fuel: a rendering that ends is not changed by more fuel *)
Definition le_res {A} (m n : res A) : Prop := m <> Hang -> n = m.
Lemma le_res_refl {A} (m : res A) : le_res m m. Proof. done. Qed.
Lemma le_res_bind {A B} (m m' : res A) (f f' : A -> res B) : le_res m m' -> (forall a, le_res (f a) (f' a)) -> le_res (bindR m f) (bindR m' f').
Proof.
  intros Hm Hf H. assert (m <> Hang) as Hn by (intros ->; done). rewrite (Hm Hn). destruct m; cbn in *; try done. by apply Hf.
Qed.
Lemma le_res_foldR {A St} (f g : St -> A -> res St) l : (forall s a, le_res (f s a) (g s a)) -> forall s, le_res (foldR f s l) (foldR g s l).
Proof. intros Hfg. induction l as [|a l IH]; intros s; cbn [foldR]; [apply le_res_refl|]. apply le_res_bind; [apply Hfg|exact IH]. Qed.

Lemma render_node_fuel translate read templates fuel : forall h r,
  le_res (render_node translate read templates fuel h r) (render_node translate read templates (S fuel) h r).
Proof.
  induction fuel as [|fuel IH]; intros h r; [by intros H|].
  set (k := S fuel) in *. cbn [render_node]. unfold k at 1. cbn [render_node].
  destruct (h_text h); [apply le_res_refl|]. cbn [new_leaf].
  apply le_res_bind; [apply le_res_refl|]. intros [r1 e1].
  apply le_res_bind; [|intros [r2 ch]; apply le_res_refl].
  destruct (String.eqb _ _); [apply le_res_refl|]. destruct (is_void _); [apply le_res_refl|].
  apply le_res_foldR. intros [r2 ch] child. apply le_res_bind; [apply le_res_refl|]. intros c.
  apply le_res_bind; [apply le_res_refl|]. intros [r3 over].
  apply le_res_bind; [|intros [r4 ch4]; apply le_res_refl].
  destruct (as_visibility c) as [[visible b]|].
  - apply le_res_bind; [apply le_res_refl|]. intros [r4 p]. apply le_res_bind; [apply IH|]. intros [r5 n]. apply le_res_refl.
  - destruct (as_repeat c) as [[[name count] b]|].
    + apply le_res_bind; [apply le_res_refl|]. intros [r4 p]. apply le_res_bind; [|intros [r5 n]; apply le_res_refl].
      apply le_res_foldR. intros [r5 ch5] i. apply le_res_bind; [apply le_res_refl|]. intros [r6 q].
      apply le_res_bind; [apply IH|]. intros [r7 m]. apply le_res_refl.
    + apply le_res_bind; [apply IH|]. intros [r4 n]. apply le_res_refl.
Qed.
Lemma render_fuel translate read templates fuel fuel' body r : fuel <= fuel' ->
  render translate read templates fuel body r <> Hang ->
  render translate read templates fuel' body r = render translate read templates fuel body r.
Proof.
  intros Hle Hh. induction Hle as [|fuel' Hle IH]; [done|]. rewrite <- IH.
  assert (Hl : le_res (render translate read templates fuel' body r) (render translate read templates (S fuel') body r)).
  { unfold render. destruct (new_leaf _ _) as [t root]. apply le_res_bind; [apply le_res_refl|]. intros t1.
    apply le_res_bind; [apply render_node_fuel|]. intros [r1 b]. apply le_res_refl. }
  apply Hl. by rewrite IH.
Qed.
