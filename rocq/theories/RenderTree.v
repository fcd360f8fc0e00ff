(** * Rendering builds the tree the template means. *)
From Coq Require Import ZArith Lia.
From stdpp Require Import gmap.
From RecordUpdate Require Import RecordUpdate.
From Verif Require Import Str StrFacts F32 Res ResFacts Json JsonFacts PropKey Html Css Element Tree ViewModel Render SpecRender SpecTree RenderFacts.

Lemma rnode_ind' (P : rnode -> Prop) :
  (forall spans, P (RText spans)) -> (forall src, P (RImage src)) ->
  (forall tag binds kids marks, Forall P kids -> P (RElem tag binds kids marks)) -> forall r, P r.
Proof.
  intros Ht Hi He. fix IH 1. intros [spans|src|tag binds kids marks]; [auto..|]. apply He.
  induction kids; constructor; [apply IH|done].
Qed.

(** ** Sizes and places *)
Fixpoint rsizes (l : list rnode) : nat := match l with [] => 0 | k :: l => rsize k + rsizes l end.
Lemma rsize_elem tag binds kids marks : rsize (RElem tag binds kids marks) = S (rsizes kids).
Proof. reflexivity. Qed.
Lemma rsize_pos r : 1 <= rsize r.
Proof. destruct r; cbn; lia. Qed.
Lemma rsizes_app a b : rsizes (a ++ b) = rsizes a + rsizes b.
Proof. induction a as [|k a IH]; cbn; [done|]. lia. Qed.
Lemma place_app n a b : place n (a ++ b) = place n a ++ place (n + rsizes a) b.
Proof.
  revert n; induction a as [|k a IH]; intros n; cbn; [by rewrite Nat.add_0_r|]. rewrite IH. do 3 f_equal. lia.
Qed.
Lemma place_length n l : List.length (place n l) = List.length l.
Proof. revert n; induction l; intros; cbn; auto. Qed.
Lemma place_ge n l c : In c (place n l) -> n <= c < n + rsizes l.
Proof.
  revert n; induction l as [|k l IH]; intros n; cbn; [done|]. pose proof (rsize_pos k).
  intros [->|Hin]; [lia|]. apply IH in Hin. lia.
Qed.
Lemma place_NoDup n l : NoDup (place n l).
Proof.
  revert n; induction l as [|k l IH]; intros n; cbn; constructor; [|auto].
  rewrite elem_of_list_In. intros Hin. apply place_ge in Hin. pose proof (rsize_pos k). lia.
Qed.

Fixpoint kid_bindings (m : nat) (l : list rnode) : list (string * Binding) :=
  match l with [] => [] | k :: l => bindings_of m k ++ kid_bindings (m + rsize k) l end.
Lemma bindings_of_elem n tag binds kids marks : bindings_of n (RElem tag binds kids marks) =
  flat_map (bind_bindings n) binds ++ flat_map (mark_bindings n (place (S n) kids)) marks ++ kid_bindings (S n) kids.
Proof. reflexivity. Qed.
Lemma kid_bindings_app m a b : kid_bindings m (a ++ b) = kid_bindings m a ++ kid_bindings (m + rsizes a) b.
Proof.
  revert m; induction a as [|k a IH]; intros m; cbn; [by rewrite Nat.add_0_r|]. rewrite IH, <- app_assoc. do 3 f_equal. lia.
Qed.
Fixpoint kid_ids (m : nat) (l : list rnode) : list (string * nat) :=
  match l with [] => [] | k :: l => ids_of m k ++ kid_ids (m + rsize k) l end.
Lemma ids_of_elem n tag binds kids marks : ids_of n (RElem tag binds kids marks) = own_ids n binds ++ kid_ids (S n) kids.
Proof. reflexivity. Qed.
Lemma kid_ids_app m a b : kid_ids m (a ++ b) = kid_ids m a ++ kid_ids (m + rsizes a) b.
Proof.
  revert m; induction a as [|k a IH]; intros m; cbn; [by rewrite Nat.add_0_r|]. rewrite IH, <- app_assoc. do 3 f_equal. lia.
Qed.
Lemma add_ids_app M a b : add_ids M (a ++ b) = add_ids (add_ids M a) b.
Proof. unfold add_ids. by rewrite foldl_app. Qed.

(** ** What stands in the tree *)
Section stands.
  Context (read : string -> option (list Declaration)).
  Notation stands := (stands read). Notation stand_all := (stand_all read).
  Notation elem_of := (elem_of read).

  Lemma stands_eq t par n r : stands t par n r <->
    t_nodes t !! n = Some (mkNode par (place (S n) (kids_of r)) (style_for r) (Some (elem_of n r)) layout_zero) /\
    stand_all t (Some n) (S n) (kids_of r).
  Proof.
    destruct r as [|src|tag binds kids marks]; cbn [stands kids_of]; [done..|]. apply and_iff_compat_l.
    generalize (S n) as m. induction kids as [|k l IH]; intros m; [done|]. cbn [stand_all]. by rewrite <- IH.
  Qed.
  Lemma stand_all_app t par m a b : stand_all t par m (a ++ b) <-> stand_all t par m a /\ stand_all t par (m + rsizes a) b.
  Proof.
    revert m; induction a as [|k a IH]; intros m; cbn; [rewrite Nat.add_0_r; tauto|]. rewrite IH.
    replace (m + rsize k + rsizes a) with (m + (rsize k + rsizes a)) by lia. tauto.
  Qed.

  Lemma stands_frame t t' r : forall par n, (forall m, n <= m < n + rsize r -> t_nodes t' !! m = t_nodes t !! m) ->
    stands t par n r -> stands t' par n r.
  Proof.
    induction r as [spans|src|tag binds kids marks IH] using rnode_ind'; intros par n Hf Hs;
      rewrite stands_eq in *; destruct Hs as [Hn Hk].
    - cbn in Hf. rewrite Hf by lia. done.
    - cbn in Hf. rewrite Hf by lia. done.
    - rewrite rsize_elem in Hf. rewrite Hf by lia. split; [done|]. cbn [kids_of] in *.
      assert (Hf' : forall m, S n <= m < S n + rsizes kids -> t_nodes t' !! m = t_nodes t !! m) by (intros; apply Hf; lia).
      clear Hf Hn. revert Hk Hf'. generalize (S n) as m.
      induction IH as [|k l Hk IH IH']; intros m; [done|]. cbn [stand_all rsizes]. intros [H1 H2] Hf. split.
      + apply Hk; [|done]. intros. apply Hf. lia.
      + apply IH'; [done|]. intros. apply Hf. lia.
  Qed.
  Lemma stand_all_frame t t' par l : forall n, (forall m, n <= m < n + rsizes l -> t_nodes t' !! m = t_nodes t !! m) ->
    stand_all t par n l -> stand_all t' par n l.
  Proof.
    induction l as [|k l IH]; intros n Hf; [done|]. cbn [stand_all rsizes] in *. intros [H1 H2]. split.
    - eapply stands_frame; [|done]. intros. apply Hf. lia.
    - apply IH; [|done]. intros. apply Hf. lia.
  Qed.
  Lemma stands_parent t t' par par' n r :
    t_nodes t' !! n = (fun x => x <| n_parent := par' |>) <$> t_nodes t !! n ->
    (forall m, n < m < n + rsize r -> t_nodes t' !! m = t_nodes t !! m) ->
    stands t par n r -> stands t' par' n r.
  Proof.
    intros Hn Hf. rewrite !stands_eq. intros [H1 H2]. rewrite Hn, H1. split; [done|].
    eapply stand_all_frame; [|done]. intros m Hm. apply Hf.
    destruct r; cbn [kids_of rsizes] in Hm; rewrite ?rsize_elem; cbn [rsize]; lia.
  Qed.
  Lemma stands_root t par n r : stands t par n r ->
    t_nodes t !! n = Some (mkNode par (place (S n) (kids_of r)) (style_for r) (Some (elem_of n r)) layout_zero).
  Proof. rewrite stands_eq. by intros [? _]. Qed.

  (** *** [set_children] on fresh nodes *)
  Lemma set_parents_fresh p : forall cs t, NoDup cs -> ~ In p cs ->
    (forall c, In c cs -> exists y, t_nodes t !! c = Some y /\ n_parent y = None) ->
    exists t', foldR (fun t c =>
             do! prev <- parent t c;
             do! t <- match prev with
                      | Some q => remove_child q c t
                      | None => Ok t
                      end;
             set_parent c (Some p) t) t cs = Ok t' /\ t_next t' = t_next t /\
      (forall c, In c cs -> t_nodes t' !! c = (fun x => x <| n_parent := Some p |>) <$> t_nodes t !! c) /\
      (forall c, ~ In c cs -> t_nodes t' !! c = t_nodes t !! c).
  Proof.
    induction cs as [|c cs IH]; intros t Hn Hp Hc; [exists t; by repeat split|].
    cbn [foldR]. destruct (Hc c (or_introl eq_refl)) as (y & Hy & Hpar).
    unfold parent at 1, get_node. rewrite Hy. cbn [unwrap bindR]. rewrite Hpar. cbn [bindR].
    unfold set_parent at 1, get_node. rewrite Hy. cbn [unwrap bindR].
    inversion Hn as [|? ? Hni Hn']; subst. rewrite elem_of_list_In in Hni.
    set (t1 := put_node t c (y <| n_parent := Some p |>)).
    destruct (IH t1 Hn') as (t' & -> & Hnx & Hin & Hout).
    - intros H. apply Hp. by right.
    - intros d Hd. destruct (Hc d (or_intror Hd)) as (z & Hz & Hzp). exists z. split; [|done].
      unfold t1, put_node. cbn. rewrite lookup_insert_ne; [done|]. intros ->. done.
    - exists t'. split; [done|]. split; [done|]. split.
      + intros d [<-|Hd].
        * rewrite Hout by done. unfold t1, put_node. cbn. rewrite lookup_insert, Hy. done.
        * rewrite Hin by done. unfold t1, put_node. cbn. rewrite lookup_insert_ne; [done|]. intros ->. done.
      + intros d Hd. rewrite Hout by (intros H; apply Hd; by right). unfold t1, put_node. cbn.
        rewrite lookup_insert_ne; [done|]. intros ->. apply Hd. by left.
  Qed.

  Lemma set_children_fresh p cs t x : t_nodes t !! p = Some x -> n_children x = [] -> NoDup cs -> ~ In p cs ->
    (forall c, In c cs -> exists y, t_nodes t !! c = Some y /\ n_parent y = None) ->
    exists t', set_children p cs t = Ok t' /\ t_next t' = t_next t /\
      t_nodes t' !! p = Some (x <| n_children := cs |>) /\
      (forall c, In c cs -> t_nodes t' !! c = (fun x => x <| n_parent := Some p |>) <$> t_nodes t !! c) /\
      (forall c, ~ In c cs -> c <> p -> t_nodes t' !! c = t_nodes t !! c).
  Proof.
    intros Hx Hch Hn Hp Hc. unfold set_children, children at 1, get_node. rewrite Hx. cbn [unwrap bindR]. rewrite Hch. cbn [foldR bindR].
    destruct (set_parents_fresh p cs t Hn Hp Hc) as (t1 & -> & Hnx & Hin & Hout). cbn [bindR].
    unfold put_children, get_node. rewrite Hout, Hx by done. cbn [unwrap bindR].
    eexists. split; [done|]. split; [done|]. unfold put_node. cbn. split; [by rewrite lookup_insert|]. split.
    - intros c Hc'. rewrite lookup_insert_ne; [by apply Hin|]. intros <-. done.
    - intros c Hc' Hne. rewrite lookup_insert_ne by done. by apply Hout.
  Qed.

  (** ** The result of rendering one node *)

  Definition postq (r r' : Renderer) (n : NodeId) (rn : rnode) (qs : list string) : Prop :=
    n = t_next (r_tree r) /\ t_next (r_tree r') = n + rsize rn /\ beyond (r_tree r') /\
    (forall m, m < n -> t_nodes (r_tree r') !! m = t_nodes (r_tree r) !! m) /\
    stands (r_tree r') None n rn /\
    r_static_id r' = add_ids (r_static_id r) (ids_of n rn) /\
    adv r r' (bindings_of n rn) qs.
  Definition post (r r' : Renderer) (n : NodeId) (rn : rnode) : Prop :=
    postq r r' n rn (pointers rn) /\ r_locals r' = r_locals r.

  Lemma new_leaf_lookup s t : beyond t -> beyond (fst (new_leaf s t)).
  Proof. intros H m Hm. cbn in *. rewrite lookup_insert_ne by lia. apply H. lia. Qed.

  Context (translate : string -> string) (templates : gmap string Html).

  Lemma render_text_agree text r : beyond (r_tree r) ->
    agree (render_text translate text r)
      (spans ← mapM (resolve_span translate (r_locals r)) text; Some (RText spans))
      (fun '(r', n) rn => post r r' n rn).
  Proof.
    intros Hb. unfold render_text. cbn [new_leaf].
    set (n := t_next (r_tree r)). set (t1 := mkTree _ _). set (r1 := r <| r_tree := t1 |>).
    change (r_locals r) with (r_locals r1).
    eapply agree_bind; [apply render_spans_agree|]. intros [r2 l] rs (-> & (Q1 & Q2 & Q3) & Ha).
    assert (Hn : t_nodes (r_tree r2) !! n = Some (mkNode None [] default_layout None layout_zero)).
    { rewrite Q1. cbn. by rewrite lookup_insert. }
    unfold set_ctx, get_node. rewrite Hn. cbn [unwrap bindR]. apply agree_ret.
    unfold post, postq. cbn [r_tree set r_locals r_static_id r_bindings r_schema]. split; [split; [done|]|].
    split; [unfold put_node; cbn [t_next set]; rewrite Q1; cbn; lia|]. split; [|split; [|split; [|split]]].
    - intros m Hm. unfold put_node in *. cbn in *. rewrite Q1 in *. cbn in *. rewrite lookup_insert_ne by lia.
      rewrite lookup_insert_ne by lia. apply Hb. lia.
    - intros m Hm. unfold put_node. cbn. rewrite lookup_insert_ne, Q1 by lia. cbn. rewrite lookup_insert_ne by lia. done.
    - rewrite stands_eq. split; [|done]. unfold put_node. cbn. rewrite lookup_insert. done.
    - rewrite Q3. done.
    - eapply (adv_ext r1 r r2); [exact Ha|done..].
    - rewrite Q2. done.
  Qed.

  Lemma render_bg_image_post src r : beyond (r_tree r) ->
    exists r' n, render_bg_image src r = Ok (r', n) /\ post r r' n (RImage src).
  Proof.
    intros Hb. unfold render_bg_image. cbn [new_leaf]. set (n := t_next (r_tree r)).
    unfold set_ctx, get_node. cbn [t_nodes]. rewrite lookup_insert. cbn [unwrap bindR].
    eexists _, n. split; [done|]. unfold post, postq. cbn [r_tree set r_locals r_static_id r_bindings r_schema]. split; [split; [done|]|].
    split; [cbn; lia|]. split; [|split; [|split; [|split]]].
    - intros m Hm. unfold put_node in *. cbn in *. rewrite !lookup_insert_ne by lia. apply Hb. lia.
    - intros m Hm. unfold put_node. cbn. by rewrite !lookup_insert_ne by lia.
    - rewrite stands_eq. split; [|done]. unfold put_node. cbn. rewrite lookup_insert. done.
    - done.
    - eapply (adv_ext r _ r); [apply adv_refl|done..].
    - done.
  Qed.
End stands.
