(** * Data binding: equations of [bind_value] and its basic laws. *)
From Coq Require Import ZArith Lia.
From stdpp Require Import gmap.
From RecordUpdate Require Import RecordUpdate.
From Verif Require Import Str F32 Res ResFacts Json JsonFacts PropKey Html Css Element ViewModel.

Section bind.
  Context (fmt : f64 -> string) (bs : Bindings) (tr : Transformers) (df : Defaults).
  Notation react := (react fmt bs tr).
  Notation bind_null := (bind_null fmt bs tr).
  Notation bind_value := (bind_value fmt bs tr df).
  Notation bind_leaf := (bind_leaf fmt bs tr).

  (** the loop over the fields of an object; [src] gives the value of a key,
      [JNull] when it is undefined *)
  Fixpoint bind_fields (src : string -> json) (path apath : string) (m : list (string * json))
    : res (list (string * json) * bool * list Reaction) :=
    match m with
    | [] => Ok ([], false, [])
    | (k, d) :: m' =>
        do! (d', ch, rs) <- bind_value d (src k) (path +:+ "/" +:+ k) (apath +:+ "/" +:+ k);
        do! (m'', ch', rs') <- bind_fields src path apath m';
        Ok ((k, d') :: m'', ch || ch', rs ++ rs')
    end.

  (** the loop over the elements of an array *)
  Fixpoint bind_elems (path apath : string) (cur next : list json) (i : nat)
    : res (list json * bool * list Reaction) :=
    match cur with
    | [] => Ok ([], false, [])
    | d :: cur' =>
        match next with
        | [] => Panic
        | s :: next' =>
            do! (d', ch, rs) <- bind_value d s (path +:+ "/" +:+ fmt_nat i) apath;
            do! (l, ch', rs') <- bind_elems path apath cur' next' (S i);
            Ok (d' :: l, ch || ch', rs ++ rs')
        end
    end.

  Definition field_of (sm : list (string * json)) (k : string) : json :=
    match obj_get k sm with Some s => s | None => JNull end.

  Definition bind_object (src : string -> json) (own : json) (path apath : string) (m : list (string * json)) : res bind_out :=
    do! (o, ch, rs) <- bind_fields src path apath m;
    if ch : bool
    then do! rs' <- react path own; Ok (JObj o, true, rs ++ rs')
    else Ok (JObj o, false, rs).

  Definition resize_array (path apath : string) (cur next : list json) : res (list json * bool * list Reaction) :=
    if Nat.eqb (List.length cur) (List.length next) then Ok (cur, false, [])
    else match df !! apath with
         | Some d => do! rs <- react path (JArr next); Ok (resize (List.length next) d cur, true, rs)
         | None => Ok (cur, false, [])
         end.

  Definition bind_array (path apath : string) (cur next : list json) : res bind_out :=
    do! (cur, ch0, rs0) <- resize_array path apath cur next;
    do! (l, ch, rs) <- bind_elems path apath cur next 0;
    Ok (JArr l, ch0 || ch, rs0 ++ rs).

  (** The single match of src/view_model.rs:96-205. *)
  Lemma bind_value_eq dst src path apath :
    bind_value dst src path apath =
    match dst, src with
    | JArr cur, JArr next => bind_array path apath cur next
    | JArr cur, JNull =>
        match cur with
        | [] => Ok (dst, false, [])
        | _ => do! rs <- react path (JArr []); Ok (JArr [], true, rs)
        end
    | JArr _, _ => Ok (dst, false, [])
    | JObj m, JObj sm => bind_object (field_of sm) (JObj []) path apath m
    | JObj m, JNull => bind_object (fun _ => JNull) JNull path apath m
    | _, _ => bind_leaf dst src path
    end.
  Proof.
    destruct src as [|b|n|s|next|sm]; destruct dst as [|b'|n'|s'|cur|m]; try reflexivity.
    - simpl. by destruct cur.
    - (* object, null *)
      unfold bind_object. cbn [ViewModel.bind_value ViewModel.bind_null].
      match goal with |- bindR ?a _ = bindR ?b _ => assert (Hab : a = b) end.
      { induction m as [|[k d] m IH]; [done|]. cbn [bind_fields].
        destruct (ViewModel.bind_null fmt bs tr d (path +:+ "/" +:+ k) (apath +:+ "/" +:+ k)) as [[[d' ch] rs]| | |] eqn:E;
          cbn [ViewModel.bind_value bindR]; rewrite E; cbn [bindR]; try done.
        by rewrite <- IH. }
      by rewrite Hab.
    - (* array, array *)
      unfold bind_array, resize_array. cbn [ViewModel.bind_value].
      match goal with |- bindR ?a _ = _ => destruct a as [[[c ch] rs]| | |]; cbn [bindR]; try done end.
      match goal with |- bindR ?a _ = bindR ?b _ => assert (Hab : a = b) end.
      { clear. generalize 0%nat as i. revert c. induction next as [|s next IH]; intros [|d c] i; try done.
        cbn [bind_elems]. rewrite <- IH. reflexivity. }
      by rewrite Hab.
    - (* object, object *)
      unfold bind_object. cbn [ViewModel.bind_value].
      match goal with |- bindR ?a _ = bindR ?b _ => assert (Hab : a = b) end.
      { induction m as [|[k d] m IH]; [done|]. cbn [bind_fields]. rewrite IH.
        match goal with |- bindR ?a _ = bindR ?b _ => assert (Hab : a = b); [|by rewrite Hab] end.
        clear IH. induction sm as [|[k' s] sm IHs]; [done|].
        unfold field_of. cbn [obj_get]. destruct (String.eqb k k'); [done|]. exact IHs. }
      by rewrite Hab.
  Qed.

  (** ** Binding a value to itself, and binding twice *)
  Lemma bind_self v : json_wf v = true -> forall path apath, bind_value v v path apath = Ok (v, false, []).
  Proof.
    induction v as [| b | n | s | l IH | m IH] using json_ind'; intros Hw path apath;
      rewrite bind_value_eq; try (unfold ViewModel.bind_leaf; by rewrite json_eq_refl).
    - unfold bind_array, resize_array. rewrite Nat.eqb_refl. cbn [bindR].
      assert (He : forall i, bind_elems path apath l l i = Ok (l, false, [])).
      { simpl in Hw. induction IH as [|a l Ha Hl IHl]; intros i; [done|].
        simpl in Hw. apply andb_prop in Hw as [H1 H2]. cbn [bind_elems].
        rewrite Ha by done. cbn [bindR]. rewrite IHl by done. done. }
      by rewrite He.
    - unfold bind_object.
      assert (He : bind_fields (field_of m) path apath m = Ok (m, false, [])).
      { simpl in Hw. apply andb_prop in Hw as [Hs Hw]. apply obj_sorted_NoDup in Hs.
        assert (Hin : forall k d, In (k, d) m -> field_of m k = d).
        { intros k d Hin. unfold field_of. by rewrite (obj_get_NoDup _ _ _ Hs Hin). }
        clear Hs. revert Hin. generalize (field_of m). intros src Hsrc.
        induction IH as [|[k d] m Ha Hl IHl]; [done|].
        simpl in Hw. apply andb_prop in Hw as [H1 H2]. cbn [bind_fields].
        rewrite (Hsrc k d) by (by left). simpl in Ha. rewrite Ha by done. cbn [bindR].
        rewrite IHl; [done|done|]. intros k' d' Hin. apply Hsrc. by right. }
      by rewrite He.
  Qed.

  Definition again (dst src : json) : Prop := forall path apath d ch rs,
    bind_value dst src path apath = Ok (d, ch, rs) -> bind_value d src path apath = Ok (d, false, []).

  Lemma bind_fields_again src path apath :
    forall m, Forall (fun e => again (snd e) (src (fst e))) m -> forall m' ch rs,
    bind_fields src path apath m = Ok (m', ch, rs) -> bind_fields src path apath m' = Ok (m', false, []).
  Proof.
    induction 1 as [|[k d] m Ha Hm IH]; intros m' ch rs H.
    - simpl in H. by injection H as <- <- <-.
    - cbn [bind_fields] in H. inv_ok. cbn [bind_fields].
      apply Ha in Hr. cbn [fst] in Hr. rewrite Hr. cbn [bindR]. by rewrite (IH _ _ _ Hr0).
  Qed.

  Lemma bind_object_again src own path apath m d ch rs :
    Forall (fun e => again (snd e) (src (fst e))) m ->
    bind_object src own path apath m = Ok (d, ch, rs) ->
    exists m', d = JObj m' /\ bind_object src own path apath m' = Ok (JObj m', false, []).
  Proof.
    intros Ha H. unfold bind_object in H. inv_ok.
    exists l0. assert (Hd : d = JObj l0) by (destruct b; inv_ok; done). split; [done|].
    unfold bind_object. by rewrite (bind_fields_again _ _ _ _ Ha _ _ _ Hr).
  Qed.

  Lemma bind_null_again dst : again dst JNull.
  Proof.
    induction dst as [| b | n | s | l IH | m IH] using json_ind'; intros path apath d ch rs H;
      rewrite bind_value_eq in H; try (cbn in H; inv_ok; rewrite bind_value_eq; done).
    - destruct l; inv_ok; by rewrite bind_value_eq.
    - apply bind_object_again in H as (m' & -> & H); [by rewrite bind_value_eq|exact IH].
  Qed.

  Lemma bind_leaf_again dst src path apath d ch rs :
    json_wf src = true ->
    bind_value dst src path apath = Ok (d, ch, rs) ->
    bind_leaf dst src path = Ok (d, ch, rs) ->
    bind_value d src path apath = Ok (d, false, []).
  Proof.
    intros Hw Hv H. unfold ViewModel.bind_leaf in H.
    destruct (json_eq dst src); inv_ok; [done|by apply bind_self].
  Qed.

  Theorem bind_again src : json_wf src = true -> forall dst, again dst src.
  Proof.
    induction src as [| b | n | s | next IH | sm IH] using json_ind'; intros Hw dst;
      [apply bind_null_again| | | | |]; intros path apath d ch rs H; pose proof H as H0;
      rewrite bind_value_eq in H.
    1-3: destruct dst as [| | | | cur | m]; try (by eapply bind_leaf_again); inv_ok; by rewrite bind_value_eq.
    - destruct dst as [| | | | cur | m]; try (by eapply bind_leaf_again).
      unfold bind_array in H. inv_ok. rewrite bind_value_eq. unfold bind_array.
      assert (He : forall next i cur l ch rs, json_wf (JArr next) = true ->
                 Forall (fun s => json_wf s = true -> forall dst, again dst s) next ->
                 bind_elems path apath cur next i = Ok (l, ch, rs) ->
                 bind_elems path apath l next i = Ok (l, false, []) /\ List.length l = List.length cur).
      { clear. induction next as [|s next IH]; intros i cur l ch rs Hw Hf H.
        - destruct cur; simpl in H; [by injection H as <- <- <-|done].
        - destruct cur as [|d cur]; cbn [bind_elems] in H; [by injection H as <- <- <-|].
          inv_ok. inversion Hf as [|? ? Hs Hf']; subst.
          simpl in Hw. apply andb_prop in Hw as [Hw1 Hw2].
          apply (Hs Hw1) in Hr. destruct (IH _ _ _ _ _ Hw2 Hf' Hr0) as [H1 H2].
          cbn [bind_elems]. rewrite Hr. cbn [bindR]. rewrite H1. simpl. split; [done|by f_equal]. }
      destruct (He _ _ _ _ _ _ Hw IH Hr0) as [H1 H2].
      assert (Hz : resize_array path apath l2 next = Ok (l2, false, [])).
      { unfold resize_array in Hr |- *. destruct (Nat.eqb_spec (List.length cur) (List.length next)) as [He1|He1].
        - inv_ok. rewrite H2, He1. by rewrite Nat.eqb_refl.
        - destruct (df !! apath) eqn:Ed; inv_ok.
          + rewrite H2, resize_length. by rewrite Nat.eqb_refl.
          + rewrite H2. destruct (Nat.eqb_spec (List.length l0) (List.length next)); done. }
      rewrite Hz. cbn [bindR]. by rewrite H1.
    - destruct dst as [| | | | cur | m]; try (by eapply bind_leaf_again).
      + inv_ok. by rewrite bind_value_eq.
      + apply bind_object_again in H as (m' & -> & H); [by rewrite bind_value_eq|].
        apply List.Forall_forall. intros [k dv] _. simpl. unfold field_of.
        destruct (obj_get k sm) as [sv|] eqn:Eg; [|apply bind_null_again].
        rewrite List.Forall_forall in IH. apply obj_get_In in Eg.
        apply (IH _ Eg). simpl in Hw. apply andb_prop in Hw as [_ Hw].
        rewrite List.forallb_forall in Hw. exact (Hw _ Eg).
  Qed.
End bind.
