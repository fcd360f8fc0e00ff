(** * Facts about JSON values: induction, equality, sorted objects. *)
From Coq Require Import ZArith Lia.
From Flocq Require Import IEEE754.BinarySingleNaN.
From stdpp Require Import gmap.
From Verif Require Import Str F32 Res Json.

(** Induction with hypotheses for the elements of arrays and objects. *)
Definition json_ind' (P : json -> Prop)
  (Hnull : P JNull) (Hbool : forall b, P (JBool b)) (Hnum : forall n, P (JNum n))
  (Hstr : forall s, P (JStr s))
  (Harr : forall l, Forall P l -> P (JArr l))
  (Hobj : forall m, Forall (fun e : string * json => P (snd e)) m -> P (JObj m)) : forall v, P v :=
  fix F (v : json) : P v :=
    match v return P v with
    | JNull => Hnull
    | JBool b => Hbool b
    | JNum n => Hnum n
    | JStr s => Hstr s
    | JArr l => Harr l ((fix G (l : list json) : Forall P l :=
                           match l with
                           | [] => List.Forall_nil _
                           | a :: l' => List.Forall_cons _ a l' (F a) (G l')
                           end) l)
    | JObj m => Hobj m ((fix G (m : list (string * json)) : Forall (fun e => P (snd e)) m :=
                           match m with
                           | [] => List.Forall_nil _
                           | e :: m' => List.Forall_cons _ e m' (F (snd e)) (G m')
                           end) m)
    end.

(** ** The order of keys *)
Lemma str_compare_refl a : str_compare a a = Eq.
Proof. induction a as [|x a IH]; simpl; [done|]. by rewrite N.compare_refl. Qed.

Lemma str_compare_eq a b : str_compare a b = Eq -> a = b.
Proof.
  revert b; induction a as [|x a IH]; intros [|y b]; simpl; try done.
  destruct (N.compare_spec (N_of_ascii x) (N_of_ascii y)) as [H|H|H]; try done.
  intros Hc. f_equal; [|by apply IH].
  rewrite <- (ascii_N_embedding x), <- (ascii_N_embedding y). by rewrite H.
Qed.

Lemma str_compare_antisym a b : str_compare b a = CompOpp (str_compare a b).
Proof.
  revert b; induction a as [|x a IH]; intros [|y b]; simpl; try done.
  rewrite (N.compare_antisym (N_of_ascii x) (N_of_ascii y)).
  destruct (N.compare (N_of_ascii x) (N_of_ascii y)); simpl; auto.
Qed.

Lemma str_lt_trans a b c : str_lt a b = true -> str_lt b c = true -> str_lt a c = true.
Proof.
  unfold str_lt. revert b c; induction a as [|x a IH]; intros [|y b] [|z c]; simpl; try done.
  destruct (N.compare_spec (N_of_ascii x) (N_of_ascii y)) as [H|H|H]; try done;
  destruct (N.compare_spec (N_of_ascii y) (N_of_ascii z)) as [H'|H'|H']; try done; intros Ha Hb.
  - rewrite H, H', N.compare_refl. exact (IH _ _ Ha Hb).
  - rewrite H. destruct (N.compare_spec (N_of_ascii y) (N_of_ascii z)); [lia|done|lia].
  - rewrite <- H'. destruct (N.compare_spec (N_of_ascii x) (N_of_ascii y)); [lia|done|lia].
  - destruct (N.compare_spec (N_of_ascii x) (N_of_ascii z)); [lia|done|lia].
Qed.

Lemma str_lt_neq a b : str_lt a b = true -> a <> b.
Proof. unfold str_lt. intros H ->. by rewrite str_compare_refl in H. Qed.

Section omap.
  Context {A : Type}.
  Implicit Types m : list (string * A).

  Lemma obj_sorted_cons k v m : obj_sorted ((k, v) :: m) = true ->
    obj_sorted m = true /\ Forall (fun e => str_lt k (fst e) = true) m.
  Proof.
    revert k v; induction m as [|[k' v'] m IH]; intros k v H; simpl in *; [by split|].
    apply andb_prop in H as [H1 H2].
    destruct (IH k' v' H2) as [_ Hf]. split; [done|].
    constructor; [done|]. eapply Forall_impl; [|exact Hf]. intros e He. by eapply str_lt_trans.
  Qed.

  Lemma obj_sorted_NoDup m : obj_sorted m = true -> NoDup (map fst m).
  Proof.
    induction m as [|[k v] m IH]; intros H; [constructor|].
    apply obj_sorted_cons in H as [H Hf]. simpl. constructor; [|auto].
    intros Hin. apply elem_of_list_fmap in Hin as (e & -> & He).
    rewrite List.Forall_forall in Hf. apply elem_of_list_In, Hf in He. by apply str_lt_neq in He.
  Qed.

  Lemma obj_get_In k v m : obj_get k m = Some v -> In (k, v) m.
  Proof.
    induction m as [|[k' v'] m IH]; simpl; [done|].
    destruct (String.eqb_spec k k') as [->|?]; [intros [= ->]; by left|auto].
  Qed.

  Lemma obj_get_NoDup k v m : NoDup (map fst m) -> In (k, v) m -> obj_get k m = Some v.
  Proof.
    induction m as [|[k' v'] m IH]; simpl; [done|]. intros Hn [[= -> ->]|Hin].
    - by rewrite String.eqb_refl.
    - inversion Hn as [|? ? Hni Hn']; subst.
      destruct (String.eqb_spec k k') as [->|?]; [|auto].
      exfalso. apply Hni. apply elem_of_list_In, in_map_iff. by exists (k', v).
  Qed.

  Lemma obj_get_None k m : obj_get k m = None <-> ~ In k (map fst m).
  Proof.
    induction m as [|[k' v'] m IH]; simpl; [tauto|].
    destruct (String.eqb_spec k k') as [->|?]; [split; [done|tauto]|].
    rewrite IH. intuition congruence.
  Qed.

  Lemma obj_get_insert k v m : obj_get k (obj_insert k v m) = Some v.
  Proof.
    induction m as [|[k' v'] m IH]; simpl; [by rewrite String.eqb_refl|].
    destruct (str_compare k k') eqn:E; simpl; rewrite ?String.eqb_refl; try done.
    destruct (String.eqb_spec k k') as [->|?]; [by rewrite str_compare_refl in E|done].
  Qed.

  Lemma obj_get_insert_ne k k' v m : k <> k' -> obj_get k (obj_insert k' v m) = obj_get k m.
  Proof.
    intros Hne. induction m as [|[l w] m IH]; simpl.
    - by rewrite (proj2 (String.eqb_neq k k')).
    - destruct (str_compare k' l) eqn:E; simpl.
      + apply str_compare_eq in E as ->. by rewrite (proj2 (String.eqb_neq k l)).
      + by rewrite (proj2 (String.eqb_neq k k')).
      + by rewrite IH.
  Qed.

  Lemma obj_insert_keys k v m : forall x, In x (map fst (obj_insert k v m)) <-> x = k \/ In x (map fst m).
  Proof.
    intros x. induction m as [|[l w] m IH]; simpl; [intuition|].
    destruct (str_compare k l) eqn:E; simpl; [apply str_compare_eq in E as ->; intuition|intuition|].
    rewrite IH. intuition.
  Qed.

  Lemma obj_sorted_cons_intro k v m : obj_sorted m = true -> Forall (fun e => str_lt k (fst e) = true) m ->
    obj_sorted ((k, v) :: m) = true.
  Proof.
    destruct m as [|[k' v'] m]; intros H Hf; [done|].
    inversion Hf; subst. simpl in *. by apply andb_true_intro.
  Qed.

  Lemma obj_insert_sorted k v m : obj_sorted m = true -> obj_sorted (obj_insert k v m) = true.
  Proof.
    induction m as [|[l w] m IH]; intros H; [done|]. simpl.
    pose proof (obj_sorted_cons _ _ _ H) as [Hs Hf].
    destruct (str_compare k l) eqn:E.
    - apply str_compare_eq in E as ->. by apply obj_sorted_cons_intro.
    - apply obj_sorted_cons_intro; [done|].
      constructor; [unfold str_lt; simpl; by rewrite E|].
      eapply Forall_impl; [|exact Hf]. intros e He. eapply str_lt_trans; [|exact He].
      unfold str_lt; by rewrite E.
    - apply obj_sorted_cons_intro; [by apply IH|].
      apply List.Forall_forall. intros e He.
      assert (He' : In (fst e) (map fst (obj_insert k v m))) by (apply in_map, He).
      apply obj_insert_keys in He' as [Hk|He'].
      + unfold str_lt. rewrite Hk. by rewrite (str_compare_antisym k l), E.
      + apply in_map_iff in He' as (e' & <- & He'). rewrite List.Forall_forall in Hf.
        by apply Hf.
  Qed.
End omap.

(** ** [PartialEq] of values is an equivalence on well-formed values *)
Lemma f64_eq_refl f : f64_finite f = true -> f64_eq f f = true.
Proof.
  unfold f64_eq, f64_finite, Beqb, SpecFloat.SFeqb. destruct f as [s|s| |s m e H]; simpl; try done.
  intros _. destruct s; simpl; rewrite Z.compare_refl, Pos.compare_cont_refl; done.
Qed.

Lemma num_eq_refl n : num_wf n = true -> num_eq n n = true.
Proof.
  destruct n as [n|z|f]; simpl; intros H; [apply N.eqb_refl|apply Z.eqb_refl|by apply f64_eq_refl].
Qed.

Lemma json_eq_refl v : json_wf v = true -> json_eq v v = true.
Proof.
  induction v as [| b | n | s | l IH | m IH] using json_ind'; intros H; simpl.
  - done.
  - by destruct b.
  - by apply num_eq_refl.
  - apply String.eqb_refl.
  - simpl in H. induction IH as [|a l Ha Hl IHl]; [done|].
    simpl in H. apply andb_prop in H as [H1 H2]. rewrite Ha by done. by apply IHl.
  - simpl in H. apply andb_prop in H as [_ H].
    induction IH as [|[k a] m Ha Hl IHl]; [done|].
    simpl in H. apply andb_prop in H as [H1 H2]. simpl in Ha.
    rewrite String.eqb_refl, Ha by done. by apply IHl.
Qed.

Lemma json_eq_arr a x b y : json_eq (JArr (a :: x)) (JArr (b :: y)) = json_eq a b && json_eq (JArr x) (JArr y).
Proof. done. Qed.
Lemma json_eq_obj k a x l b y :
  json_eq (JObj ((k, a) :: x)) (JObj ((l, b) :: y)) = String.eqb k l && json_eq a b && json_eq (JObj x) (JObj y).
Proof. done. Qed.
