(** * Facts about outcomes and the list helpers of Res.v. *)
From Coq Require Import Lia.
From stdpp Require Import list.
From Verif Require Import Str Res.

Lemma bindR_Ok {A B} (m : res A) (f : A -> res B) b :
  bindR m f = Ok b <-> exists a, m = Ok a /\ f a = Ok b.
Proof. destruct m; simpl; split; intros H; try done; [eauto|by destruct H as (? & [= <-] & ?)|..]; by destruct H as (? & ? & ?). Qed.

Lemma ok_or_Ok {A} (o : option A) e a : ok_or o e = Ok a <-> o = Some a.
Proof. destruct o; simpl; split; congruence. Qed.
Lemma unwrap_Ok {A} (o : option A) a : unwrap o = Ok a <-> o = Some a.
Proof. destruct o; simpl; split; congruence. Qed.

(** destruct every [bindR _ _ = Ok _] hypothesis *)
Ltac inv_ok :=
  repeat match goal with
  | H : bindR ?m ?f = Ok _ |- _ =>
      let a := fresh "r" in let Ha := fresh "Hr" in
      apply bindR_Ok in H as (a & Ha & H)
  | H : (let '(_, _) := ?p in _) = Ok _ |- _ => destruct p eqn:?
  | p : (_ * _)%type |- _ => destruct p
  | H : ok_or _ _ = Ok _ |- _ => apply ok_or_Ok in H
  | H : unwrap _ = Ok _ |- _ => apply unwrap_Ok in H
  | H : Ok _ = Ok _ |- _ => injection H as H; try subst
  | H : Err _ = Ok _ |- _ => discriminate H
  | H : Panic = Ok _ |- _ => discriminate H
  | H : Hang = Ok _ |- _ => discriminate H
  | H : (_, _) = (_, _) |- _ => injection H as H; try subst
  end.

Lemma foldR_app {A S} (f : S -> A -> res S) s l1 l2 :
  foldR f s (l1 ++ l2) = (do! s <- foldR f s l1; foldR f s l2).
Proof. revert s; induction l1 as [|a l1 IH]; intros s; simpl; [done|]. destruct (f s a); simpl; auto. Qed.

Lemma mapR_app {A B} (f : A -> res B) l1 l2 :
  mapR f (l1 ++ l2) = (do! a <- mapR f l1; do! b <- mapR f l2; Ok (a ++ b)).
Proof.
  induction l1 as [|a l1 IH]; simpl; [by destruct (mapR f l2)|].
  destruct (f a); simpl; try done. rewrite IH.
  destruct (mapR f l1); simpl; try done. by destruct (mapR f l2).
Qed.

Lemma mapR_length {A B} (f : A -> res B) l l' : mapR f l = Ok l' -> List.length l' = List.length l.
Proof.
  revert l'; induction l as [|a l IH]; intros l' H; simpl in H; [by injection H as <-|].
  inv_ok. simpl. f_equal. auto.
Qed.

Lemma mapR_Forall2 {A B} (f : A -> res B) l l' :
  mapR f l = Ok l' <-> Forall2 (fun a b => f a = Ok b) l l'.
Proof.
  revert l'; induction l as [|a l IH]; intros l'; simpl; split; intros H.
  - injection H as <-. constructor.
  - by inversion H; subst.
  - inv_ok. constructor; [done|]. by apply IH.
  - inversion H as [|? b ? l2 Hb Hl]; subst. rewrite Hb. simpl. apply IH in Hl. by rewrite Hl.
Qed.

Lemma position_Some x l i : position x l = Some i -> l !! i = Some x /\ forall j, (j < i)%nat -> l !! j <> Some x.
Proof.
  revert i; induction l as [|y l IH]; intros i H; simpl in H; [done|].
  destruct (Nat.eqb_spec y x) as [->|Hne].
  - injection H as <-. split; [done|]. intros; lia.
  - destruct (position x l) as [j|]; [|done]. simpl in H. injection H as <-.
    destruct (IH j eq_refl) as [H1 H2]. split; [done|].
    intros [|k] Hk; simpl; [congruence|]. apply H2. lia.
Qed.

Lemma position_None x l : position x l = None <-> x ∉ l.
Proof.
  induction l as [|y l IH]; simpl; [split; [intros _; apply not_elem_of_nil|done]|].
  destruct (Nat.eqb_spec y x) as [->|Hne].
  - split; [done|]. intros H. exfalso. apply H. apply elem_of_list_here.
  - rewrite not_elem_of_cons, <- IH. destruct (position x l); simpl; split; try done; try tauto. intros [_ ?]; done.
Qed.

Lemma position_is_Some x l : is_Some (position x l) <-> x ∈ l.
Proof.
  destruct (position x l) as [i|] eqn:E.
  - split; [|by eauto]. intros _. apply position_Some in E as [E _]. by eapply elem_of_list_lookup_2.
  - apply position_None in E. split; [by intros [? ?]|done].
Qed.

Lemma memb_spec x l : memb x l = true <-> x ∈ l.
Proof.
  unfold memb. rewrite existsb_exists. split.
  - intros (y & Hy & He). apply Nat.eqb_eq in He as ->. by apply elem_of_list_In.
  - intros H. exists x. split; [by apply elem_of_list_In|apply Nat.eqb_refl].
Qed.
Lemma memb_false x l : memb x l = false <-> x ∉ l.
Proof. rewrite <- memb_spec. destruct (memb x l); split; congruence. Qed.

Lemma resize_length {A} n (d : A) l : List.length (resize n d l) = n.
Proof. unfold resize. rewrite app_length, take_length, repeat_length. lia. Qed.

Lemma resize_lookup_lt {A} n (d : A) l i : (i < n)%nat -> (i < List.length l)%nat -> resize n d l !! i = l !! i.
Proof.
  intros H1 H2. unfold resize. rewrite lookup_app_l by (rewrite take_length; lia).
  by rewrite lookup_take.
Qed.
Lemma resize_lookup_ge {A} n (d : A) l i : (i < n)%nat -> (List.length l <= i)%nat -> resize n d l !! i = Some d.
Proof.
  intros H1 H2. unfold resize. rewrite lookup_app_r by (rewrite take_length; lia).
  rewrite take_length. 
  assert (Hr : forall k j, (j < k)%nat -> repeat d k !! j = Some d).
  { induction k as [|k IH]; intros j Hj; [lia|]. destruct j; simpl; [done|]. apply IH. lia. }
  apply Hr. lia.
Qed.
