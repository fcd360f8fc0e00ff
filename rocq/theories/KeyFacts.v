(** * The table of property names. *)
From stdpp Require Import gmap.
From Verif Require Import Str PropKey SpecKeys.

Lemma table_get_in name (l : list (string * PropertyKey)) k : table_get name l = Some k -> In (name, k) l.
Proof.
  induction l as [|[n k'] l IH]; [done|]. cbn. destruct (String.eqb_spec name n) as [->|]; [injection 1 as ->; by left|]. intros H. right. by apply IH.
Qed.

Definition key_in (k : PropertyKey) (l : list PropertyKey) : bool := existsb (key_eqb k) l.
Lemma key_in_spec k l : key_in k l = true <-> In k l.
Proof.
  unfold key_in. rewrite existsb_exists. split; [intros (x & Hx & E); apply key_eqb_spec in E; congruence|]. intros H. exists k. split; [done|by apply key_eqb_spec].
Qed.
Definition written_b (k : PropertyKey) (n : string) : bool :=
  existsb (fun '(k', n') => key_eqb k k' && String.eqb n n') misspelt
  || (String.eqb n (standard_name k) && negb (key_in k (map fst misspelt)) && negb (key_in k nameless)).
Lemma written_b_spec k n : written_b k n = true <-> written k n.
Proof.
  unfold written_b, written. rewrite orb_true_iff, existsb_exists, !andb_true_iff, !negb_true_iff, !(iff_sym (not_true_iff_false _)), !key_in_spec, String.eqb_eq.
  split; (intros [H|H]; [left|right; tauto]).
  - destruct H as ([k' n'] & Hin & E). apply andb_true_iff in E as [E1 E2]. apply key_eqb_spec in E1. apply String.eqb_eq in E2. by subst.
  - exists (k, n). split; [done|]. rewrite String.eqb_refl, andb_true_r. by apply key_eqb_spec.
Qed.

Lemma table_written : forallb (fun '(n, k) => written_b k n) parse_table = true.
Proof. vm_compute. reflexivity. Qed.
Lemma misspelt_table : forallb (fun '(k, n) => match parse_key n with Some k' => key_eqb k' k | None => false end) misspelt = true.
Proof. vm_compute. reflexivity. Qed.
Lemma standard_table : forallb (fun k => key_in k (map fst misspelt) || key_in k nameless ||
    match parse_key (standard_name k) with Some k' => key_eqb k' k | None => false end) all_keys = true.
Proof. vm_compute. reflexivity. Qed.

Theorem parse_key_written n k : parse_key n = Some k <-> written k n.
Proof.
  split.
  - intros H. apply table_get_in in H. pose proof table_written as T. rewrite forallb_forall in T. specialize (T _ H). by apply written_b_spec.
  - intros [H|(-> & H1 & H2)].
    + pose proof misspelt_table as T. rewrite forallb_forall in T. specialize (T _ H). cbv beta iota in T.
      destruct (parse_key n) as [k'|]; [|done]. apply key_eqb_spec in T. by subst.
    + pose proof standard_table as T. rewrite forallb_forall in T. specialize (T k (all_keys_complete k)).
      rewrite !orb_true_iff in T. destruct T as [[T|T]|T]; [by apply key_in_spec in T|by apply key_in_spec in T|].
      destruct (parse_key _) as [k'|]; [|done]. apply key_eqb_spec in T. by subst.
Qed.
