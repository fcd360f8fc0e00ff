(** * Facts about strings. *)
From Coq Require Import Lia.
From stdpp Require Import list pretty.
From Verif Require Import Str SpecBind.

Lemma str_app_assoc a b c : (a +:+ b) +:+ c = a +:+ b +:+ c.
Proof. induction a as [|x a IH]; [done|]; exact (f_equal (String x) IH). Qed.
Lemma str_app_nil a : a +:+ "" = a.
Proof. induction a as [|x a IH]; [done|]; exact (f_equal (String x) IH). Qed.
Lemma str_app_inj a b c : a +:+ b = a +:+ c -> b = c.
Proof. induction a as [|x a IH]; simpl; [done|]. intros [= H]. auto. Qed.
Lemma str_app_length a b : String.length (a +:+ b) = (String.length a + String.length b)%nat.
Proof. induction a as [|x a IH]; [done|]; exact (f_equal S IH). Qed.

(** a string that is empty or starts with a slash *)
Definition slash_or_end (s : string) : Prop := s = "" \/ exists r, s = "/" +:+ r.

Lemma no_slash_split k k' x y :
  no_slash k = true -> no_slash k' = true -> slash_or_end x -> slash_or_end y ->
  k +:+ x = k' +:+ y -> k = k' /\ x = y.
Proof.
  revert k'; induction k as [|a k IH]; intros [|b k'] Hk Hk' Hx Hy H; simpl in *.
  - done.
  - destruct Hx as [->|[r ->]]; [done|]. simpl in H. injection H as <- _. by apply andb_prop in Hk' as [? _].
  - destruct Hy as [->|[r ->]]; [done|]. simpl in H. injection H as -> _. by apply andb_prop in Hk as [? _].
  - injection H as <- H. apply andb_prop in Hk as [_ Hk]. apply andb_prop in Hk' as [_ Hk'].
    destruct (IH k' Hk Hk' Hx Hy H) as [-> ->]. done.
Qed.

Lemma pretty_N_char_no_slash n : pretty_N_char n <> "/"%char.
Proof. destruct n as [|p]; [done|]. do 4 (destruct p as [p|p|]; try done). Qed.

Lemma pretty_N_go_no_slash n s : no_slash s = true -> no_slash (pretty_N_go n s) = true.
Proof.
  revert s. induction (N.lt_wf_0 n) as [n _ IH]; intros s Hs.
  destruct (decide (n = 0)%N) as [->|Hn]; [by rewrite pretty_N_go_0|].
  rewrite pretty_N_go_step by lia. apply IH; [apply N.div_lt; lia|].
  simpl. rewrite Hs. destruct (Ascii.eqb_spec (pretty_N_char (n `mod` 10)%N) "/"); [|done].
  by apply pretty_N_char_no_slash in e.
Qed.

Lemma fmt_nat_no_slash n : no_slash (fmt_nat n) = true.
Proof.
  unfold fmt_nat, pretty, pretty_N. destruct (decide _); [done|]. by apply pretty_N_go_no_slash.
Qed.

Lemma fmt_nat_inj n m : fmt_nat n = fmt_nat m -> n = m.
Proof. unfold fmt_nat. intros H. apply (inj pretty) in H. lia. Qed.

(** ** Decimal numbers: printing and reading back *)
From Coq Require Import NArith.
Lemma digit_char n : (n < 10)%N -> is_digit (pretty_N_char n) = true /\ digit_val (pretty_N_char n) = n.
Proof.
  intros H. assert (Hn : (n = 0 \/ n = 1 \/ n = 2 \/ n = 3 \/ n = 4 \/ n = 5 \/ n = 6 \/ n = 7 \/ n = 8 \/ n = 9)%N) by lia.
  by repeat (destruct Hn as [->|Hn]); [..|subst].
Qed.

Lemma parse_pretty_go n s : parse_digits 0 (pretty_N_go n s) = parse_digits n s.
Proof.
  revert s. induction (N.lt_wf_0 n) as [n _ IH]; intros s.
  destruct (decide (n = 0)%N) as [->|Hn]; [by rewrite pretty_N_go_0|].
  rewrite pretty_N_go_step by lia. rewrite IH by (apply N.div_lt; lia).
  cbn [parse_digits]. destruct (digit_char (n `mod` 10)%N) as [Hd Hv]; [apply N.mod_lt; lia|].
  rewrite Hd, Hv. f_equal. pose proof (N.div_mod n 10). lia.
Qed.

Lemma pretty_go_first n s : (n <> 0)%N -> exists c r, pretty_N_go n s = String c r /\ (exists d, (0 < d < 10)%N /\ c = pretty_N_char d).
Proof.
  revert s. induction (N.lt_wf_0 n) as [n _ IH]; intros s Hn.
  rewrite pretty_N_go_step by lia.
  destruct (decide (n `div` 10 = 0)%N) as [Hz|Hz].
  - rewrite Hz, pretty_N_go_0. exists (pretty_N_char (n `mod` 10)%N), s. split; [done|].
    exists (n `mod` 10)%N. split; [|done]. pose proof (N.mod_lt n 10). pose proof (N.div_mod n 10). lia.
  - apply IH; [apply N.div_lt; lia|done].
Qed.

Lemma fmt_nat_first n : fmt_nat n = "0" /\ n = 0%nat \/
  exists c r, fmt_nat n = String c r /\ c <> "0"%char /\ c <> "+"%char.
Proof.
  unfold fmt_nat, pretty, pretty_N. destruct (decide _) as [H|H]; [left; split; [done|lia]|].
  right. destruct (pretty_go_first (N.of_nat n) "" H) as (c & r & -> & d & Hd & ->). exists (pretty_N_char d), r.
  split; [done|].
  assert (Hn : (d = 1 \/ d = 2 \/ d = 3 \/ d = 4 \/ d = 5 \/ d = 6 \/ d = 7 \/ d = 8 \/ d = 9)%N) by lia.
  by repeat (destruct Hn as [->|Hn]); [..|subst].
Qed.

Lemma parse_fmt_digits n : parse_digits 0 (fmt_nat n) = Some (N.of_nat n).
Proof.
  unfold fmt_nat, pretty, pretty_N. destruct (decide _) as [H|H]; [by rewrite H|]. by rewrite parse_pretty_go.
Qed.

Lemma parse_usize_fmt n : (N.of_nat n <= u64_max)%N -> parse_usize (fmt_nat n) = Some n.
Proof.
  intros Hn. unfold parse_usize, parse_u64.
  destruct (fmt_nat_first n) as [[-> ->]|(c & r & Hs & Hc0 & Hcp)]; [done|].
  pose proof (parse_fmt_digits n) as Hp. rewrite Hs in Hp |- *.
  assert (Hm : match String c r with String "+" s' => s' | _ => String c r end = String c r).
  { destruct c as [[] [] [] [] [] [] [] []]; try done. }
  rewrite Hm, Hp. apply N.leb_le in Hn. rewrite Hn. cbn. by rewrite Nnat.Nat2N.id.
Qed.

(** ** Splitting *)
Lemma no_slash_app_split s t : no_slash s = true -> split_on "/" (s +:+ "/" +:+ t) = s :: split_on "/" t.
Proof.
  induction s as [|a s IH]; cbn [no_slash]; intros H; [done|].
  apply andb_prop in H as [H1 H2]. apply negb_true_iff in H1.
  change ((String a s) +:+ "/" +:+ t) with (String a (s +:+ "/" +:+ t)). cbn [split_on]. rewrite H1, IH by done. done.
Qed.
Lemma no_slash_split_on s : no_slash s = true -> split_on "/" s = [s].
Proof.
  induction s as [|a s IH]; cbn [no_slash]; intros H; [done|].
  apply andb_prop in H as [H1 H2]. apply negb_true_iff in H1. cbn [split_on]. by rewrite H1, IH.
Qed.
