(** * Values of style sheets are read as written. *)
From Coq Require Import ZArith Lia.
From Flocq Require Import Core.Core IEEE754.BinarySingleNaN.
From stdpp Require Import gmap.
From Verif Require Import Str StrFacts Res F32 PropKey Css SpecText SpecKeys SpecSheet Number NumberFacts Peg CssGrammar ReadCss PegFacts PegLook ResFacts.
Close Scope R_scope.

Notation G := css_grammar.
Notation parsesC := (parses css_grammar).

(** ** Characters. *)
Ltac all_chars := let c := fresh in intros c; destruct c as [[] [] [] [] [] [] [] []]; vm_compute; congruence.
Lemma letter_is c : letter c = is_alpha c. Proof. revert c. all_chars. Qed.
Lemma name_sign_is c : name_sign c = ident_char c. Proof. revert c. all_chars. Qed.
Lemma letter_or_sign_is c : letter_or_sign c = name_char c. Proof. revert c. all_chars. Qed.
Lemma all_ext p q s : (forall c, p c = q c) -> all p s -> all q s.
Proof. intros E. induction s as [|c s IH]; [done|]. intros [H1 H2]. split; [by rewrite <- E|by apply IH]. Qed.
Lemma all_impl (p q : ascii -> bool) s : (forall c, p c = true -> q c = true) -> all p s -> all q s.
Proof. intros E. induction s as [|c s IH]; [done|]. intros [H1 H2]. split; [by apply E|by apply IH]. Qed.
Lemma stops_impl (p q : ascii -> bool) s : (forall c, q c = true -> p c = true) -> stops p s -> stops q s.
Proof. intros E. destruct s as [|c s]; [done|]. cbn. intros H. destruct (q c) eqn:Q; [|done]. rewrite (E c Q) in H. done. Qed.

(** ** Blank text. *)
(** A text that begins with something solid. *)
Definition firm (s : string) : Prop := stops (fun c => white c || Ascii.eqb c "/") s.
Lemma firm_solid s : firm s -> solid "/*" s.
Proof.
  destruct s as [|c s]; [done|]. cbn. intros H. apply orb_false_iff in H as [H1 H2]. split; [done|]. cbn [strip]. by rewrite Ascii.eqb_sym, H2.
Qed.
Lemma gap_skips b r : gap b -> firm r -> skips G MNormal (b +:+ r) b r.
Proof. intros Hb Hr. eapply (blank_skips G "/*" "*/"); [done|reflexivity|reflexivity|done|by apply firm_solid]. Qed.
Lemma firm_skips r : firm r -> skips G MNormal r "" r.
Proof. intros Hr. exact (gap_skips "" r (blank_nil _ _) Hr). Qed.
Lemma firm_unskipped m r : firm r -> unskipped G m r.
Proof. intros H. left. by apply firm_skips. Qed.
Lemma compound_unskipped m r : m <> MNormal -> unskipped G m r.
Proof. intros H. right. split; [done|]. by intros []. Qed.

(** ** Conclusions about the matched text. *)
Lemma sapp_cancel (a b r : string) : a +:+ r = b +:+ r -> a = b.
Proof.
  revert b. induction a as [|x a IH]; intros b H.
  - destruct b as [|y b]; [done|]. apply (f_equal String.length) in H. rewrite !sapp_length in H. cbn in H. lia.
  - destruct b as [|y b].
    + apply (f_equal String.length) in H. rewrite !sapp_length in H. cbn in H. lia.
    + rewrite !sapp_cons in H. injection H as -> H. by rewrite (IH b H).
Qed.
Lemma parses_as {R} (g : grammar R) m e s s' ps t t' r : parses g m e s (Match ps t r) -> s = s' -> s' = t' +:+ r -> parses g m e s' (Match ps t' r).
Proof. intros H <- E. pose proof (parses_text _ _ _ _ _ _ _ H) as E'. rewrite E' in E. apply sapp_cancel in E as <-. done. Qed.

(** Texts after which a value has ended. *)
Definition goes_on (c : ascii) : bool := name_sign c || Ascii.eqb c "(" || Ascii.eqb c "%" || Ascii.eqb c ".".
Definition ends_value (r : string) : Prop := stops goes_on r.

Ltac nolook := apply (look_no G 30); [by first [apply compound_unskipped; discriminate | apply compound_unskipped; assumption | apply firm_unskipped; reflexivity]|].
Ltac chars c := destruct c as [[] [] [] [] [] [] [] []]; vm_compute; try congruence; reflexivity.

Section compound.
  Context (m : mode) (Hm : m <> MNormal).

  Lemma ident_parses n r : name n -> stops ident_char r -> m <> MAtomic -> parsesC m (Call RIdent) (n +:+ r) (Match [Pair RIdent n []] n r).
  Proof.
    intros [Hn1 Hn2] Hr Ha. eapply parses_normal; [reflexivity|done|]. apply parses_word; [done| |done|done].
    exact (all_ext _ _ n name_sign_is Hn1).
  Qed.
  Lemma keyword_parses k r : keyword k -> stops name_char r -> m <> MAtomic -> parsesC m (Call RKeyword) (k +:+ r) (Match [Pair RKeyword k []] k r).
  Proof.
    intros (Hk & H0 & H1 & H2) Hr Ha. eapply parses_normal; [reflexivity|done|].
    assert (Hw : forall t, all letter_or_sign t -> t <> "" -> parsesC m (Plus (Cls name_char)) (t +:+ r) (Match [] t r)).
    { intros t Ht Hn. apply parses_word; [done| |done|done]. exact (all_ext _ _ t letter_or_sign_is Ht). }
    assert (Hno : forall c s, c <> "-"%char -> parsesC m (Opt (Lit "-")) (String c s) (Match [] "" (String c s))).
    { intros c s Hc. apply parses_opt_no, parses_lit_no. cbn [strip]. destruct (Ascii.eqb_spec "-" c); [congruence|done]. }
    assert (Hyes : forall s, parsesC m (Opt (Lit "-")) (String "-" s) (Match [] "-" s)).
    { intros s. apply parses_opt. exact (parses_lit G m "-" s). }
    pose proof (skips_atomic G m) as Hs.
    destruct k as [|a k]; [done|]. cbn [seq]. destruct (Ascii.ascii_dec a "-") as [->|Hna].
    - destruct k as [|b k]; [done|]. destruct (Ascii.ascii_dec b "-") as [->|Hnb].
      + assert (Hk' : k <> "") by (by intros ->). destruct Hk as (_ & _ & Hk).
        exact (parses_seq G m _ _ _ [] "-" _ "" _ [] _ r (Hyes _) (Hs _ Hm) (parses_seq G m _ _ _ [] "-" _ "" _ [] _ r (Hyes _) (Hs _ Hm) (Hw k Hk Hk'))).
      + destruct Hk as (_ & Hk).
        exact (parses_seq G m _ _ _ [] "-" _ "" _ [] _ r (Hyes _) (Hs _ Hm) (parses_seq G m _ _ _ [] "" _ "" _ [] _ r (Hno b _ Hnb) (Hs _ Hm) (Hw (String b k) Hk ltac:(discriminate)))).
    - exact (parses_seq G m _ _ _ [] "" _ "" _ [] _ r (Hno a _ Hna) (Hs _ Hm) (parses_seq G m _ _ _ [] "" _ "" _ [] _ r (Hno a _ Hna) (Hs _ Hm) (Hw (String a k) Hk ltac:(discriminate)))).
  Qed.

  (** A numeral is made of the characters of numbers. *)
  Lemma decimal_chars t x : denotes t x -> all number_char t /\ t <> "".
  Proof.
    assert (Hd : forall s, all digit s -> all number_char s).
    { intros s. apply all_impl. intros c. chars c. }
    intros (neg & z & k & H & _). destruct H as [neg ds Hds Hn|neg ds fs Hds Hfs Hn].
    - split; [|destruct neg; [discriminate|done]]. apply all_app. split; [by destruct neg|by apply Hd].
    - split.
      + apply all_app. split; [by destruct neg|]. apply all_app. split; [by apply Hd|]. split; [done|by apply Hd].
      + destruct neg; [discriminate|]. by destruct ds.
  Qed.
  Lemma number_parses t x r : denotes t x -> stops number_char r -> m <> MAtomic -> parsesC m (Call RNumber) (t +:+ r) (Match [Pair RNumber t []] t r).
  Proof.
    intros Ht Hr Ha. destruct (decimal_chars t x Ht) as [H1 H2]. eapply parses_normal; [reflexivity|done|]. by apply parses_word.
  Qed.
  (** The first character of a numeral, and the one after a minus. *)
  Lemma decimal_first t x : denotes t x ->
    exists c s, t = String c s /\ (digit c || Ascii.eqb c "." = true \/ (c = "-"%char /\ exists d s', s = String d s' /\ digit d || Ascii.eqb d "." = true)).
  Proof.
    intros (neg & z & k & H & _). destruct H as [neg ds Hds Hn|neg ds fs Hds Hfs Hn].
    - destruct ds as [|d ds]; [done|]. destruct Hds as [Hd Hds]. destruct neg.
      + exists "-"%char, (String d ds). split; [done|]. right. split; [done|]. exists d, ds. by rewrite Hd.
      + exists d, ds. split; [done|]. left. by rewrite Hd.
    - assert (Hf : exists d s, ds +:+ String "." fs = String d s /\ digit d || Ascii.eqb d "." = true).
      { destruct ds as [|d ds]; [by exists "."%char, fs|]. destruct Hds as [Hd Hds]. exists d, (ds +:+ String "." fs). split; [done|]. by rewrite Hd. }
      destruct Hf as (d & s & -> & Hd). destruct neg.
      + exists "-"%char, (String d s). split; [done|]. right. split; [done|]. by exists d, s.
      + exists d, s. split; [done|]. by left.
  Qed.
End compound.

(** ** Values. *)
Notation MC := MCompound.
Lemma seqC a b s pa ta s1 pb tb s2 : parsesC MC a s (Match pa ta s1) -> parsesC MC b s1 (Match pb tb s2) ->
  parsesC MC (Seq a b) s (Match (pa ++ pb) (ta +:+ tb) s2).
Proof. intros Ha Hb. exact (parses_seq G MC a b s pa ta s1 "" s1 pb tb s2 Ha (conj eq_refl eq_refl) Hb). Qed.
Lemma seqC_no a b s pa ta s1 : parsesC MC a s (Match pa ta s1) -> parsesC MC b s1 Fail -> parsesC MC (Seq a b) s Fail.
Proof. intros Ha Hb. exact (parses_seq_no2 G MC a b s pa ta s1 "" s1 Ha (conj eq_refl eq_refl) Hb). Qed.
Lemma lit_not m p s : strip p s = None -> parsesC m (Lit p) s Fail.
Proof. apply parses_lit_no. Qed.

(** A text that is not a name followed by a parenthesis. *)
Fixpoint no_call (s : string) : Prop :=
  match s with "" => True | String c s' => if ident_char c then no_call s' else c <> "("%char end.
Lemma no_call_app p q : all ident_char p -> no_call q -> no_call (p +:+ q).
Proof. induction p as [|c p IH]; [done|]. intros [Hc Hp] Hq. rewrite sapp_cons. cbn [no_call]. rewrite Hc. by apply IH. Qed.
Lemma no_call_ends r : ends_value r -> no_call r.
Proof.
  destruct r as [|c r]; [done|]. unfold ends_value. cbn [stops no_call]. unfold goes_on. rewrite name_sign_is. intros H.
  apply orb_false_iff in H as [H _]. apply orb_false_iff in H as [H _]. apply orb_false_iff in H as [H1 H2]. rewrite H1.
  intros ->. discriminate H2.
Qed.
Lemma no_call_split s : no_call s -> exists p q, s = p +:+ q /\ all ident_char p /\ stops ident_char q /\ strip "(" q = None.
Proof.
  induction s as [|c s IH]; intros H; [by exists "", ""|]. cbn [no_call] in H. destruct (ident_char c) eqn:E.
  - destruct (IH H) as (p & q & -> & H1 & H2 & H3). exists (String c p), q. split; [done|]. done.
  - exists "", (String c s). split; [done|]. split; [done|]. split; [exact E|]. cbn [strip]. destruct (Ascii.eqb_spec "(" c); [congruence|done].
Qed.
Lemma function_no s : no_call s -> parsesC MC (Call RFunction) s Fail.
Proof.
  intros H. destruct (no_call_split s H) as (p & q & -> & Hp & Hq & Hc). apply parses_call_no. cbn [css_grammar g_rule css_rule fst snd body_mode alt seq].
  destruct p as [|c p].
  - change ("" +:+ q) with q.
    assert (Hi : parsesC MC (Call RIdent) q Fail) by (apply parses_call_no; apply parses_seq_no1; by apply parses_cls_no).
    apply parses_alt2; by apply parses_seq_no1.
  - assert (Hi : parsesC MC (Call RIdent) (String c p +:+ q) (Match [Pair RIdent (String c p) []] (String c p) q)).
    { eapply parses_normal; [reflexivity|done|]. by apply parses_word. }
    apply parses_alt2; (eapply seqC_no; [exact Hi|]; apply parses_seq_no1; by apply lit_not).
Qed.

Lemma explicit_value s e p t r : parsesC MC (Call RVar) s Fail -> parsesC MC (Call RFunction) s Fail ->
  snd (css_rule RExplicit) = e -> parsesC MC e s (Match [p] t r) ->
  parsesC MC (Call RValue) s (Match [Pair RExplicit t [p]] t r).
Proof.
  intros H1 H2 <- H. eapply parses_silent; [reflexivity|]. cbn [alt]. apply parses_alt2; [done|]. apply parses_alt2; [done|].
  eapply parses_normal; [reflexivity|done|]. exact H.
Qed.
Lemma var_no s : next s <> Some "v"%char -> parsesC MC (Call RVar) s Fail.
Proof.
  intros H. apply parses_call_no. cbn [css_grammar g_rule css_rule fst snd body_mode seq]. apply parses_seq_no1, lit_not.
  destruct s as [|c s]; [done|]. cbn [strip]. destruct (Ascii.eqb_spec "v" c) as [<-|]; [done|done].
Qed.

(** Numerals with something after them. *)
Section numeral.
  Context (t : string) (x : f32) (u r : string).
  Context (Ht : denotes t x) (Hu : stops number_char (u +:+ r)) (Hn : no_call (u +:+ r)).
  Let s := t +:+ (u +:+ r).

  Lemma numeral_var : parsesC MC (Call RVar) s Fail.
  Proof.
    apply var_no. unfold s. destruct (decimal_first t x Ht) as (c & q & -> & [H|[-> _]]); rewrite sapp_cons; cbn [next]; [|done].
    intros [= ->]. discriminate H.
  Qed.
  Lemma numeral_function : parsesC MC (Call RFunction) s Fail.
  Proof.
    apply function_no. unfold s. destruct Ht as (neg & z & k & Hd & _). 
    assert (Hdig : forall a, all digit a -> all ident_char a) by (intros a; apply all_impl; intros c; chars c).
    destruct Hd as [neg ds Hds _|neg ds fs Hds Hfs _].
    - apply no_call_app; [|done]. apply all_app. split; [by destruct neg|by apply Hdig].
    - rewrite !sapp_assoc. apply no_call_app; [by destruct neg|]. apply no_call_app; [by apply Hdig|]. rewrite sapp_cons. done.
  Qed.
  Lemma numeral_color : parsesC MC (Call RColor) s Fail.
  Proof.
    nolook. unfold s. destruct (decimal_first t x Ht) as (c & q & -> & [H|[-> _]]); rewrite sapp_cons; cbn [next]; [|reflexivity].
    revert H. chars c.
  Qed.
  Lemma numeral_keyword : parsesC MC (Call RKeyword) s Fail.
  Proof.
    unfold s. destruct (decimal_first t x Ht) as (c & q & -> & [H|(-> & d & q' & -> & H)]); rewrite ?sapp_cons.
    - nolook. cbn [next]. revert H. chars c.
    - apply parses_call_no. cbn [css_grammar g_rule css_rule fst snd body_mode seq].
      eapply seqC_no; [apply parses_opt; exact (parses_lit G MC "-" _)|]. nolook. cbn [next]. revert H. chars d.
  Qed.
  Lemma numeral_number : parsesC MC (Call RNumber) s (Match [Pair RNumber t []] t (u +:+ r)).
  Proof. by apply (number_parses MC ltac:(discriminate) t x). Qed.
  Lemma numeral_value p t' r' : parsesC MC (alt [Call RPercentage; Call RTime; Call RDimension; Call RZero; Call RNumber; Call RString]) s (Match [p] t' r') ->
    parsesC MC (Call RValue) s (Match [Pair RExplicit t' [p]] t' r').
  Proof.
    intros H. eapply explicit_value; [apply numeral_var|apply numeral_function|reflexivity|]. cbn [css_rule snd alt].
    apply parses_alt2; [apply numeral_color|]. apply parses_alt2; [apply numeral_keyword|]. exact H.
  Qed.
  Lemma numeral_then (e : cexp) rule : css_rule rule = (Normal, seq [Call RNumber; e]) ->
    parsesC MC e (u +:+ r) Fail -> parsesC MC (Call rule) s Fail.
  Proof. intros Er He. apply parses_call_no. cbn [css_grammar g_rule]. rewrite Er. cbn [fst snd body_mode seq]. eapply seqC_no; [apply numeral_number|done]. Qed.
End numeral.

Scheme value_text_mut := Minimality for value_text Sort Prop with arguments_text_mut := Minimality for arguments_text Sort Prop.

Definition value_reads (d : Definition_) (t : string) : Prop :=
  exists p, read_value_def p = Ok d /\ forall r, ends_value r -> parsesC MC (Call RValue) (t +:+ r) (Match [p] t r).

Lemma ends_number r : ends_value r -> stops number_char r.
Proof. apply stops_impl. intros c. chars c. Qed.
Lemma ends_letter r : ends_value r -> stops is_alpha r.
Proof. apply stops_impl. intros c. chars c. Qed.
Lemma ends_name r : ends_value r -> stops name_char r.
Proof. apply stops_impl. intros c. chars c. Qed.
Lemma ends_hex r : ends_value r -> stops is_hex r.
Proof. apply stops_impl. intros c. chars c. Qed.

Lemma keyword_reads k : keyword k -> value_reads (DExplicit (CKeyword k)) k.
Proof.
  intros Hk. exists (Pair RExplicit k [Pair RKeyword k []]). split; [reflexivity|]. intros r Hr.
  assert (Hc : all ident_char k).
  { eapply all_impl; [|exact (proj1 Hk)]. intros c. chars c. }
  eapply explicit_value; [| |reflexivity|].
  - apply parses_call_no. cbn [css_grammar g_rule css_rule fst snd body_mode seq].
    destruct (strip "var" (k +:+ r)) as [q|] eqn:E; [|apply parses_seq_no1; by apply lit_not].
    apply strip_spec in E. rewrite E. eapply seqC_no; [apply parses_lit|]. apply parses_seq_no1, lit_not.
    destruct q as [|c q]; [done|]. cbn [strip]. destruct (Ascii.eqb_spec "(" c) as [<-|]; [|done]. exfalso.
    pose proof (no_call_app k r Hc (no_call_ends r Hr)) as H. rewrite E in H. by apply H.
  - apply function_no. apply no_call_app; [done|]. by apply no_call_ends.
  - cbn [css_rule snd alt]. apply parses_alt2.
    + destruct Hk as (Hk & Hk0 & _). destruct k as [|c k]; [done|]. destruct Hk as [Hk _]. nolook. rewrite sapp_cons. cbn [next]. revert Hk. chars c.
    + apply parses_alt1. by apply keyword_parses; [|done|apply ends_name|].
Qed.

Lemma number_of t x r : denotes t x -> read_number (Pair RNumber t r) = x.
Proof. intros H. unfold read_number. cbn [p_text]. by apply denotes_reads. Qed.

Ltac timed := cbn [css_rule]; reflexivity.
Lemma percent_reads t x : denotes t x -> value_reads (DExplicit (CPercentage (fdiv x f100))) (t +:+ "%").
Proof.
  intros Ht. eexists (Pair RExplicit (t +:+ "%") [Pair RPercentage (t +:+ "%") [Pair RNumber t []]]). split.
  - cbn [read_value_def head unwrap bindR]. unfold read_explicit_value, read_percentage, first. cbn [p_rule p_inner head unwrap bindR].
    by rewrite (number_of t x [] Ht).
  - intros r Hr. rewrite sapp_assoc. apply (numeral_value t x "%" r Ht); [done|]. cbn [alt]. apply parses_alt1.
    eapply parses_normal; [reflexivity|done|]. cbn [seq].
    exact (seqC _ _ _ _ _ _ _ _ _ (numeral_number t x "%" r Ht eq_refl) (parses_lit G MC "%" r)).
Qed.
Lemma seconds_reads t x : denotes t x -> value_reads (DExplicit (CTime x)) (t +:+ "s").
Proof.
  intros Ht. eexists (Pair RExplicit (t +:+ "s") [Pair RTime (t +:+ "s") [Pair RNumber t []; Pair RTimeUnit "s" []]]). split.
  - cbn [read_value_def head unwrap bindR]. unfold read_explicit_value, read_seconds, first, second. cbn [p_rule p_inner p_text head tail unwrap bindR].
    by rewrite (number_of t x [] Ht).
  - intros r Hr. rewrite sapp_assoc. apply (numeral_value t x "s" r Ht); [by apply (no_call_app "s"); [|apply no_call_ends]|]. cbn [alt].
    apply parses_alt2; [eapply (numeral_then t x "s" r Ht eq_refl); [reflexivity|by apply lit_not]|]. apply parses_alt1.
    eapply parses_normal; [reflexivity|done|]. cbn [seq].
    refine (seqC _ _ _ _ _ _ _ _ _ (numeral_number t x "s" r Ht eq_refl) _).
    eapply parses_normal; [reflexivity|done|]. cbn [any_of]. apply parses_alt2; [by apply lit_not|]. apply parses_lit.
Qed.
Lemma milliseconds_reads t x : denotes t x -> value_reads (DExplicit (CTime (fdiv x (f32_of_Z 1000)))) (t +:+ "ms").
Proof.
  intros Ht. eexists (Pair RExplicit (t +:+ "ms") [Pair RTime (t +:+ "ms") [Pair RNumber t []; Pair RTimeUnit "ms" []]]). split.
  - cbn [read_value_def head unwrap bindR]. unfold read_explicit_value, read_seconds, first, second. cbn [p_rule p_inner p_text head tail unwrap bindR].
    by rewrite (number_of t x [] Ht).
  - intros r Hr. rewrite sapp_assoc. apply (numeral_value t x "ms" r Ht); [by apply (no_call_app "ms"); [|apply no_call_ends]|]. cbn [alt].
    apply parses_alt2; [eapply (numeral_then t x "ms" r Ht eq_refl); [reflexivity|by apply lit_not]|]. apply parses_alt1.
    eapply parses_normal; [reflexivity|done|]. cbn [seq].
    refine (seqC _ _ _ _ _ _ _ _ _ (numeral_number t x "ms" r Ht eq_refl) _).
    eapply parses_normal; [reflexivity|done|]. cbn [any_of]. apply parses_alt1. apply parses_lit.
Qed.
Lemma length_reads t x u : denotes t x -> value_reads (DExplicit (CDimension (mkDim x u))) (t +:+ unit_name u).
Proof.
  intros Ht. eexists (Pair RExplicit (t +:+ unit_name u) [Pair RDimension (t +:+ unit_name u) [Pair RNumber t []; Pair RUnit (unit_name u) []]]). split.
  - cbn [read_value_def head unwrap bindR]. unfold read_explicit_value, read_dimension, first, second. cbn [p_rule p_inner p_text head tail unwrap bindR].
    rewrite (number_of t x [] Ht). by destruct u.
  - intros r Hr. rewrite sapp_assoc.
    assert (Hs : stops number_char (unit_name u +:+ r)) by (by destruct u).
    apply (numeral_value t x (unit_name u) r Ht); [by apply no_call_app; [destruct u|apply no_call_ends]|]. cbn [alt].
    apply parses_alt2; [eapply (numeral_then t x (unit_name u) r Ht Hs); [reflexivity|destruct u; by apply lit_not]|].
    apply parses_alt2; [eapply (numeral_then t x (unit_name u) r Ht Hs); [reflexivity|destruct u; nolook; reflexivity]|].
    apply parses_alt1. eapply parses_normal; [reflexivity|done|]. cbn [seq].
    refine (seqC _ _ _ _ _ _ _ _ _ (numeral_number t x (unit_name u) r Ht Hs) _).
    eapply parses_normal; [reflexivity|done|]. apply parses_word; [done|by destruct u|by destruct u|by apply ends_letter].
Qed.
Lemma number_ends t x r : denotes t x -> ends_value r -> forall p,
  parsesC MC (alt [Call RZero; Call RNumber; Call RString]) (t +:+ r) (Match [p] t r) ->
  parsesC MC (Call RValue) (t +:+ r) (Match [Pair RExplicit t [p]] t r).
Proof.
  intros Ht Hr p Hp. pose proof (ends_number r Hr) as Hs.
  assert (Hl : forall c, goes_on c = true -> parsesC MC (Lit (String c "")) r Fail).
  { intros c Hc. apply lit_not. destruct r as [|d r]; [done|]. cbn [strip]. destruct (Ascii.eqb_spec c d) as [->|]; [|done].
    unfold ends_value in Hr. cbn in Hr. congruence. }
  apply (numeral_value t x "" r Ht); [by apply no_call_ends|]. cbn [alt].
  apply parses_alt2; [eapply (numeral_then t x "" r Ht Hs); [reflexivity|by apply (Hl "%"%char)]|].
  apply parses_alt2.
  { eapply (numeral_then t x "" r Ht Hs); [reflexivity|]. apply parses_call_no. cbn [css_grammar g_rule css_rule fst snd body_mode any_of].
    apply parses_alt2; [|by apply (Hl "s"%char)]. apply lit_not. destruct r as [|d r]; [done|]. change ("" +:+ ?z) with z. cbn [strip].
    destruct (Ascii.eqb_spec "m" d) as [<-|]; [|done]. discriminate Hr. }
  apply parses_alt2.
  { eapply (numeral_then t x "" r Ht Hs); [reflexivity|]. apply parses_call_no. cbn [css_grammar g_rule css_rule fst snd body_mode].
    apply parses_seq_no1, parses_cls_no. by apply ends_letter. }
  exact Hp.
Qed.
Lemma zero_reads : value_reads (DExplicit CZero) "0".
Proof.
  destruct (decimal_denotes "0" false _ _ (decimal_whole false "0" ltac:(done) ltac:(done))) as [x Hx].
  eexists (Pair RExplicit "0" [Pair RZero "0" []]). split; [reflexivity|]. intros r Hr.
  apply (number_ends "0" x r Hx Hr). cbn [alt]. apply parses_alt1. eapply parses_normal; [reflexivity|done|]. cbn [seq].
  refine (seqC _ _ _ [] "0" r [] "" r (parses_lit G MC "0" r) _). apply parses_not, lit_not.
  destruct r as [|d r]; [done|]. cbn [strip]. destruct (Ascii.eqb_spec "." d) as [<-|]; [|done]. discriminate Hr.
Qed.
Lemma number_reads t x : denotes t x -> t <> "0" -> no_leading_zero t -> value_reads (DExplicit (CNumber x)) t.
Proof.
  intros Ht Hn Hz. eexists (Pair RExplicit t [Pair RNumber t []]). split.
  - cbn [read_value_def head unwrap bindR]. unfold read_explicit_value. cbn [p_rule]. by rewrite (number_of t x [] Ht).
  - intros r Hr. apply (number_ends t x r Ht Hr). cbn [alt]. apply parses_alt2.
    + apply parses_call_no. cbn [css_grammar g_rule css_rule fst snd body_mode seq].
      destruct t as [|c t]; [by destruct (decimal_first _ _ Ht) as (? & ? & ? & _)|].
      rewrite sapp_cons. destruct (Ascii.ascii_dec c "0") as [->|Hc].
      * destruct t as [|d t]; [done|]. rewrite (Hz d t eq_refl). rewrite sapp_cons.
        eapply seqC_no; [exact (parses_lit G MC "0" _)|]. eapply parses_not_no. exact (parses_lit G MC "." _).
      * apply parses_seq_no1, lit_not. cbn [strip]. destruct (Ascii.eqb_spec "0" c); [congruence|done].
    + apply parses_alt1. by apply (number_parses MC ltac:(discriminate) t x); [|apply ends_number|].
Qed.

(** Colours. *)
Lemma hex_is c x : hex c x -> is_hex c = true /\ ReadCss.hex_digit c = Some x.
Proof.
  intros [d H|d H|d H]; revert H; (destruct d as [[] [] [] [] [] [] [] []]; vm_compute; try congruence; by split).
Qed.
Lemma channel_is t x : channel t x -> exists a b, t = String a (String b "") /\ is_hex a = true /\ is_hex b = true /\
  forall s i, String.get i s = Some a -> String.get (S i) s = Some b -> hex_byte i s = x.
Proof.
  intros [a b y z Ha Hb]. destruct (hex_is _ _ Ha) as [A1 A2], (hex_is _ _ Hb) as [B1 B2]. exists a, b. split; [done|]. split; [done|]. split; [done|].
  intros s i E1 E2. unfold hex_byte. by rewrite E1, E2, A2, B2.
Qed.
Lemma color_parses h r : all is_hex h -> h <> "" -> ends_value r ->
  parsesC MC (Call RValue) ("#" +:+ (h +:+ r)) (Match [Pair RExplicit ("#" +:+ h) [Pair RColor ("#" +:+ h) []]] ("#" +:+ h) r).
Proof.
  intros Hh Hn Hr. eapply explicit_value; [by apply var_no| |reflexivity|].
  - apply function_no. done.
  - cbn [css_rule snd alt]. apply parses_alt1. eapply parses_normal; [reflexivity|done|]. cbn [seq].
    refine (seqC _ _ _ [] "#" _ [] h r (parses_lit G MC "#" _) _). apply parses_word; [done|done|done|by apply ends_hex].
Qed.
Lemma color_reads r g b tr tg tb : channel tr r -> channel tg g -> channel tb b ->
  value_reads (DExplicit (CColor (r, g, b, 255%Z))) ("#" +:+ (tr +:+ (tg +:+ tb))).
Proof.
  intros Hr Hg Hb. apply channel_is in Hr as (a1 & a2 & -> & A1 & A2 & A), Hg as (b1 & b2 & -> & B1 & B2 & B), Hb as (c1 & c2 & -> & C1 & C2 & C).
  set (t := "#" +:+ _). exists (Pair RExplicit t [Pair RColor t []]). split.
  - cbn [read_value_def head unwrap bindR]. unfold read_explicit_value. cbn [p_rule]. unfold read_color. cbn [p_text].
    change ((String.length t =? 7)%nat && starts_with "#" t) with true. cbn [bindR].
    rewrite (A t 1%nat eq_refl eq_refl), (B t 3%nat eq_refl eq_refl), (C t 5%nat eq_refl eq_refl). reflexivity.
  - intros q Hq. unfold t. rewrite sapp_assoc. apply color_parses; [|done|done]. repeat split; assumption.
Qed.
Lemma color_alpha_reads r g b a tr tg tb ta : channel tr r -> channel tg g -> channel tb b -> channel ta a ->
  value_reads (DExplicit (CColor (r, g, b, a))) ("#" +:+ (tr +:+ (tg +:+ (tb +:+ ta)))).
Proof.
  intros Hr Hg Hb Ha. apply channel_is in Hr as (a1 & a2 & -> & A1 & A2 & A), Hg as (b1 & b2 & -> & B1 & B2 & B), Hb as (c1 & c2 & -> & C1 & C2 & C), Ha as (d1 & d2 & -> & D1 & D2 & D).
  set (t := "#" +:+ _). exists (Pair RExplicit t [Pair RColor t []]). split.
  - cbn [read_value_def head unwrap bindR]. unfold read_explicit_value. cbn [p_rule]. unfold read_color. cbn [p_text].
    change ((String.length t =? 7)%nat && starts_with "#" t) with false. cbn [bindR].
    change ((String.length t =? 9)%nat && starts_with "#" t) with true. cbn [bindR].
    rewrite (A t 1%nat eq_refl eq_refl), (B t 3%nat eq_refl eq_refl), (C t 5%nat eq_refl eq_refl), (D t 7%nat eq_refl eq_refl). reflexivity.
  - intros q Hq. unfold t. rewrite sapp_assoc. apply color_parses; [|done|done]. repeat split; assumption.
Qed.

(** Strings. *)
Lemma string_parses s r : closed_by quotation s ->
  parsesC MC (Call RString) (quotation +:+ (s +:+ (quotation +:+ r)))
    (Match [Pair RString (quotation +:+ (s +:+ quotation)) [Pair RStringLiteral s []]] (quotation +:+ (s +:+ quotation)) r).
Proof.
  intros Hs. eapply parses_normal; [reflexivity|done|]. cbn [seq].
  refine (seqC _ _ _ [] quotation _ [_] (s +:+ quotation) r (parses_lit G MC quotation _) _).
  refine (seqC _ _ _ [_] s _ [] quotation r _ (parses_lit G MC quotation r)).
  eapply parses_atomic; [reflexivity|done|]. cbn [seq]. apply repeats_star; [done|]. by apply body_repeats.
Qed.
Lemma string_reads s : closed_by quotation s -> value_reads (DExplicit (CStr s)) (quotation +:+ (s +:+ quotation)).
Proof.
  intros Hs. eexists (Pair RExplicit _ [Pair RString _ [Pair RStringLiteral s []]]). split; [reflexivity|].
  intros r _. rewrite !sapp_assoc. eapply explicit_value; [by apply var_no|by apply function_no|reflexivity|].
  cbn [css_rule snd alt]. do 7 (apply parses_alt2; [nolook; reflexivity|]). by apply string_parses.
Qed.

(** Variables. *)
Lemma var_reads v : keyword v -> value_reads (DVar v) ("var(" +:+ (v +:+ ")")).
Proof.
  intros Hv. eexists (Pair RVar _ [Pair RKeyword v []]). split; [reflexivity|]. intros r _. rewrite !sapp_assoc.
  eapply parses_silent; [reflexivity|]. cbn [alt]. apply parses_alt1. eapply parses_normal; [reflexivity|done|]. cbn [seq].
  refine (seqC _ _ _ [] "var" _ [_] ("(" +:+ (v +:+ ")")) r (parses_lit G MC "var" _) _).
  refine (seqC _ _ _ [] "(" _ [_] (v +:+ ")") r (parses_lit G MC "(" _) _).
  refine (seqC _ _ _ [_] v _ [] ")" r (keyword_parses MC ltac:(discriminate) v _ Hv _ ltac:(discriminate)) _); [done|].
  refine (seqC _ _ _ [] "" _ [] ")" r _ (parses_lit G MC ")" r)).
  apply parses_opt_no, parses_seq_no1. by apply lit_not.
Qed.
Lemma var_fallback_reads v d t : keyword v -> value_reads d t -> value_reads (DVar v) ("var(" +:+ (v +:+ ("," +:+ (t +:+ ")")))).
Proof.
  intros Hv (p & _ & Hp). eexists (Pair RVar _ [Pair RKeyword v []; p]). split; [reflexivity|]. intros r _. rewrite !sapp_assoc.
  eapply parses_silent; [reflexivity|]. cbn [alt]. apply parses_alt1. eapply parses_normal; [reflexivity|done|]. cbn [seq].
  refine (seqC _ _ _ [] "var" _ [_; _] ("(" +:+ (v +:+ ("," +:+ (t +:+ ")")))) r (parses_lit G MC "var" _) _).
  refine (seqC _ _ _ [] "(" _ [_; _] (v +:+ ("," +:+ (t +:+ ")"))) r (parses_lit G MC "(" _) _).
  refine (seqC _ _ _ [_] v _ [_] _ r (keyword_parses MC ltac:(discriminate) v _ Hv _ ltac:(discriminate)) _); [done|].
  refine (seqC _ _ _ [_] ("," +:+ t) _ [] ")" r _ (parses_lit G MC ")" r)).
  apply parses_opt. refine (seqC _ _ _ [] "," _ [_] t _ (parses_lit G MC "," _) _). by apply Hp.
Qed.

(** Functions. *)
Definition value_start (c : ascii) : bool := name_sign c || Ascii.eqb c "." || Ascii.eqb c "#" || Ascii.eqb c "034".
Lemma value_first d t : value_text d t -> exists c s, t = String c s /\ value_start c = true.
Proof.
  assert (Hn : forall n s, name n -> exists c s', n +:+ s = String c s' /\ value_start c = true).
  { intros n s [H1 H2]. destruct n as [|c n]; [done|]. exists c, (n +:+ s). split; [done|]. unfold value_start. by rewrite (proj1 H1). }
  assert (Hd : forall n x s, denotes n x -> exists c s', n +:+ s = String c s' /\ value_start c = true).
  { intros n x s H. destruct (decimal_first n x H) as (c & q & -> & [K|[-> _]]); rewrite sapp_cons; eexists _, _; (split; [reflexivity|]); [|done].
    revert K. chars c. }
  assert (Hk : forall k s, keyword k -> exists c s', k +:+ s = String c s' /\ value_start c = true).
  { intros k s (H1 & H2 & _). destruct k as [|c k]; [done|]. exists c, (k +:+ s). split; [done|]. destruct H1 as [H1 _]. revert H1. chars c. }
  destruct 1; try (eexists _, _; split; [reflexivity|done]); eauto.
  - destruct (Hk k "" H) as (c & s & E & ?). rewrite sapp_nil in E. eauto.
  - destruct (Hd t x "" H) as (c & s & E & ?). rewrite sapp_nil in E. eauto.
Qed.

Notation more_args := (seq [Lit ","; Star (Call RWhitespace); Call RValue]).
Definition args_read (ds : list Definition_) (t : string) : Prop :=
  match ds with
  | [] => t = ""
  | d :: ds' => exists p t1 ps t2, t = t1 +:+ t2 /\ (exists c s, t1 = String c s /\ value_start c = true) /\
      read_value_def p = Ok d /\ each read_value_def ps = Ok ds' /\
      forall r, parsesC MC (Call RValue) (t1 +:+ (t2 +:+ (")" +:+ r))) (Match [p] t1 (t2 +:+ (")" +:+ r))) /\
                repeats G MC more_args (t2 +:+ (")" +:+ r)) ps t2 (")" +:+ r)
  end.
Lemma whites_parse w r : all white w -> stops white r -> parsesC MC (Star (Call RWhitespace)) (w +:+ r) (Match [] w r).
Proof.
  intros Hw Hr. apply repeats_star; [done|]. induction w as [|c w IH].
  - apply repeats_end; [done|]. eapply parses_silent; [reflexivity|]. by apply white_no.
  - destruct Hw as [Hc Hw]. refine (repeats_more G MC _ _ [] (String c "") _ [] w r ltac:(done) _ (IH Hw)).
    eapply parses_silent; [reflexivity|]. by apply parses_white.
Qed.
Lemma function_var f r : name f -> f <> "var" -> parsesC MC (Call RVar) (f +:+ ("(" +:+ r)) Fail.
Proof.
  intros [Hf Hne] Hv. apply parses_call_no. cbn [css_grammar g_rule css_rule fst snd body_mode seq].
  destruct (strip "var" (f +:+ ("(" +:+ r))) as [q|] eqn:E; [|apply parses_seq_no1; by apply lit_not].
  apply strip_spec in E. rewrite E. eapply seqC_no; [apply parses_lit|]. apply parses_seq_no1, lit_not.
  destruct f as [|a [|b [|c z]]].
  - done.
  - rewrite !sapp_cons in E. injection E as -> E. discriminate E.
  - rewrite !sapp_cons in E. injection E as -> -> E. discriminate E.
  - rewrite !sapp_cons in E. injection E as -> -> -> E. change ("" +:+ q) with q in E. subst q.
    destruct z as [|d z]; [done|]. rewrite sapp_cons. destruct Hf as (_ & _ & _ & Hd & _). cbn [strip].
    destruct (Ascii.eqb_spec "(" d) as [<-|]; [discriminate Hd|done].
Qed.
Lemma function_reads f args t : name f -> f <> "var" -> args_read args t -> value_reads (DFunction f args) (f +:+ ("(" +:+ (t +:+ ")"))).
Proof.
  intros Hf Hv Ha.
  assert (Hi : forall r, parsesC MC (Call RIdent) (f +:+ ("(" +:+ r)) (Match [Pair RIdent f []] f ("(" +:+ r))).
  { intros r. by apply ident_parses. }
  destruct args as [|d ds].
  - cbn in Ha. subst t. exists (Pair RFunction (f +:+ "()") [Pair RIdent f []]). split; [reflexivity|]. intros r _. rewrite !sapp_assoc.
    eapply parses_silent; [reflexivity|]. cbn [alt]. apply parses_alt2; [by apply function_var|]. apply parses_alt1.
    eapply parses_normal; [reflexivity|done|]. cbn [alt seq]. apply parses_alt1.
    refine (seqC _ _ _ [_] f _ [] "()" r (Hi _) _). refine (seqC _ _ _ [] "(" _ [] ")" r (parses_lit G MC "(" _) (parses_lit G MC ")" r)).
  - destruct Ha as (p & t1 & ps & t2 & -> & (c & s & Ec & Hc) & Hp & Hps & Hr).
    exists (Pair RFunction (f +:+ ("(" +:+ ((t1 +:+ t2) +:+ ")"))) (Pair RIdent f [] :: p :: ps)). split.
    + cbn [read_value_def]. cbn [each p_text bindR]. rewrite Hp. cbn [bindR]. rewrite Hps. reflexivity.
    + intros r _. rewrite !sapp_assoc.
      eapply parses_silent; [reflexivity|]. cbn [alt]. apply parses_alt2; [by apply function_var|]. apply parses_alt1.
      eapply parses_normal; [reflexivity|done|]. cbn [alt seq]. apply parses_alt2.
      { eapply seqC_no; [apply Hi|]. eapply seqC_no; [apply (parses_lit G MC "(" _)|]. apply lit_not.
        rewrite Ec, sapp_cons. cbn [strip]. destruct (Ascii.eqb_spec ")" c) as [<-|]; [discriminate Hc|done]. }
      destruct (Hr r) as [H1 H2].
      refine (seqC _ _ _ [_] f _ (p :: ps) _ r (Hi _) _).
      refine (seqC _ _ _ [] "(" _ (p :: ps) _ r (parses_lit G MC "(" _) _).
      refine (seqC _ _ _ [_] t1 _ ps _ r H1 _).
      replace ps with (ps ++ []) by apply app_nil_r.
      refine (seqC _ _ _ ps t2 _ [] ")" r _ (parses_lit G MC ")" r)).
      apply repeats_star; [done|]. exact H2.
Qed.

Lemma repeats_eq {R} (g : grammar R) m a s ps t t' r : repeats g m a s ps t r -> t = t' -> repeats g m a s ps t' r.
Proof. by intros H <-. Qed.

Theorem values_read d t : value_text d t -> value_reads d t.
Proof.
  apply (value_text_mut value_reads args_read).
  - apply keyword_reads.
  - apply zero_reads.
  - apply number_reads.
  - apply percent_reads.
  - apply seconds_reads.
  - apply milliseconds_reads.
  - apply length_reads.
  - apply color_reads.
  - apply color_alpha_reads.
  - apply string_reads.
  - apply var_reads.
  - intros. by eapply var_fallback_reads.
  - intros. by apply function_reads.
  - reflexivity.
  - intros d' t' Ht (p & Hp & Hr). exists p, t', [], "". rewrite sapp_nil. split; [done|]. split; [by eapply value_first|].
    split; [done|]. split; [done|]. intros r. split; [by apply Hr|]. apply repeats_end; [done|]. cbn [seq].
    apply parses_seq_no1. by apply lit_not.
  - intros d' t' w d2 ds ts Ht (p & Hp & Hr) Hw _ (p2 & t1 & ps & t2 & -> & (c & s & Ec & Hc) & Hp2 & Hps & Hr2).
    exists p, t', (p2 :: ps), ("," +:+ (w +:+ (t1 +:+ t2))). split; [done|]. split; [by eapply value_first|].
    split; [done|]. split; [cbn; rewrite Hp2; cbn; rewrite Hps; reflexivity|]. intros r. split; [by apply Hr|].
    destruct (Hr2 r) as [K1 K2]. rewrite !sapp_assoc.
    eapply repeats_eq; [refine (repeats_more G MC _ _ [p2] ("," +:+ (w +:+ t1)) _ ps t2 _ ltac:(done) _ K2)|by rewrite !sapp_assoc].
    cbn [seq].
    refine (seqC _ _ _ [] "," _ [p2] _ _ (parses_lit G MC "," _) _).
    refine (seqC _ _ _ [] w _ [p2] _ _ (whites_parse w _ Hw _) K1).
    rewrite Ec, sapp_cons. cbn. revert Hc. clear. chars c.
Qed.
