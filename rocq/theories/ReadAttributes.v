(** * The attributes of templates are read as written. *)
From Coq Require Import ZArith Lia.
From stdpp Require Import gmap.
From Verif Require Import Str StrFacts Res Html SpecText SpecTemplate Peg CssGrammar HtmlGrammar ReadCss ReadHtml PegFacts PegLook PegTotal ReadTotal ResFacts ReadMarkup ReadTexts.

Lemma parses_to {R} (g : grammar R) m e s ps T t r : parses g m e s (Match ps T r) -> s = t +:+ r -> parses g m e s (Match ps t r).
Proof. intros K E. exact (parses_as g m e s s ps T t r K eq_refl E). Qed.
Lemma gap_app a b : hgap a -> hgap b -> hgap (a +:+ b).
Proof.
  intros Ha Hb. induction Ha as [|c a Hc _ IH|body a Hbody _ IH]; [done| |].
  - rewrite sapp_cons. by apply blank_white.
  - rewrite !sapp_assoc. exact (blank_comment _ _ body _ Hbody IH).
Qed.
Lemma spaced_gap a : spaced a -> hgap a.
Proof. intros [->|(c & b & -> & Hc & Hb)]; [constructor|by apply blank_white]. Qed.
Lemma solid_quote r : hsolid (quotation +:+ r).
Proof. by apply solid_char. Qed.
Lemma binder_solid b t r : binder_text b t -> hsolid (t +:+ r).
Proof. intros Hb. destruct (binder_parses MN b t Hb) as [[q ->] _]. by apply solid_char. Qed.
Lemma binder_strip b t r c : binder_text b t -> c <> "{"%char -> strip (String c "") (t +:+ r) = None.
Proof. intros Hb Hc. destruct (binder_parses MN b t Hb) as [[q ->] _]. rewrite sapp_cons. cbn [strip]. by destruct (Ascii.eqb_spec c "{"). Qed.

(** A sign, a key, the equality sign and the opening quotation mark. *)
Lemma opening_parses sign g k a b v c s2 (e : hexp) pe te r : key k -> hgap g -> hgap a -> hgap b ->
  skips H MN v c s2 -> parsesH MN e s2 (Match pe te r) ->
  exists T, parsesH MN (Seq (Lit sign) (Seq (Call HKey) (Seq (Lit "=") (Seq (Lit quote) e)))) (sign +:+ (g +:+ (k +:+ (a +:+ ("=" +:+ (b +:+ (quotation +:+ v)))))))
    (Match (keypair k :: pe) T r).
Proof.
  intros Hk Hg Ha Hb Hv He. eexists.
  refine (seqH _ _ _ [] sign _ g (k +:+ (a +:+ ("=" +:+ (b +:+ (quotation +:+ v))))) (keypair k :: pe) _ r (parses_lit H MN sign _) (hgap_skips g _ Hg (proj1 (key_first k _ Hk))) _).
  refine (seqH _ _ _ [keypair k] k _ a ("=" +:+ (b +:+ (quotation +:+ v))) pe _ r (key_parses k _ Hk _) (hgap_skips a _ Ha _) _).
  { apply gap_stops; [done|done| |done]. intros x. chars x. }
  { by apply solid_char. }
  refine (seqH _ _ _ [] "=" _ b (quotation +:+ v) pe _ r (parses_lit H MN "=" _) (hgap_skips b _ Hb (solid_quote v)) _).
  exact (seqH _ _ _ [] quote v c s2 pe te r (parses_lit H MN quote v) Hv He).
Qed.

(** A binder and the closing quotation mark. *)
Lemma bound_parses b t e r : binder_text b t -> hgap e -> exists p T, p_rule p = HBinder /\ parse_binder p = Ok b /\
  parsesH MN (Seq (Call HBinder) (Lit quote)) (t +:+ (e +:+ (quotation +:+ r))) (Match [p] T r).
Proof.
  intros Hb He. destruct (binder_parses MN b t Hb) as [_ K]. destruct (K (e +:+ (quotation +:+ r))) as (p & K1 & K2 & K3).
  eexists p, _. split; [done|]. split; [done|].
  exact (seqH _ _ _ [p] t _ e (quotation +:+ r) [] quote r K3 (hgap_skips e _ He (solid_quote r)) (parses_lit H MN quote r)).
Qed.

(** ** Counts. *)
Lemma digit_is c : digit c = is_digit c. Proof. chars c. Qed.
Lemma digits_value d acc : all digit d -> (0 <= acc)%Z -> parse_digits (Z.to_N acc) d = Some (Z.to_N (whole_value acc d)) /\ (0 <= whole_value acc d)%Z.
Proof.
  revert acc. induction d as [|c d IH]; intros acc Hd Hacc; [done|]. destruct Hd as [Hc Hd]. cbn [parse_digits whole_value].
  rewrite <- digit_is, Hc.
  assert (Hv : (0 <= digit_value c)%Z /\ digit_val c = Z.to_N (digit_value c)).
  { unfold digit_value, digit_val. unfold digit, between in Hc. apply andb_prop in Hc as [Hc _]. apply Nat.leb_le in Hc. change (nat_of_ascii "0") with 48%nat in Hc. split; [lia|]. unfold nat_of_ascii in *. lia. }
  destruct Hv as [Hv1 Hv2]. rewrite Hv2. replace (Z.to_N acc * 10 + Z.to_N (digit_value c))%N with (Z.to_N (10 * acc + digit_value c)) by lia.
  apply IH; [done|lia].
Qed.
Lemma counts_parse n d : counts n d -> all digit d /\ match parse_usize d with Some n => n | None => 0%nat end = n.
Proof.
  assert (K : forall c d, all digit (String c d) -> parse_usize (String c d) =
    N.to_nat <$> (if (Z.to_N (whole_value 0 (String c d)) <=? u64_max)%N then Some (Z.to_N (whole_value 0 (String c d))) else None)).
  { intros c d' Hd. unfold parse_usize. f_equal. pose proof (proj1 (digits_value (String c d') 0 Hd ltac:(lia))) as E. change (Z.to_N 0) with 0%N in E.
    unfold parse_u64. destruct Hd as [Hc _].
    replace (match String c d' with String "+" s' => s' | _ => String c d' end) with (String c d'). 2:{ destruct c as [[] [] [] [] [] [] [] []]; try reflexivity. discriminate Hc. }
    cbv zeta. by rewrite E. }
  intros [d' H1 H2 H3| |d' H1 H2].
  - split; [done|]. destruct d' as [|c d']; [done|]. rewrite (K c d' H1). destruct (N.leb_spec (Z.to_N (whole_value 0 (String c d'))) u64_max) as [L|L].
    + change (N.to_nat <$> Some ?x) with (Some (N.to_nat x)). cbn beta iota. lia.
    + exfalso. unfold u64_max in L. lia.
  - done.
  - split; [done|]. destruct d' as [|c d']; [done|]. rewrite (K c d' H1). destruct (N.leb_spec (Z.to_N (whole_value 0 (String c d'))) u64_max) as [L|L]; [|done].
    exfalso. unfold u64_max in L. lia.
Qed.
Lemma digit_solid c r : is_digit c = true -> hsolid (String c r).
Proof. intros Hc. apply solid_char; [revert Hc; chars c|intros ->; discriminate Hc]. Qed.
Lemma count_parses d f z : all digit d -> hgap f -> hsolid z -> stops is_digit z -> d <> "" ->
  parsesH MN (Call HCount) (d +:+ (f +:+ z)) (Match [Pair HCount d []] d (f +:+ z)).
Proof.
  intros Hd Hf Hz Hs Hn. destruct d as [|c d]; [done|]. apply (all_ext _ _ _ digit_is) in Hd as [Hc Hd]. eapply parses_normal; [reflexivity|done|].
  refine (parses_star H MN (Cls is_digit) _ [] (String c "") (d +:+ (f +:+ z)) [] d (f +:+ z) (parses_cls H MN _ c _ Hc) _).
  eapply repeats_cls_normal; [|done|by apply hgap_skips|done]. intros x Hx s. apply solid_skips0. by apply digit_solid.
Qed.

(** ** The spans of a bound attribute. *)
Notation qspan := (alt [Call HBinder; Call HQuotedString]).
Lemma quoted_parses s z : all quoted_char s -> s <> "" -> stops quoted_char z -> parsesH MN (Call HQuotedString) (s +:+ z) (Match [Pair HQuotedString s []] s z).
Proof. intros H1 H2 Hz. eapply parses_atomic; [reflexivity|done|]. by eapply chars_plus; [apply quoted_rule|..]. Qed.
Lemma quoted_no z : stops quoted_char z -> parsesH MN (Call HQuotedString) z Fail.
Proof. intros Hz. apply parses_call_no. eapply chars_plus_no; [apply quoted_rule|done]. Qed.
Lemma qspans_parse ss t r : quoted_spans_text ss t -> exists ps T a, hgap a /\ each parse_span ps = Ok ss /\
  repeats H MN qspan (t +:+ (quotation +:+ r)) ps T (a +:+ (quotation +:+ r)).
Proof.
  induction 1 as [a Ha|a b t ss ts Ha Hb _ (ps & T & e & He & IH1 & IH2)|a c s ss ts Ha Hc Hs Hts _ (ps & T & e & He & IH1 & IH2)].
  - exists [], "", a. split; [done|]. split; [done|]. eapply rep_end; [apply hgap_skips; [done|apply solid_quote]|].
    apply parses_alt2; [by apply binder_no|by apply quoted_no].
  - destruct (binder_parses MN b t Hb) as [_ K]. destruct (K (ts +:+ (quotation +:+ r))) as (p & K1 & K2 & K3). eexists (p :: ps), _, e.
    split; [done|]. split; [cbn [each]; unfold parse_span at 1; rewrite K1, K2; cbn [bindR]; by rewrite IH1|]. rewrite !sapp_assoc.
    refine (rep_more H MN qspan _ a _ [p] t _ ps T _ (hgap_skips a _ Ha (binder_solid b t _ Hb)) _ IH2). by apply parses_alt1.
  - assert (Hsol : hsolid (String c s +:+ (ts +:+ (quotation +:+ r)))).
    { rewrite sapp_cons. apply solid_char; [done|]. destruct Hs as [Hs _]. intros ->. discriminate Hs. }
    eexists (Pair HQuotedString (String c s) [] :: ps), _, e. split; [done|]. split; [cbn [each]; by rewrite IH1|]. rewrite !sapp_assoc.
    refine (rep_more H MN qspan _ a _ [_] (String c s) _ ps T _ (hgap_skips a _ Ha Hsol) _ IH2). apply parses_alt2.
    + apply binder_no. rewrite sapp_cons. cbn [strip]. destruct Hs as [Hs _]. revert Hs. destruct (Ascii.eqb_spec "{" c) as [<-|]; done.
    + apply quoted_parses; [done|done|]. destruct Hts as [->|[q ->]]; done.
Qed.
(** One or more of something, from its repetition. *)
Lemma repeats_plus (e : hexp) s ps T a z : hsolid z -> hgap a -> ps <> [] -> repeats H MN e s ps T (a +:+ z) ->
  exists tw s1 t' r' a', skips H MN s tw s1 /\ parsesH MN (Plus e) s1 (Match ps t' r') /\ skips H MN r' a' z.
Proof.
  intros Hz Ha Hn K. remember (a +:+ z) as x eqn:Ex. destruct K as [s tw s1 Hs He|s tw s1 ps t s2 ps' t' s3 Hs He K]; [done|]. subst s3.
  destruct (repeats_then e s2 ps' t' a z Hz Ha K) as (tw2 & s4 & t4 & r4 & a4 & R1 & R2 & R3).
  eexists tw, s1, _, r4, a4. split; [done|]. split; [|done]. exact (seqH _ _ _ _ _ _ _ _ _ _ _ He R1 R2).
Qed.

(** ** The arguments of a callback. *)
Notation argument := (alt [Call HEvent; Call HBinder; Call HKey]).
Lemma arguments_parse args t r : arguments args t -> exists ps T a, hgap a /\ each parse_argument ps = Ok args /\
  repeats H MN argument (t +:+ (quotation +:+ r)) ps T (a +:+ (quotation +:+ r)).
Proof.
  induction 1 as [a Ha|a ss ts Ha _ (ps & T & e & He & IH1 & IH2)|a b t ss ts Ha Hb _ (ps & T & e & He & IH1 & IH2)|a k ss ts Ha Hk Hts _ (ps & T & e & He & IH1 & IH2)].
  - exists [], "", a. split; [done|]. split; [done|]. eapply rep_end; [apply hgap_skips; [done|apply solid_quote]|].
    apply (look_no H 9); [left; apply solid_skips0; apply solid_quote|reflexivity].
  - eexists (Pair HEvent "$event" [] :: ps), _, e. split; [done|]. split; [cbn [each]; by rewrite IH1|]. rewrite !sapp_assoc.
    refine (rep_more H MN argument _ a _ [_] "$event" _ ps T _ (hgap_skips a _ Ha _) _ IH2); [by apply solid_char|]. apply parses_alt1.
    eapply parses_normal; [reflexivity|done|]. apply (parses_lit H MN "$event").
  - destruct (binder_parses MN b t Hb) as [_ K]. destruct (K (ts +:+ (quotation +:+ r))) as (p & K1 & K2 & K3). eexists (p :: ps), _, e.
    split; [done|]. split; [cbn [each]; unfold parse_argument at 1; rewrite K1, K2; cbn [bindR]; by rewrite IH1|]. rewrite !sapp_assoc.
    refine (rep_more H MN argument _ a _ [p] t _ ps T _ (hgap_skips a _ Ha (binder_solid b t _ Hb)) _ IH2). apply parses_alt2.
    + apply (look_no H 9); [left; apply solid_skips0, (binder_solid b t _ Hb)|]. destruct (binder_parses MN b t Hb) as [[q ->] _]. reflexivity.
    + by apply parses_alt1.
  - eexists (keypair k :: ps), _, e. split; [done|]. split; [cbn [each]; by rewrite IH1|]. rewrite !sapp_assoc.
    destruct (key_first k (ts +:+ (quotation +:+ r)) Hk) as [Hsol (c & q & -> & Hc)].
    refine (rep_more H MN argument _ a _ [_] (String c q) _ ps T _ (hgap_skips a _ Ha Hsol) _ IH2). apply parses_alt2; [|apply parses_alt2].
    + apply parses_call_no. apply parses_lit_no. rewrite sapp_cons. cbn [strip]. destruct (Ascii.eqb_spec "$" c) as [<-|]; [discriminate Hc|done].
    + apply binder_no. rewrite sapp_cons. cbn [strip]. destruct (Ascii.eqb_spec "{" c) as [<-|]; [discriminate Hc|done].
    + apply key_parses; [done|]. destruct ts as [|x ts]; [done|]. change (ident_char x = false). rewrite <- name_sign_is. by eapply Hts.
Qed.

(** ** Attributes. *)
(** What follows the name of an attribute. *)
Definition name_ends (r : string) : Prop :=
  exists c q, r = String c q /\ (white c || Ascii.eqb c ">" || Ascii.eqb c "/" || Ascii.eqb c "=") = true.
(** What follows an attribute. *)
Definition attribute_ends (r : string) : Prop :=
  name_ends r /\ exists a z, r = a +:+ z /\ hgap a /\ hsolid z /\ strip "=" z = None.
Lemma name_stops r : name_ends r -> stops attribute_char r.
Proof. intros (c & q & -> & Hc). cbn [stops]. revert Hc. chars c. Qed.
Lemma spaced_ends a r : spaced a -> name_ends r -> name_ends (a +:+ r).
Proof. intros [->|(c & b & -> & Hc & Hb)] Hr; [done|]. eexists c, _. split; [reflexivity|]. by rewrite Hc. Qed.
Lemma name_first n r : attribute_name n -> name_ends r -> hsolid (n +:+ r).
Proof.
  intros [H1 H2] Hr. destruct n as [|c q]; [done|]. destruct H1 as [H1 H3]. rewrite sapp_cons.
  destruct (Ascii.eqb_spec c "<") as [->|Hc]; [|apply solid_char; [revert H1; chars c|done]].
  destruct q as [|d q].
  - change ("" +:+ r) with r. destruct Hr as (d & q & -> & Hd). apply solid_tag. intros ->. discriminate Hd.
  - rewrite sapp_cons. apply solid_tag. destruct H3 as [H3 _]. intros ->. discriminate H3.
Qed.
(** A name does not begin with the sign of a binding. *)
Definition sign_char (c : ascii) : bool := negb (Ascii.eqb c "*" || Ascii.eqb c "+" || Ascii.eqb c "#" || Ascii.eqb c "@" || Ascii.eqb c "^" || Ascii.eqb c "?" || Ascii.eqb c "!").
Lemma name_no_sign n r c e : attribute_name n -> attribute_char c = false -> parsesH MN (Seq (Lit (String c "")) e) (n +:+ r) Fail.
Proof.
  intros [H1 H2] Hc. destruct n as [|d q]; [done|]. destruct H1 as [H1 _]. apply parses_seq_no1. apply parses_lit_no. rewrite sapp_cons. cbn [strip].
  destruct (Ascii.eqb_spec c d) as [->|]; [|done]. congruence.
Qed.
Lemma name_no_bindings n r : attribute_name n ->
  parsesH MN (Call HRepeatBinding) (n +:+ r) Fail /\ parsesH MN (Call HAliasBinding) (n +:+ r) Fail /\ parsesH MN (Call HTagBinding) (n +:+ r) Fail /\
  parsesH MN (Call HAttributeBinding) (n +:+ r) Fail /\ parsesH MN (Call HCallbackBinding) (n +:+ r) Fail /\ parsesH MN (Call HVisibilityBinding) (n +:+ r) Fail.
Proof.
  intros Hn. repeat split. 1-5: apply parses_call_no; by apply name_no_sign.
  apply parses_call_no. apply parses_seq_no1. apply parses_call_no. destruct Hn as [H1 H2]. destruct n as [|d q]; [done|]. destruct H1 as [H1 _]. rewrite sapp_cons.
  apply parses_alt2; apply parses_lit_no; cbn [strip]; [destruct (Ascii.eqb_spec "?" d) as [<-|]; done|destruct (Ascii.eqb_spec "!" d) as [<-|]; done].
Qed.
Lemma value_solid v r : all value_char v -> no_blank_first v -> hsolid (v +:+ (quotation +:+ r)).
Proof.
  intros Hv [H1 H2]. destruct v as [|c v]; [apply solid_quote|]. split; [rewrite sapp_cons; by eapply H1|].
  assert (K : forall p v, p = p -> (forall r, v <> p +:+ r) -> all (fun c => negb (Ascii.eqb c "034")) p -> strip p (v +:+ (quotation +:+ r)) = None).
  { clear. intros p v _. revert v. induction p as [|x p IH]; intros v Hv Hp; [by destruct (Hv v)|]. destruct Hp as [Hx Hp]. destruct v as [|y v].
    - change ("" +:+ ?x) with x. change (quotation +:+ r) with (String "034" r). cbn [strip]. destruct (Ascii.eqb_spec x "034") as [->|]; done.
    - rewrite sapp_cons. cbn [strip]. destruct (Ascii.eqb_spec x y) as [->|]; [|done]. apply IH; [|done]. intros q ->. by eapply Hv. }
  by apply (K "<!--").
Qed.

Lemma first_char (n : string) x : n <> "" -> exists c q, (n +:+ x) = String c q.
Proof. destruct n as [|c n]; [done|]. intros _. by eexists c, _. Qed.
Lemma name_strip n r c : attribute_name n -> attribute_char c = false -> strip (String c "") (n +:+ r) = None.
Proof.
  intros [H1 H2] Hc. destruct n as [|d q]; [done|]. destruct H1 as [H1 _]. rewrite sapp_cons. cbn [strip].
  destruct (Ascii.eqb_spec c d) as [->|]; [|done]. congruence.
Qed.
Lemma visible_parses s a b c t e r pe te : s = "?" \/ s = "!" -> hgap a -> hgap b ->
  skips H MN (c +:+ (t +:+ (e +:+ (quotation +:+ r)))) c (t +:+ (e +:+ (quotation +:+ r))) ->
  parsesH MN (Seq (Call HBinder) (Lit quote)) (t +:+ (e +:+ (quotation +:+ r))) (Match pe te r) ->
  exists T, parsesH MN (seq [Call HVisible; Lit "="; Lit quote; Call HBinder; Lit quote]) (s +:+ (a +:+ ("=" +:+ (b +:+ (quotation +:+ (c +:+ (t +:+ (e +:+ (quotation +:+ r)))))))))
    (Match (Pair HVisible s [] :: pe) T r).
Proof.
  intros Hs Ha Hb Hc He. eexists. cbn [seq].
  refine (seqH _ _ _ [Pair HVisible s []] s _ a ("=" +:+ (b +:+ (quotation +:+ (c +:+ (t +:+ (e +:+ (quotation +:+ r))))))) pe _ r _ (hgap_skips a _ Ha _) _).
  { eapply parses_normal; [reflexivity|done|]. destruct Hs as [->| ->]; [apply parses_alt1; apply parses_lit|apply parses_alt2; [by apply parses_lit_no|apply parses_lit]]. }
  { by apply solid_char. }
  refine (seqH _ _ _ [] "=" _ b (quotation +:+ (c +:+ (t +:+ (e +:+ (quotation +:+ r))))) pe _ r (parses_lit H MN "=" _) (hgap_skips b _ Hb (solid_quote _)) _).
  exact (seqH _ _ _ [] quote _ c _ pe te r (parses_lit H MN quote _) Hc He).
Qed.

Tactic Notation "close" integer(n) constr(R) hyp(K) :=
  eexists (Pair R _ _); split; [|eapply parses_silent; [reflexivity|]; cbn [alt]; do n (apply parses_alt2; [apply (look_no H 9); [left; apply solid_skips0; by apply solid_char|reflexivity]|]); apply parses_alt1; eapply parses_normal; [reflexivity|done|];
    eapply parses_as; [exact K|rewrite ?sapp_assoc; reflexivity|reflexivity]].

Lemma attribute_parses b t r : attribute_written b t -> attribute_ends r ->
  hsolid (t +:+ r) /\ (exists c q, t = String c q) /\ strip "=" (t +:+ r) = None /\ (forall c, In c [">"; "/"]%char -> strip (String c "") (t +:+ r) = None) /\
  exists p, parse_element_binding p = Ok b /\ parsesH MN (Call HAttribute) (t +:+ r) (Match [p] t r).
Proof.
  intros Hb Hr.
  assert (Hopen : forall c q, t = String c q -> white c = false -> c <> "<"%char -> In c ["+"; "#"; "?"; "!"; "*"; "@"; "^"]%char ->
    hsolid (t +:+ r) /\ (exists c q, t = String c q) /\ strip "=" (t +:+ r) = None /\ (forall c, In c [">"; "/"]%char -> strip (String c "") (t +:+ r) = None)).
  { intros c q -> H1 H2 H3. rewrite sapp_cons. split; [by apply solid_char|]. split; [by eexists _, _|].
    split; [|intros d Hd]; cbn [strip].
    - destruct (Ascii.eqb_spec "=" c) as [<-|]; [|done]. exfalso. cbn in H3. intuition discriminate.
    - destruct (Ascii.eqb_spec d c) as [->|]; [|done]. exfalso. cbn in H3, Hd. destruct Hd as [<-|[<-|[]]]; intuition discriminate. }
  destruct Hb as [n a b c v Hn Ha Hb Hc Hv Hf|n Hn|g k a b c e t d Hg Hk Ha Hb Hc He Ht|g k a b c e t d Hg Hk Ha Hb Hc He Ht|a b c e t d Ha Hb Hc He Ht|a b c e t d Ha Hb Hc He Ht
    |g k a b c n tn f e t d Hg Hk Ha Hb Hc Hn Hf He Ht|g k a b ss t Hg Hk Ha Hb Ht Hne|g k a b args t Hg Hk Ha Hb Ht]; unfold quoted in *.
  Ltac open := match goal with Hopen : context [In _ ["+"; "#"; "?"; "!"; "*"; "@"; "^"]%char] |- _ =>
    destruct (Hopen _ _ eq_refl) as (O1 & O2 & O3 & O4); [done|done|cbn; tauto|]; split; [exact O1|]; split; [exact O2|]; split; [exact O3|]; split; [exact O4|] end.
  - assert (E : name_ends ("=" +:+ (b +:+ (quotation +:+ (c +:+ (v +:+ (quotation +:+ r))))))) by (by eexists _, _).
    pose proof (spaced_ends a _ Ha E) as E2. pose proof (name_first n _ Hn E2) as O1. destruct (name_no_bindings n (a +:+ ("=" +:+ (b +:+ (quotation +:+ (c +:+ (v +:+ (quotation +:+ r))))))) Hn) as (N1 & N2 & N3 & N4 & N5 & N6).
    assert (Hsp : forall x, ("" +:+ (n +:+ (a +:+ ("=" +:+ (b +:+ (quotation +:+ ((c +:+ v) +:+ quotation))))))) +:+ x = n +:+ (a +:+ ("=" +:+ (b +:+ (quotation +:+ (c +:+ (v +:+ (quotation +:+ x)))))))).
    { intros x. change ("" +:+ ?y) with y. by rewrite !sapp_assoc. }
    rewrite Hsp. split; [done|]. split; [exact (first_char n _ (proj2 Hn))|]. split; [apply (name_strip n); [done|done]|]. split; [intros x Hx; apply (name_strip n); [done|cbn in Hx; destruct Hx as [<-|[<-|[]]]; done]|].
    exists (Pair HDoubleQuoted ("" +:+ (n +:+ (a +:+ ("=" +:+ (b +:+ (quotation +:+ ((c +:+ v) +:+ quotation))))))) [Pair HName n []; Pair HValue v []]). split; [done|].
    eapply parses_silent; [reflexivity|]. cbn [alt]. do 6 (apply parses_alt2; [assumption|]). apply parses_alt1.
    eapply parses_normal; [reflexivity|done|]. eapply parses_to; [|symmetry; apply Hsp]. cbn [seq].
    refine (seqH _ _ _ [Pair HName n []] n _ a ("=" +:+ (b +:+ (quotation +:+ (c +:+ (v +:+ (quotation +:+ r)))))) [Pair HValue v []] _ r (name_parses n _ Hn (name_stops _ E2)) (hgap_skips a _ (spaced_gap a Ha) _) _).
    { by apply solid_char. }
    refine (seqH _ _ _ [] "=" _ b (quotation +:+ (c +:+ (v +:+ (quotation +:+ r)))) [Pair HValue v []] _ r (parses_lit H MN "=" _) (hgap_skips b _ Hb (solid_quote _)) _).
    refine (seqH _ _ _ [] quote _ c (v +:+ (quotation +:+ r)) [Pair HValue v []] _ r (parses_lit H MN quote _) (hgap_skips c _ Hc (value_solid v r Hv Hf)) _).
    refine (seqH _ _ _ [Pair HValue v []] v _ "" (quotation +:+ r) [] quote r _ (solid_skips0 _ (solid_quote r)) (parses_lit H MN quote r)).
    eapply parses_atomic; [reflexivity|done|]. apply repeats_star; [done|]. apply value_rule; [done|done|done].
  - destruct Hr as [Hr (a & z & -> & Ha & Hz & Hz2)]. pose proof (name_first n _ Hn Hr) as O1. destruct (name_no_bindings n (a +:+ z) Hn) as (N1 & N2 & N3 & N4 & N5 & N6).
    split; [done|]. split; [destruct (first_char n "" (proj2 Hn)) as (x & q & Ex); rewrite sapp_nil in Ex; by exists x, q|]. split; [apply (name_strip n); [done|done]|]. split; [intros x Hx; apply (name_strip n); [done|cbn in Hx; destruct Hx as [<-|[<-|[]]]; done]|].
    exists (Pair HEmpty n [Pair HName n []]). split; [done|].
    pose proof (name_parses n _ Hn (name_stops _ Hr)) as K.
    eapply parses_silent; [reflexivity|]. cbn [alt]. do 6 (apply parses_alt2; [assumption|]). apply parses_alt2; [|apply parses_alt2].
    + apply parses_call_no. refine (seqH_no _ _ _ [_] n (a +:+ z) a z K (hgap_skips a z Ha Hz) _). apply parses_seq_no1. by apply parses_lit_no.
    + apply parses_call_no. refine (seqH_no _ _ _ [_] n (a +:+ z) a z K (hgap_skips a z Ha Hz) _). apply parses_seq_no1. by apply parses_lit_no.
    + eapply parses_normal; [reflexivity|done|exact K].
  - open. destruct (bound_parses d t e r Ht He) as (p & T & K1 & K2 & K3).
    destruct (opening_parses "+" g k a b (c +:+ (t +:+ (e +:+ (quotation +:+ r)))) c _ _ [p] T r Hk Hg Ha Hb (hgap_skips c _ Hc (binder_solid d t _ Ht)) K3) as [T2 K4].
    close 1 HAliasBinding K4. cbn. by rewrite K2.
  - open. destruct (bound_parses d t e r Ht He) as (p & T & K1 & K2 & K3).
    destruct (opening_parses "#" g k a b (c +:+ (t +:+ (e +:+ (quotation +:+ r)))) c _ _ [p] T r Hk Hg Ha Hb (hgap_skips c _ Hc (binder_solid d t _ Ht)) K3) as [T2 K4].
    close 2 HTagBinding K4. cbn. by rewrite K2.
  - open. destruct (bound_parses d t e r Ht He) as (p & T & K1 & K2 & K3).
    destruct (visible_parses "?" a b c t e r [p] T (or_introl eq_refl) Ha Hb (hgap_skips c _ Hc (binder_solid d t _ Ht)) K3) as [T2 K4].
    close 5 HVisibilityBinding K4. cbn. by rewrite K2.
  - open. destruct (bound_parses d t e r Ht He) as (p & T & K1 & K2 & K3).
    destruct (visible_parses "!" a b c t e r [p] T (or_intror eq_refl) Ha Hb (hgap_skips c _ Hc (binder_solid d t _ Ht)) K3) as [T2 K4].
    close 5 HVisibilityBinding K4. cbn. by rewrite K2.
  - open. destruct (bound_parses d t e r Ht He) as (p & T & K1 & K2 & K3). destruct (counts_parse n tn Hn) as [D1 D2].
    assert (exists c1 s1 f1 T1, skips H MN (c +:+ (tn +:+ (f +:+ (t +:+ (e +:+ (quotation +:+ r)))))) c1 s1 /\ parsesH MN (Call HCount) s1 (Match [Pair HCount tn []] T1 f1) /\
      skips H MN f1 (if String.eqb tn "" then "" else f) (t +:+ (e +:+ (quotation +:+ r)))) as (c1 & s1 & f1 & T1 & C1 & C2 & C3).
    { pose proof (binder_solid d t (e +:+ (quotation +:+ r)) Ht) as Sb. destruct tn as [|x tn].
      - change ("" +:+ ?x) with x. exists (c +:+ f), (t +:+ (e +:+ (quotation +:+ r))), (t +:+ (e +:+ (quotation +:+ r))), "". split; [rewrite <- sapp_assoc; apply hgap_skips; [by apply gap_app|done]|].
        split; [|by apply solid_skips0]. eapply parses_normal; [reflexivity|done|]. apply parses_star_no. apply parses_cls_no.
        destruct (binder_parses MN d t Ht) as [[q ->] _]. done.
      - exists c, (String x tn +:+ (f +:+ (t +:+ (e +:+ (quotation +:+ r))))), (f +:+ (t +:+ (e +:+ (quotation +:+ r)))), (String x tn). split.
        + apply hgap_skips; [done|]. rewrite sapp_cons. apply digit_solid. destruct D1 as [D1 _]. by rewrite <- digit_is.
        + split; [|by apply hgap_skips]. apply count_parses; [done|done|done| |done]. destruct (binder_parses MN d t Ht) as [[q ->] _]. done. }
    destruct (opening_parses "*" g k a b _ c1 _ (Seq (Call HCount) (Seq (Call HBinder) (Lit quote))) (Pair HCount tn [] :: [p]) _ r Hk Hg Ha Hb C1 (seqH _ _ _ [_] _ _ _ _ _ _ _ C2 C3 K3)) as [T2 K4].
    close 0 HRepeatBinding K4. cbn. rewrite K2. cbn. by rewrite D2.
  - open. destruct (qspans_parse ss t r Ht) as (ps & T & e & He & K1 & K2). assert (Hps : ps <> []) by (intros ->; by destruct ss).
    destruct (repeats_plus _ _ ps T e _ (solid_quote r) He Hps K2) as (tw & s1 & t' & r' & a' & R1 & R2 & R3).
    destruct (opening_parses "@" g k a b _ tw _ (Seq (Plus qspan) (Lit quote)) (ps ++ []) _ r Hk Hg Ha Hb R1 (seqH _ _ _ _ _ _ _ _ _ _ _ R2 R3 (parses_lit H MN quote r))) as [T2 K4].
    rewrite app_nil_r in K4. close 3 HAttributeBinding K4. cbn. by rewrite K1.
  - open. destruct (arguments_parse args t r Ht) as (ps & T & e & He & K1 & K2).
    destruct (repeats_then _ _ ps T e _ (solid_quote r) He K2) as (tw & s1 & t' & r' & a' & R1 & R2 & R3).
    destruct (opening_parses "^" g k a b _ tw _ (Seq (Star argument) (Lit quote)) (ps ++ []) _ r Hk Hg Ha Hb R1 (seqH _ _ _ _ _ _ _ _ _ _ _ R2 R3 (parses_lit H MN quote r))) as [T2 K4].
    rewrite app_nil_r in K4. close 4 HCallbackBinding K4. cbn. by rewrite K1.
Qed.
