(** * Selectors are read as written. *)
From Coq Require Import ZArith Lia.
From stdpp Require Import gmap.
From Verif Require Import Str StrFacts Res F32 PropKey Css SpecText SpecKeys SpecSheet Peg CssGrammar ReadCss PegFacts PegLook ResFacts KeyFacts ReadValues ReadBlocks.

(** ** Simple selectors. *)
Definition goes_on_name (c : ascii) : bool := ident_char c || Ascii.eqb c "(".
Definition simple_reads (s : Simple) (t : string) : Prop := exists p, read_simple p = Ok s /\
  forall r, stops goes_on_name r -> parsesC MC (Call RSimple) (t +:+ r) (Match [p] t r).
Lemma name_stops r : stops goes_on_name r -> stops ident_char r.
Proof. apply stops_impl. intros c. unfold goes_on_name. intros ->. done. Qed.
Lemma paren_stops r : stops goes_on_name r -> strip "(" r = None.
Proof. destruct r as [|c r]; [done|]. cbn. intros H. destruct c as [[] [] [] [] [] [] [] []]; vm_compute in H |- *; congruence. Qed.
Lemma ident_at n r : name n -> stops ident_char r -> parsesC MC (Call RIdent) (n +:+ r) (Match [Pair RIdent n []] n r).
Proof. intros Hn Hr. by apply ident_parses. Qed.
Lemma named_at x n r : name n -> stops ident_char r ->
  parsesC MC (seq [Lit x; Call RIdent]) (x +:+ (n +:+ r)) (Match [Pair RIdent n []] (x +:+ n) r).
Proof. intros Hn Hr. cbn [seq]. exact (seqC _ _ _ [] x _ [_] n r (parses_lit G MC x _) (ident_at n r Hn Hr)). Qed.

Tactic Notation "simple_at" integer(n) := eapply parses_silent; [reflexivity|]; cbn [alt]; do n (apply parses_alt2; [nolook; reflexivity|]).

Lemma strip_word (p n r : string) : all ident_char n -> all ident_char p -> stops ident_char r -> (forall q, n <> p +:+ q) -> strip p (n +:+ r) = None.
Proof.
  revert n. induction p as [|x p IH]; intros n Hn Hp Hr Hq; [by destruct (Hq n)|].
  destruct n as [|c n].
  - destruct r as [|c r]; [done|]. change ("" +:+ ?z) with z. cbn [strip]. destruct (Ascii.eqb_spec x c) as [->|]; [|done].
    cbn in Hr. destruct Hp as [Hp _]. congruence.
  - rewrite sapp_cons. cbn [strip]. destruct (Ascii.eqb_spec x c) as [->|]; [|done]. apply IH; [apply Hn|apply Hp|done|].
    intros q ->. by apply (Hq q).
Qed.
Lemma matcher_reads m tm : matcher_text m tm -> read_matcher tm = Ok m /\ strip "]" tm = None /\ tm <> "" /\ stops ident_char tm /\ 
  forall r, parsesC MC (Call RMatcher) (tm +:+ r) (Match [Pair RMatcher tm []] tm r).
Proof.
  intros H. split; [by destruct H|]. split; [by destruct H|]. split; [by destruct H|]. split; [by destruct H|]. intros r. exists 12%nat. by destruct H.
Qed.
Lemma condition_reads s t : condition_text s t -> simple_reads s t.
Proof.
  intros [n Hn|n Hn| |n Hn Hr|n Hn|n Hn|n m tm v Hn Hm Hv|n m tm v Hn Hm Hv].
  - exists (Pair RId ("#" +:+ n) [Pair RIdent n []]). split; [reflexivity|]. intros r H. rewrite sapp_assoc. simple_at 1.
    apply parses_alt1. eapply parses_normal; [reflexivity|done|]. apply named_at; [done|by apply name_stops].
  - exists (Pair RClass ("." +:+ n) [Pair RIdent n []]). split; [reflexivity|]. intros r H. rewrite sapp_assoc. simple_at 2.
    apply parses_alt1. eapply parses_normal; [reflexivity|done|]. apply named_at; [done|by apply name_stops].
  - exists (Pair RRoot ":root" []). split; [reflexivity|]. intros r H. simple_at 3. apply parses_alt1.
    eapply parses_normal; [reflexivity|done|]. exact (parses_lit G MC ":root" r).
  - exists (Pair RPseudoClass (":" +:+ n) [Pair RIdent n []]). split; [reflexivity|]. intros r H. rewrite sapp_assoc. simple_at 3.
    apply parses_alt2.
    { apply parses_call_no. cbn [css_grammar g_rule css_rule fst snd body_mode]. apply lit_not. change (strip ":root" (":" +:+ (n +:+ r))) with (strip "root" (n +:+ r)).
      apply strip_word; [exact (all_ext _ _ n name_sign_is (proj1 Hn))|by repeat split|by apply name_stops|exact Hr]. }
    apply parses_alt1. eapply parses_normal; [reflexivity|done|]. cbn [alt]. apply parses_alt2.
    { cbn [seq]. eapply seqC_no; [exact (parses_lit G MC ":" _)|]. eapply seqC_no; [apply ident_at; [done|by apply name_stops]|].
      apply parses_seq_no1, lit_not. by apply paren_stops. }
    apply named_at; [done|by apply name_stops].
  - exists (Pair RPseudoElement ("::" +:+ n) [Pair RIdent n []]). split; [reflexivity|]. intros r H. rewrite sapp_assoc. simple_at 3.
    apply parses_alt2; [apply parses_call_no; cbn [css_grammar g_rule css_rule fst snd body_mode]; by apply lit_not|].
    apply parses_alt2.
    { apply parses_call_no. cbn [css_grammar g_rule css_rule fst snd body_mode alt seq]. apply parses_alt2.
      all: eapply seqC_no; [exact (parses_lit G MC ":" (":" +:+ (n +:+ r)))|].
      1: apply parses_seq_no1.
      all: nolook; reflexivity. }
    apply parses_alt1. eapply parses_normal; [reflexivity|done|]. apply named_at; [done|by apply name_stops].
  - exists (Pair RAttribute ("[" +:+ (n +:+ "]")) [Pair RIdent n []]). split; [reflexivity|]. intros r H. rewrite !sapp_assoc. simple_at 6.
    apply parses_alt1. eapply parses_normal; [reflexivity|done|]. cbn [alt]. apply parses_alt1. cbn [seq].
    refine (seqC _ _ _ [] "[" _ [_] (n +:+ "]") r (parses_lit G MC "[" _) _).
    refine (seqC _ _ _ [_] n _ [] "]" r (ident_at n _ Hn _) (parses_lit G MC "]" r)). done.
  - destruct (matcher_reads m tm Hm) as (M1 & M2 & M3 & M4 & M5). set (whole := "[" +:+ _).
    exists (Pair RAttribute whole [Pair RIdent n []; Pair RMatcher tm []; Pair RIdent v []]). split; [cbn; by rewrite M1|].
    intros r H. unfold whole. rewrite !sapp_assoc. simple_at 6.
    apply parses_alt1. eapply parses_normal; [reflexivity|done|]. cbn [alt].
    assert (Hi : stops ident_char (tm +:+ (v +:+ ("]" +:+ r)))) by (by destruct tm).
    apply parses_alt2; cbn [seq].
    { eapply seqC_no; [exact (parses_lit G MC "[" _)|]. eapply seqC_no; [by apply ident_at|]. apply lit_not.
      destruct tm as [|c tm]; [done|]. rewrite sapp_cons. cbn [strip] in *. by destruct (Ascii.eqb "]" c). }
    refine (seqC _ _ _ [] "[" _ [_; _; _] _ r (parses_lit G MC "[" _) _).
    refine (seqC _ _ _ [_] n _ [_; _] _ r (ident_at n _ Hn Hi) _).
    refine (seqC _ _ _ [_] tm _ [_] _ r (M5 _) _).
    refine (seqC _ _ _ [_] v _ [] "]" r _ _).
    + apply parses_alt2; [|by apply ident_at].
      apply parses_call_no. cbn [css_grammar g_rule css_rule fst snd body_mode seq]. apply parses_seq_no1, lit_not.
      destruct Hv as [V1 V2]. destruct v as [|c v]; [done|]. destruct V1 as [V1 _]. rewrite sapp_cons. unfold quote. cbn [strip].
      destruct (Ascii.eqb_spec "034" c) as [<-|]; [discriminate V1|done].
    + refine (seqC _ _ _ [] "" _ [] "]" r _ (parses_lit G MC "]" r)). apply parses_opt_no. nolook. reflexivity.
  - destruct (matcher_reads m tm Hm) as (M1 & M2 & M3 & M4 & M5). set (whole := "[" +:+ _).
    exists (Pair RAttribute whole [Pair RIdent n []; Pair RMatcher tm []; Pair RString (quotation +:+ (v +:+ quotation)) [Pair RStringLiteral v []]]). split; [cbn; by rewrite M1|].
    intros r H. unfold whole. rewrite !sapp_assoc. simple_at 6.
    apply parses_alt1. eapply parses_normal; [reflexivity|done|]. cbn [alt].
    assert (Hi : stops ident_char (tm +:+ (quotation +:+ (v +:+ (quotation +:+ ("]" +:+ r)))))) by (by destruct tm).
    apply parses_alt2; cbn [seq].
    { eapply seqC_no; [exact (parses_lit G MC "[" _)|]. eapply seqC_no; [by apply ident_at|]. apply lit_not.
      destruct tm as [|c tm]; [done|]. rewrite sapp_cons. cbn [strip] in *. by destruct (Ascii.eqb "]" c). }
    eapply (parses_as G).
    + refine (seqC _ _ _ [] "[" _ [_; _; _] _ r (parses_lit G MC "[" _) _).
      refine (seqC _ _ _ [_] n _ [_; _] _ r (ident_at n _ Hn Hi) _).
      refine (seqC _ _ _ [_] tm _ [_] _ r (M5 _) _).
      refine (seqC _ _ _ [_] _ _ [] "]" r _ _).
      * apply parses_alt1. by apply string_parses.
      * refine (seqC _ _ _ [] "" _ [] "]" r _ (parses_lit G MC "]" r)). apply parses_opt_no. nolook. reflexivity.
    + reflexivity.
    + by rewrite !sapp_assoc.
Qed.

(** ** Compound selectors. *)
Definition plain (s : Simple) : Prop := as_combinator s = None.
Definition starts_condition (c : ascii) : bool := Ascii.eqb c "#" || Ascii.eqb c "." || Ascii.eqb c ":" || Ascii.eqb c "[".
Definition starts_compound (c : ascii) : bool := starts_condition c || Ascii.eqb c "*" || ident_char c.
Definition after_compound (c : ascii) : bool := starts_compound c || Ascii.eqb c "(".
Lemma condition_start s t : condition_text s t -> plain s /\ exists c q, t = String c q /\ starts_condition c = true.
Proof. destruct 1; (split; [done|]); eexists _, _; (split; [reflexivity|done]). Qed.
Lemma conditions_start ss t r : conditions_text ss t -> stops goes_on_name r -> stops goes_on_name (t +:+ r).
Proof.
  destruct 1 as [|s t ss ts H _]; [done|]. destruct (condition_start s t H) as (_ & c & q & -> & Hc). intros _. cbn. revert Hc. chars c.
Qed.
Lemma conditions_plain ss t : conditions_text ss t -> Forall plain ss.
Proof. induction 1 as [|s t ss ts H _ IH]; [constructor|]. apply list.Forall_cons. split; [|done]. by destruct (condition_start s t H). Qed.
Lemma ends_compound_simple r : stops after_compound r -> parsesC MC (Call RSimple) r Fail.
Proof. intros H. destruct r as [|c r]; [nolook; reflexivity|]. nolook. cbn [next]. cbn in H. revert H. chars c. Qed.
Lemma ends_compound_name r : stops after_compound r -> stops goes_on_name r.
Proof. apply stops_impl. intros c. chars c. Qed.
Lemma conditions_repeat ss t : conditions_text ss t -> exists ps, each read_simple ps = Ok ss /\
  forall r, stops after_compound r -> repeats G MC (Call RSimple) (t +:+ r) ps t r.
Proof.
  induction 1 as [|s t ss ts H Hs (ps & Hps & IH)].
  - exists []. split; [done|]. intros r Hr. apply repeats_end; [done|]. by apply ends_compound_simple.
  - destruct (condition_reads s t H) as (p & Hp & K). exists (p :: ps). split; [cbn; rewrite Hp; cbn; by rewrite Hps|].
    intros r Hr. rewrite sapp_assoc. refine (repeats_more G MC _ _ [p] t _ ps ts r ltac:(done) (K _ _) (IH r Hr)).
    eapply conditions_start; [done|]. by apply ends_compound_name.
Qed.
Lemma simple_tag n r : name n -> stops ident_char r -> parsesC MC (Call RSimple) (n +:+ r) (Match [Pair RType_ n [Pair RIdent n []]] n r).
Proof.
  intros Hn Hr. eapply parses_silent; [reflexivity|]. cbn [alt].
  assert (Hf : exists c q, n = String c q /\ ident_char c = true).
  { destruct Hn as [H1 H2]. destruct n as [|c q]; [done|]. exists c, q. split; [done|]. rewrite <- name_sign_is. apply H1. }
  destruct Hf as (c & q & E & Hc).
  do 7 (apply parses_alt2; [rewrite E, sapp_cons; nolook; cbn [next]; revert Hc; clear; chars c|]).
  eapply parses_normal; [reflexivity|done|]. by apply ident_at.
Qed.
Definition compound_reads (ss : list Simple) (t : string) : Prop := exists p, p_rule p = RCompound /\ each read_simple (p_inner p) = Ok ss /\
  forall m r, stops after_compound r -> parsesC m (Call RCompound) (t +:+ r) (Match [p] t r).
Lemma compound_starts ss t : compound_text ss t -> ss <> [] /\ Forall plain ss /\ exists c q, t = String c q /\ starts_compound c = true.
Proof.
  assert (Hor : forall c, starts_condition c = true -> starts_compound c = true) by (intros c; unfold starts_compound; by intros ->).
  destruct 1 as [n ss ts Hn Hs|ss ts Hs|s ss ts Hs].
  - split; [done|]. split; [apply list.Forall_cons; split; [done|by eapply conditions_plain]|].
    destruct Hn as [H1 H2]. destruct n as [|c q]; [done|]. destruct H1 as [H1 _]. rewrite name_sign_is in H1.
    exists c, (q +:+ ts). split; [done|]. unfold starts_compound. rewrite H1. apply orb_true_r.
  - split; [done|]. split; [apply list.Forall_cons; split; [done|by eapply conditions_plain]|]. by exists "*"%char, ts.
  - split; [done|]. split; [by eapply conditions_plain|]. inversion Hs as [|s' t' ss' ts' H Hs']; subst.
    destruct (condition_start s t' H) as (_ & c & q & -> & Hc). exists c, (q +:+ ts'). split; [done|]. by apply Hor.
Qed.
Lemma compound_read ss t : compound_text ss t -> compound_reads ss t.
Proof.
  assert (Hgo : forall s ss p ps t1 t2, read_simple p = Ok s -> each read_simple ps = Ok ss ->
    (forall r, stops after_compound r -> parsesC MC (Call RSimple) (t1 +:+ (t2 +:+ r)) (Match [p] t1 (t2 +:+ r))) ->
    (forall r, stops after_compound r -> repeats G MC (Call RSimple) (t2 +:+ r) ps t2 r) ->
    compound_reads (s :: ss) (t1 +:+ t2)).
  { intros s ss' p ps t1 t2 Hp Hps H1 H2. exists (Pair RCompound (t1 +:+ t2) (p :: ps)). split; [done|]. split.
    - cbn [p_inner each]. rewrite Hp. cbn [bindR]. by rewrite Hps.
    - intros m r Hr. rewrite sapp_assoc. eapply parses_compound; [reflexivity|].
      refine (seqC _ _ _ [p] t1 _ ps t2 r (H1 r Hr) _). apply repeats_star; [done|]. by apply H2. }
  destruct 1 as [n ss ts Hn Hs|ss ts Hs|s ss ts Hs].
  - destruct (conditions_repeat ss ts Hs) as (ps & Hps & K). eapply (Hgo _ _ (Pair RType_ n [Pair RIdent n []]) ps n); [|exact Hps| |exact K]; [reflexivity|].
    intros r Hr. apply simple_tag; [done|]. apply name_stops. eapply conditions_start; [done|]. by apply ends_compound_name.
  - destruct (conditions_repeat ss ts Hs) as (ps & Hps & K). eapply (Hgo _ _ (Pair RAll "*" []) ps "*"); [|exact Hps| |exact K]; [reflexivity|].
    intros r Hr. eapply parses_silent; [reflexivity|]. cbn [alt]. apply parses_alt1. eapply parses_normal; [reflexivity|done|]. exact (parses_lit G MC "*" _).
  - inversion Hs as [|s' t' ss' ts' H Hs']; subst. destruct (conditions_repeat ss ts' Hs') as (ps & Hps & K).
    destruct (condition_reads s t' H) as (p & Hp & Kp). eapply (Hgo _ _ p ps); [done|done| |exact K].
    intros r Hr. apply Kp. eapply conditions_start; [done|]. by apply ends_compound_name.
Qed.

(** ** Complex selectors. *)
Definition joined (acc : Complex) : Complex :=
  match list.last acc with Some l => match as_combinator l with None => [SCombinator " "] | Some _ => [] end | None => [] end.
Definition comma_brace (c : ascii) : bool := Ascii.eqb c "," || Ascii.eqb c "{".
Notation part := (seq [Opt (Call RCombinator); Call RCompound]).
Lemma no_part r : firm r -> stops starts_compound r -> stops (fun c => Ascii.eqb c ">" || Ascii.eqb c "+" || Ascii.eqb c "~") r -> parsesC MN part r Fail.
Proof.
  intros H1 H2 H3. apply (look_no G 30); [by apply firm_unskipped|]. destruct r as [|c r]; [reflexivity|]. cbn [next]. cbn in H1, H2, H3.
  revert H1 H2 H3. destruct c as [[] [] [] [] [] [] [] []]; vm_compute; congruence.
Qed.
Lemma part_plain ss t r : compound_text ss t -> stops after_compound r -> exists p, p_rule p = RCompound /\ each read_simple (p_inner p) = Ok ss /\
  parsesC MN part (t +:+ r) (Match [p] t r).
Proof.
  intros H Hr. destruct (compound_read ss t H) as (p & P1 & P2 & K). exists p. split; [done|]. split; [done|]. cbn [seq].
  destruct (compound_starts ss t H) as (_ & _ & c & q & E & Hc).
  assert (F : firm (t +:+ r)) by (rewrite E, sapp_cons; cbn; revert Hc; clear; chars c).
  refine (seqN _ _ _ [] "" _ "" _ [p] t r _ (firm_skips _ F) (K MN r Hr)). apply parses_opt_no.
  apply (look_no G 30); [by apply firm_unskipped|]. rewrite E, sapp_cons. cbn [next]. revert Hc. clear. chars c.
Qed.
Lemma component_read acc p ss : p_rule p = RCompound -> each read_simple (p_inner p) = Ok ss -> read_component acc p = Ok (acc ++ joined acc ++ ss).
Proof. intros H1 H2. unfold read_component, joined. rewrite H1, H2. cbn [bindR]. destruct (list.last acc) as [l|]; [|done]. by destruct (as_combinator l). Qed.
Lemma joined_after acc ss : ss <> [] -> Forall plain ss -> joined (acc ++ ss) = [SCombinator " "].
Proof.
  intros Hn Hp. unfold joined. destruct (list.last (acc ++ ss)) as [l|] eqn:E.
  - destruct ss as [|s ss] using rev_ind; [done|]. rewrite app_assoc, last_snoc in E. injection E as <-.
    apply Forall_app in Hp as [_ Hp]. apply list.Forall_cons in Hp as [Hp _]. unfold plain in Hp. by rewrite Hp.
  - apply last_None in E. by destruct acc, ss.
Qed.
Lemma joined_combinator acc c : joined (acc ++ [SCombinator c]) = [].
Proof. unfold joined. by rewrite last_snoc. Qed.
(** What follows a compound ends it. *)
Lemma then_ends_compound r : then_one comma_brace r -> stops after_compound r.
Proof. intros H. eapply then_one_stops; [exact H|]. intros c. chars c. Qed.
Lemma combinator_ends c tc r : combinator_text c tc -> stops after_compound (tc +:+ r).
Proof.
  assert (Hg : forall a x q, gap a -> (white x || Ascii.eqb x ">" || Ascii.eqb x "+" || Ascii.eqb x "~" = true) -> stops after_compound (a +:+ String x q)).
  { intros a x q Ha Hx. apply (then_one_stops (fun x => white x || Ascii.eqb x ">" || Ascii.eqb x "+" || Ascii.eqb x "~")).
    - apply then_one_gap; [done|]. by apply then_one_here.
    - intros d. chars d. }
  intros [a x b Ha Hx Hb|a b Ha Hb|a b Ha Hb|a b Ha Hb]; rewrite sapp_assoc.
  - rewrite sapp_cons. apply Hg; [done|]. by rewrite Hx.
  - by apply (Hg a ">"%char).
  - by apply (Hg a "+"%char).
  - by apply (Hg a "~"%char).
Qed.
Definition complex_read_as (c : Complex) (t : string) : Prop := exists p ps t1 t2, t = t1 +:+ t2 /\ (exists x q, t1 = String x q /\ starts_compound x = true) /\
  p_rule p = RCompound /\
  (forall acc, foldR read_component acc (p :: ps) = Ok (acc ++ joined acc ++ c)) /\
  forall r, then_one comma_brace r ->
    (forall m, parsesC m (Call RCompound) (t1 +:+ (t2 +:+ r)) (Match [p] t1 (t2 +:+ r))) /\
    parsesC MN part (t1 +:+ (t2 +:+ r)) (Match [p] t1 (t2 +:+ r)) /\
    repeats G MN part (t2 +:+ r) ps t2 r.
Lemma complex_reads c t : complex_text c t -> complex_read_as c t.
Proof.
  induction 1 as [ss t H|ss t c tc more ts H Hc _ (p2 & ps & t1 & t2 & -> & (x & q & E & Hx) & R2 & F2 & IH)].
  - destruct (compound_read ss t H) as (p & P1 & P2 & K). exists p, [], t, "". rewrite sapp_nil. split; [done|].
    split; [by destruct (compound_starts ss t H) as (_ & _ & ?)|]. split; [done|]. split.
    { intros acc. cbn [foldR]. by rewrite (component_read acc p ss P1 P2). }
    intros r Hr. change ("" +:+ r) with r. pose proof (then_ends_compound r Hr) as Hs. split; [intros m; by apply K|]. split.
    { destruct (part_plain ss t r H Hs) as (p' & _ & _ & K'). pose proof (K MC r Hs) as Kc.
      cbn [seq]. destruct (compound_starts ss t H) as (_ & _ & x & q & E & Hx).
      assert (F : firm (t +:+ r)) by (rewrite E, sapp_cons; cbn; revert Hx; clear; chars x).
      refine (seqN _ _ _ [] "" _ "" _ [p] t r _ (firm_skips _ F) (K MN r Hs)). apply parses_opt_no.
      apply (look_no G 30); [by apply firm_unskipped|]. rewrite E, sapp_cons. cbn [next]. revert Hx. clear. chars x. }
    destruct Hr as (a & d & q & -> & Ha & Hd). eapply rep_end; [apply gap_skips; [done|]|].
    + cbn. revert Hd. chars d.
    + apply no_part; cbn; revert Hd; chars d.
  - destruct (compound_starts ss t H) as (Hne & Hpl & y & z & E1 & Hy).
    destruct (compound_read ss t H) as (p & P1 & P2 & K).
    assert (Hfirst : forall r, stops after_compound r -> (forall m, parsesC m (Call RCompound) (t +:+ r) (Match [p] t r)) /\ parsesC MN part (t +:+ r) (Match [p] t r)).
    { intros r Hr. split; [intros m; by apply K|]. cbn [seq].
      assert (F : firm (t +:+ r)) by (rewrite E1, sapp_cons; cbn; revert Hy; clear; chars y).
      refine (seqN _ _ _ [] "" _ "" _ [p] t r _ (firm_skips _ F) (K MN r Hr)). apply parses_opt_no.
      apply (look_no G 30); [by apply firm_unskipped|]. rewrite E1, sapp_cons. cbn [next]. revert Hy. clear. chars y. }
    assert (Hsep : forall r, firm (t1 +:+ (t2 +:+ r))).
    { intros r. rewrite E, sapp_cons. cbn. revert Hx. clear. chars x. }
    (* a combinator other than the descendant *)
    assert (Hcomb : forall d a b, c = d -> tc = a +:+ String d b -> gap a -> gap b -> d = ">"%char \/ d = "+"%char \/ d = "~"%char ->
      complex_read_as (ss ++ SCombinator c :: more) (t +:+ (tc +:+ (t1 +:+ t2)))).
    { intros d a b -> Htc Ha Hb Hd. exists p, (Pair RCombinator (String d "") [] :: p2 :: ps), t, (tc +:+ (t1 +:+ t2)).
      split; [done|]. split; [by exists y, z|]. split; [done|]. split.
      { intros acc. cbn [foldR]. rewrite (component_read acc p ss P1 P2). cbn [bindR]. unfold read_component at 1. cbn [p_rule p_text bindR].
        cbn [foldR] in F2. rewrite F2. rewrite joined_combinator. f_equal. rewrite <- !app_assoc. done. }
      intros r Hr. destruct (IH r Hr) as (K1 & K2 & K3). rewrite sapp_assoc.
      destruct (Hfirst (tc +:+ ((t1 +:+ t2) +:+ r))) as [F1 F1']; [by eapply combinator_ends|].
      split; [exact F1|]. split; [exact F1'|]. subst tc. rewrite ?sapp_assoc, ?sapp_cons, ?sapp_assoc.
      eapply repeats_eq; [refine (rep_more G MN part _ a _ [_; _] (String d (b +:+ t1)) _ ps t2 _ _ _ K3)|by rewrite ?sapp_assoc, ?sapp_cons, ?sapp_assoc].
      - apply gap_skips; [done|]. by destruct Hd as [->|[->| ->]].
      - cbn [seq]. eapply (parses_as G MN _ (String d (b +:+ (t1 +:+ (t2 +:+ r))))).
        + refine (seqN _ _ _ [_] (String d "") _ b _ [_] t1 _ _ _ (K1 MN)); [|apply gap_skips; [done|apply Hsep]].
          apply parses_opt. eapply parses_normal; [reflexivity|done|]. cbn [any_of]. destruct Hd as [->|[->| ->]]; exists 4%nat; reflexivity.
        + reflexivity.
        + by rewrite ?sapp_cons, ?sapp_assoc. }
    destruct Hc as [a x' b Ha Hx' Hb|a b Ha Hb|a b Ha Hb|a b Ha Hb].
    + exists p, (p2 :: ps), t, ((a +:+ String x' b) +:+ (t1 +:+ t2)).
      split; [done|]. split; [by exists y, z|]. split; [done|]. split.
      { intros acc. cbn [foldR]. rewrite (component_read acc p ss P1 P2). cbn [bindR].
        cbn [foldR] in F2. rewrite F2. rewrite (app_assoc acc), joined_after; [|done|done]. f_equal. rewrite <- !app_assoc. done. }
      intros r Hr. destruct (IH r Hr) as (K1 & K2 & K3). rewrite sapp_assoc.
      destruct (Hfirst ((a +:+ String x' b) +:+ ((t1 +:+ t2) +:+ r))) as [F1 F1'].
      { apply (combinator_ends " "). by constructor. }
      split; [exact F1|]. split; [exact F1'|]. rewrite (sapp_assoc t1).
      refine (rep_more G MN part _ (a +:+ String x' b) _ [_] t1 _ ps t2 _ _ K2 K3). apply gap_skips; [|apply Hsep].
      apply gap_app; [done|]. by constructor.
    + apply (Hcomb ">"%char a b); [reflexivity|reflexivity|done|done|tauto].
    + apply (Hcomb "+"%char a b); [reflexivity|reflexivity|done|done|tauto].
    + apply (Hcomb "~"%char a b); [reflexivity|reflexivity|done|done|tauto].
Qed.
Lemma complex_parses c t : complex_text c t -> firm t /\ t <> "" /\ exists p, read_complex p = Ok c /\
  forall r, then_one comma_brace r -> parsesC MN (Call RComplex) (t +:+ r) (Match [p] t r).
Proof.
  intros H. destruct (complex_reads c t H) as (p & ps & t1 & t2 & -> & (x & q & E & Hx) & _ & Hf & K).
  split; [rewrite E, sapp_cons; cbn; revert Hx; clear; chars x|]. split; [by rewrite E|].
  exists (Pair RComplex (t1 +:+ t2) (p :: ps)). split; [exact (Hf [])|]. intros r Hr. destruct (K r Hr) as (_ & K1 & K2).
  rewrite sapp_assoc. eapply parses_normal; [reflexivity|done|]. exact (parses_star G MN _ _ [p] t1 _ ps t2 r K1 K2).
Qed.
Lemma selectors_listed cs t : selectors_text cs t -> listed complex_text cs t.
Proof. induction 1; [by constructor|by constructor]. Qed.
Lemma selectors_parse cs t : selectors_text cs t -> firm t /\ t <> "" /\ (exists c q, t = String c q /\ starts_compound c = true) /\
  exists ps, each read_complex ps = Ok cs /\ forall a q, gap a ->
  exists t' r' a', parsesC MN (Call RSelectors) (t +:+ (a +:+ String "{" q)) (Match [Pair RSelectors t' ps] t' r') /\ skips G MN r' a' (String "{" q).
Proof.
  intros H. assert (Hl := selectors_listed _ _ H).
  assert (Hs : firm t /\ t <> "").
  { eapply listed_start; [|exact Hl]. intros x y Hx. destruct (complex_parses x y Hx) as (? & ? & _). done. }
  split; [apply Hs|]. split; [apply Hs|]. split.
  { clear -H. destruct H as [c t H|c t a b cs ts H _ _ _]; destruct (complex_reads c t H) as (_ & _ & t1 & t2 & -> & (x & q & -> & Hx) & _); eauto. }
  destruct (listed_parses complex_text RComplex read_complex "{" eq_refl eq_refl complex_parses cs t Hl) as (ps & Hps & K).
  exists ps. split; [done|]. intros a q Ha. destruct (K a q Ha) as (t' & r' & a' & K1 & K2). exists t', r', a'. split; [|done].
  eapply parses_normal; [reflexivity|done|]. exact K1.
Qed.
