(** * Declarations are read as written. *)
From Coq Require Import ZArith Lia.
From stdpp Require Import gmap.
From Verif Require Import Str StrFacts Res F32 PropKey Css SpecText SpecKeys SpecSheet Peg CssGrammar ReadCss PegFacts PegLook ResFacts KeyFacts ReadValues.

Notation MN := MNormal.
Lemma seqN a b s pa ta s1 tw s2 pb tb s3 : parsesC MN a s (Match pa ta s1) -> skips G MN s1 tw s2 -> parsesC MN b s2 (Match pb tb s3) ->
  parsesC MN (Seq a b) s (Match (pa ++ pb) (ta +:+ (tw +:+ tb)) s3).
Proof. apply parses_seq. Qed.

(** ** Gaps. *)
Lemma gap_first a : gap a -> a = "" \/ exists c s, a = String c s /\ ((white c = true /\ gap s) \/ c = "/"%char).
Proof. destruct 1 as [|c b Hc Hb|body b _ _]; [by left|right; exists c, b; split; [done|by left]|right]. exists "/"%char, ("*" +:+ (body +:+ ("*/" +:+ b))). split; [reflexivity|]. right. reflexivity. Qed.
Lemma gap_app a b : gap a -> gap b -> gap (a +:+ b).
Proof.
  induction 1 as [|c a Hc Ha IH|body a Hb Ha IH]; intros H; [done| |].
  - rewrite sapp_cons. constructor; [done|]. by apply IH.
  - rewrite !sapp_assoc. constructor; [done|]. by apply IH.
Qed.
Lemma white_gap c : white c = true -> gap (String c "").
Proof. intros H. constructor; [done|constructor]. Qed.

(** The text after a part: a gap and one of some characters. *)
Definition then_one (p : ascii -> bool) (r : string) : Prop := exists a c q, r = a +:+ String c q /\ gap a /\ p c = true.
Lemma then_one_gap p a r : gap a -> then_one p r -> then_one p (a +:+ r).
Proof. intros Ha (b & c & q & -> & Hb & Hc). exists (a +:+ b), c, q. split; [by rewrite sapp_assoc|]. split; [by apply gap_app|done]. Qed.
Lemma then_one_here (p : ascii -> bool) c q : p c = true -> then_one p (String c q).
Proof. intros H. exists "", c, q. split; [done|]. split; [constructor|done]. Qed.
Lemma then_one_impl (p q : ascii -> bool) r : (forall c, p c = true -> q c = true) -> then_one p r -> then_one q r.
Proof. intros H (a & c & z & -> & Ha & Hc). exists a, c, z. eauto. Qed.
(** Its first character is one of them, white or a slash. *)
Lemma then_one_first p r : then_one p r -> exists c q, r = String c q /\ ((white c = true /\ then_one p q) \/ c = "/"%char \/ p c = true).
Proof.
  intros (a & c & q & -> & Ha & Hc). destruct (gap_first a Ha) as [->|(d & s & -> & [[Hd Hs]| ->])].
  - exists c, q. split; [done|tauto].
  - exists d, (s +:+ String c q). split; [done|]. left. split; [done|]. by exists s, c, q.
  - exists "/"%char, (s +:+ String c q). split; [reflexivity|]. tauto.
Qed.
Lemma then_one_stops p (q : ascii -> bool) r : then_one p r ->
  (forall c, white c || Ascii.eqb c "/" || p c = true -> q c = false) -> stops q r.
Proof.
  intros H Hq. destruct (then_one_first p r H) as (c & z & -> & [[Hc _]|[->|Hc]]); cbn; apply Hq; [by rewrite Hc|done|].
  rewrite Hc. by rewrite orb_true_r.
Qed.

(** ** Repetitions with gaps. *)
(** The tail of a repetition after a part, as a repetition of its own after the gap. *)
Lemma repeats_skip_star (e : cexp) s ps t r : repeats G MN e s ps t r ->
  exists tw s1 t' r', skips G MN s tw s1 /\ parsesC MN (Star e) s1 (Match ps t' r') /\ (r' = r \/ (r = s /\ r' = s1)).
Proof.
  destruct 1 as [s tw s1 Hs Ha|s tw s1 ps t s2 ps' t' s3 Hs Ha H].
  - exists tw, s1, "", s1. split; [done|]. split; [by apply parses_star_no|]. by right.
  - exists tw, s1, (t +:+ t'), s3. split; [done|]. split; [by eapply parses_star|]. by left.
Qed.
Lemma skips_fun m s t r t' r' : skips G m s t r -> skips G m s t' r' -> t = t' /\ r = r'.
Proof.
  destruct m; cbn; [|intros [-> ->] [-> ->]; done..]. intros [ps H] [ps' H']. pose proof (parses_fun _ _ _ _ _ _ H H') as E. by injection E.
Qed.

(** [e ~ f*] in front of a gap and a firm text. *)
Lemma seq_star_rest (e f : cexp) s pe te s1 ps t a z : firm z -> gap a ->
  parsesC MN e s (Match pe te s1) -> repeats G MN f s1 ps t (a +:+ z) ->
  exists t' r' a', parsesC MN (Seq e (Star f)) s (Match (pe ++ ps) t' r') /\ skips G MN r' a' z.
Proof.
  intros Hz Ha He Hr. pose proof (gap_skips a z Ha Hz) as Hsk.
  destruct (repeats_skip_star f s1 ps t (a +:+ z) Hr) as (tw & s2 & t' & r' & H1 & H2 & H3).
  pose proof (seqN e (Star f) s pe te s1 tw s2 ps t' r' He H1 H2) as K.
  destruct H3 as [->|[E ->]]; [eexists _, _, _; split; [exact K|exact Hsk]|]. subst s1. destruct (skips_fun _ _ _ _ _ _ H1 Hsk) as [_ ->].
  eexists _, _, _. split; [exact K|by apply firm_skips].
Qed.

(** Lists separated by commas. *)
Inductive listed {A} (item : A -> string -> Prop) : list A -> string -> Prop :=
| listed_last x t : item x t -> listed item [x] t
| listed_next x t a b xs ts : item x t -> gap a -> gap b -> listed item xs ts ->
    listed item (x :: xs) (t +:+ (a +:+ ("," +:+ (b +:+ ts)))).

Section comma.
  Context {A : Type} (item : A -> string -> Prop) (rule : CssRule) (rd : cpair -> res A) (fin : ascii).
  Context (Hfin : firm (String fin "")) (Hcomma : Ascii.eqb "," fin = false).
  Definition comma_or (c : ascii) : bool := Ascii.eqb c "," || Ascii.eqb c fin.
  Context (Hitem : forall x t, item x t -> firm t /\ t <> "" /\ exists p, rd p = Ok x /\
    forall r, then_one comma_or r -> parsesC MN (Call rule) (t +:+ r) (Match [p] t r)).
  Notation more := (Seq (Lit ",") (Call rule)).

  Lemma listed_tail xs t : listed item xs t -> exists x xs' p ps t1 t2, xs = x :: xs' /\ t = t1 +:+ t2 /\ firm t1 /\ t1 <> "" /\
    rd p = Ok x /\ each rd ps = Ok xs' /\
    forall a q, gap a -> let r := a +:+ String fin q in
      parsesC MN (Call rule) (t1 +:+ (t2 +:+ r)) (Match [p] t1 (t2 +:+ r)) /\
      repeats G MN more (t2 +:+ r) ps t2 r.
  Proof.
    induction 1 as [x t Ht|x t a b xs ts Ht Ha Hb _ (x' & xs' & p' & ps & t1 & t2 & -> & -> & F1 & N1 & Hp' & Hps & IH)].
    - destruct (Hitem x t Ht) as (F & N & p & Hp & Hr). exists x, [], p, [], t, "". rewrite sapp_nil.
      repeat (split; [done|]). intros a q Ha r. change ("" +:+ r) with r. unfold r. split.
      + apply Hr. apply then_one_gap; [done|]. apply then_one_here. unfold comma_or. rewrite Ascii.eqb_refl. by destruct (Ascii.eqb fin ",").
      + eapply rep_end; [by apply gap_skips|]. apply parses_seq_no1, lit_not. cbn [strip]. by rewrite Hcomma.
    - destruct (Hitem x t Ht) as (F & N & p & Hp & Hr). exists x, (x' :: xs'), p, (p' :: ps), t, (a +:+ ("," +:+ (b +:+ (t1 +:+ t2)))).
      split; [done|]. split; [done|]. split; [done|]. split; [done|]. split; [done|]. split; [cbn; rewrite Hp'; cbn; rewrite Hps; done|].
      intros a' q Ha' r. destruct (IH a' q Ha') as [K1 K2]. fold r in K1, K2. rewrite !sapp_assoc. split.
      + apply Hr. apply then_one_gap; [done|]. by apply then_one_here.
      + eapply repeats_eq; [refine (rep_more G MN more _ a _ [p'] ("," +:+ (b +:+ t1)) _ ps t2 _ _ _ K2)|by rewrite !sapp_assoc].
        * by apply gap_skips.
        * eapply (seqN _ _ _ [] "," _ b _ [p'] t1 _); [apply parses_lit| |exact K1].
          apply gap_skips; [done|]. by destruct t1.
  Qed.
  Lemma listed_parses xs t : listed item xs t -> exists ps, each rd ps = Ok xs /\ forall a q, gap a ->
    exists t' r' a', parsesC MN (Seq (Call rule) (Star more)) (t +:+ (a +:+ String fin q)) (Match ps t' r') /\ skips G MN r' a' (String fin q).
  Proof.
    intros H. destruct (listed_tail xs t H) as (x & xs' & p & ps & t1 & t2 & -> & -> & F1 & N1 & Hp & Hps & Hr). exists (p :: ps).
    split; [cbn; rewrite Hp; cbn; rewrite Hps; done|]. intros a q Ha. destruct (Hr a q Ha) as [K1 K2]. rewrite sapp_assoc.
    exact (seq_star_rest (Call rule) more _ [p] t1 _ ps t2 a (String fin q) Hfin Ha K1 K2).
  Qed.
End comma.

(** Items one after the other with gaps after each. *)
Inductive gapped {A} (item : A -> string -> Prop) : list A -> string -> Prop :=
| gapped_none : gapped item [] ""
| gapped_next x t a xs ts : item x t -> gap a -> gapped item xs ts -> gapped item (x :: xs) (t +:+ (a +:+ ts)).

Section gaps.
  Context {A : Type} (item : A -> string -> Prop) (e : cexp) (rd : cpair -> res A).
  Context (Hitem : forall x t, item x t -> firm t /\ t <> "" /\ forall r, exists p, rd p = Ok x /\ parsesC MN e (t +:+ r) (Match [p] t r)).

  Lemma gapped_first xs t r : gapped item xs t -> firm r -> firm (t +:+ r).
  Proof.
    destruct 1 as [|x t a xs ts Ht _ _]; [done|]. intros _. destruct (Hitem x t Ht) as (F & N & _). destruct t as [|c t]; [done|]. exact F.
  Qed.
  Lemma gapped_repeats xs t : gapped item xs t ->
    forall b r, gap b -> firm r -> parsesC MN e r Fail -> exists ps, each rd ps = Ok xs /\
    exists t' a', gap a' /\ repeats G MN e (b +:+ (t +:+ r)) ps t' (a' +:+ r).
  Proof.
    induction 1 as [|x t a xs ts Ht Ha Hts IH]; intros b r Hb Hr He.
    - exists []. split; [done|]. exists "", b. split; [done|]. change ("" +:+ r) with r.
      eapply rep_end; [by apply gap_skips|done].
    - destruct (IH a r Ha Hr He) as (ps & Hps & t' & a' & Ha' & K).
      destruct (Hitem x t Ht) as (F & N & Hpr). destruct (Hpr (a +:+ (ts +:+ r))) as (p & Hp & Hp').
      exists (p :: ps). split; [cbn; rewrite Hp; cbn; rewrite Hps; done|].
      exists (b +:+ (t +:+ t')), a'. split; [done|].
      rewrite !sapp_assoc. refine (rep_more G MN e _ b _ [p] t _ ps t' _ _ Hp' K). apply gap_skips; [done|]. by destruct t.
  Qed.
  Lemma gapped_parses xs t : gapped item xs t ->
    forall r, firm r -> parsesC MN e r Fail -> exists ps, each rd ps = Ok xs /\
    exists t' a', gap a' /\ parsesC MN (Star e) (t +:+ r) (Match ps t' (a' +:+ r)).
  Proof.
    destruct 1 as [|x t a xs ts Ht Ha Hts]; intros r Hr He.
    - exists []. split; [done|]. exists "", "". split; [constructor|]. by apply parses_star_no.
    - destruct (gapped_repeats xs ts Hts a r Ha Hr He) as (ps & Hps & t' & a' & Ha' & Kr).
      destruct (Hitem x t Ht) as (F & N & Hpr). destruct (Hpr (a +:+ (ts +:+ r))) as (p & Hp & Hp').
      exists (p :: ps). split; [cbn; rewrite Hp; cbn; rewrite Hps; done|].
      exists (t +:+ t'), a'. split; [done|]. rewrite !sapp_assoc.
      exact (parses_star G MN e _ [p] t _ ps t' _ Hp' Kr).
  Qed.
End gaps.

(** ** Shorthands. *)
Definition comma_semicolon (c : ascii) : bool := Ascii.eqb c "," || Ascii.eqb c ";".
Definition shorthand_read (sh : Shorthand) (t : string) : Prop :=
  match sh with
  | [] => False
  | d :: ds => exists p ps t1 t2, t = t1 +:+ t2 /\ (exists c s, t1 = String c s /\ value_start c = true) /\
      read_value_def p = Ok d /\ each read_value_def ps = Ok ds /\
      forall r, then_one comma_semicolon r ->
        parsesC MC (Call RValue) (t1 +:+ (t2 +:+ r)) (Match [p] t1 (t2 +:+ r)) /\
        repeats G MC (seq [Call RWhitespace; Call RValue]) (t2 +:+ r) ps t2 r
  end.
Lemma then_ends r : then_one comma_semicolon r -> ends_value r.
Proof. intros H. eapply then_one_stops; [exact H|]. intros c. chars c. Qed.
Lemma value_no r : then_one comma_semicolon r -> parsesC MC (Call RValue) r Fail.
Proof.
  intros H. destruct (then_one_first _ r H) as (c & q & -> & [[Hc _]|[->|Hc]]); nolook; cbn [next].
  - revert Hc. chars c.
  - reflexivity.
  - revert Hc. chars c.
Qed.
Lemma shorthand_reads sh t : shorthand_text sh t -> shorthand_read sh t.
Proof.
  induction 1 as [d t Ht|d t c ds ts Ht Hc Hds IH].
  - destruct (values_read d t Ht) as (p & Hp & Hr). exists p, [], t, "". rewrite sapp_nil. split; [done|]. split; [by eapply value_first|].
    split; [done|]. split; [done|]. intros r H. split; [apply Hr; by apply then_ends|]. apply repeats_end; [done|]. cbn [seq]. change ("" +:+ r) with r.
    destruct (then_one_first _ r H) as (c & q & -> & [[Hc Hq]|Hc]).
    + eapply seqC_no; [eapply parses_silent; [reflexivity|by apply parses_white]|]. by apply value_no.
    + apply parses_seq_no1. eapply parses_silent; [reflexivity|]. apply white_no. cbn. destruct Hc as [->|Hc]; [done|]. revert Hc. chars c.
  - destruct (values_read d t Ht) as (p & Hp & Hr). destruct ds as [|d2 ds]; [done|]. destruct IH as (p2 & ps & t1 & t2 & -> & (c1 & s1 & E1 & Hc1) & Hp2 & Hps & IH).
    exists p, (p2 :: ps), t, (String c (t1 +:+ t2)). split; [done|]. split; [by eapply value_first|].
    split; [done|]. split; [cbn; rewrite Hp2; cbn; rewrite Hps; done|]. intros r H. destruct (IH r H) as [K1 K2]. split.
    + apply Hr. unfold ends_value. rewrite sapp_cons. cbn. revert Hc. chars c.
    + rewrite sapp_cons, sapp_assoc.
      eapply repeats_eq; [refine (repeats_more G MC _ _ [p2] (String c t1) _ ps t2 _ ltac:(done) _ K2)|done].
      cbn [seq]. refine (seqC _ _ _ [] (String c "") _ [p2] t1 _ _ K1). eapply parses_silent; [reflexivity|]. by apply parses_white.
Qed.
Lemma shorthand_parses sh t : shorthand_text sh t -> firm t /\ t <> "" /\ exists p, read_shorthand p = Ok sh /\
  forall r, then_one comma_semicolon r -> parsesC MN (Call RShorthand) (t +:+ r) (Match [p] t r).
Proof.
  intros H. apply shorthand_reads in H. destruct sh as [|d ds]; [done|]. destruct H as (p & ps & t1 & t2 & -> & (c & s & -> & Hc) & Hp & Hps & Hr).
  split; [rewrite sapp_cons; cbn; revert Hc; chars c|]. split; [done|]. exists (Pair RShorthand (String c s +:+ t2) (p :: ps)). split.
  - unfold read_shorthand. cbn [p_inner each]. rewrite Hp. cbn [bindR]. by rewrite Hps.
  - intros r H. destruct (Hr r H) as [K1 K2]. rewrite sapp_assoc. eapply parses_compound; [reflexivity|]. cbn [seq].
    refine (seqC _ _ _ [p] _ _ ps t2 r K1 _). by apply repeats_star.
Qed.

(** ** Values of a declaration. *)
Lemma values_listed vs t : values_text vs t -> listed shorthand_text vs t.
Proof. induction 1; [by constructor|by constructor]. Qed.
Lemma values_parses vs t : values_text vs t -> exists ps, each read_shorthand ps = Ok vs /\ forall a q, gap a ->
  exists t' r' a', parsesC MN (Call RValues) (t +:+ (a +:+ String ";" q)) (Match [Pair RValues t' ps] t' r') /\ skips G MN r' a' (String ";" q).
Proof.
  intros H. apply values_listed in H.
  destruct (listed_parses shorthand_text RShorthand read_shorthand ";" eq_refl eq_refl shorthand_parses vs t H) as (ps & Hps & K).
  exists ps. split; [done|]. intros a q Ha. destruct (K a q Ha) as (t' & r' & a' & K1 & K2). exists t', r', a'. split; [|done].
  eapply parses_normal; [reflexivity|done|]. exact K1.
Qed.
Lemma listed_start {A} (item : A -> string -> Prop) xs t : (forall x t, item x t -> firm t /\ t <> "") -> listed item xs t -> firm t /\ t <> "".
Proof.
  intros H. destruct 1 as [x t Ht|x t a b xs ts Ht _ _ _]; [by eapply H|]. destruct (H x t Ht) as [H1 H2]. by destruct t.
Qed.

(** ** Declarations. *)
Lemma declares_read p vs ds : declares p vs ds -> forall q t ps, each read_shorthand ps = Ok vs ->
  exists o, read_declaration (Pair RDeclaration q [Pair RProperty p []; Pair RValues t ps]) = Ok o /\ keep [o] = ds.
Proof.
  assert (Hc : forall p, starts_with "--" p = true <-> custom p).
  { intros s. unfold custom. destruct s as [|a [|b s]]; cbn [starts_with].
    - split; [done|]. intros (r & E). discriminate E.
    - rewrite andb_false_r. split; [done|]. intros (r & E). discriminate E.
    - rewrite andb_true_r, andb_true_iff, !Ascii.eqb_eq. split.
      + intros [<- <-]. by exists s.
      + intros (r & E). injection E as -> -> _. done. }
  intros Hd q t ps Hps. unfold read_declaration, first, second. cbn [p_inner head tail unwrap bindR p_text].
  destruct Hd as [p v vs Hp|p k vs Hp Hk|p vs Hp Hk].
  - rewrite (proj2 (Hc p) Hp), Hps. cbn. eauto.
  - destruct (starts_with "--" p) eqn:E; [by apply Hc in E|]. rewrite (proj2 (parse_key_written p k) Hk), Hps. cbn. eauto.
  - destruct (starts_with "--" p) eqn:E; [by apply Hc in E|]. destruct (parse_key p) as [k|] eqn:Ek; [by apply parse_key_written, Hk in Ek|]. eauto.
Qed.
Lemma name_firm c : name_char c = true -> forall s, skips G MN (String c s) "" (String c s).
Proof. intros Hc s. apply firm_skips. cbn. revert Hc. chars c. Qed.

Lemma word_parses p r b r' : all name_char p -> (2 <= String.length p)%nat -> skips G MN r b r' -> stops name_char r' ->
  parsesC MN (Plus (Cls name_char)) (p +:+ r) (Match [] p r).
Proof.
  intros Hp Hl Hr Hs. destruct p as [|x [|y p]]; [cbn in Hl; lia|cbn in Hl; lia|]. destruct Hp as [Hx Hp].
  exact (parses_word_normal G name_char x (String y p) r b r' name_firm Hx Hp ltac:(discriminate) Hr Hs).
Qed.
Lemma firm_app t r : t <> "" -> firm t -> firm (t +:+ r).
Proof. by destruct t. Qed.

(** A declaration read, with what it gives. *)
Lemma declaration_parses ds t : declaration_text ds t -> firm t /\ t <> "" /\ forall r, exists p, (exists o, read_declaration p = Ok o /\ keep [o] = ds) /\
  parsesC MN (Call RDeclaration) (t +:+ r) (Match [p] t r).
Proof.
  intros [p vs ds' tv a b c Hp Hl Hd Hv Ha Hb Hc].
  assert (Hp' : all name_char p) by (exact (all_ext _ _ p letter_or_sign_is Hp)).
  destruct (values_parses vs tv Hv) as (ps & Hps & K).
  assert (Hf : firm tv /\ tv <> "").
  { eapply listed_start; [|by apply values_listed]. intros s t' H. destruct (shorthand_parses s t' H) as (? & ? & _). done. }
  split; [destruct p as [|x p]; [cbn in Hl; lia|]; destruct Hp' as [Hx _]; cbn; revert Hx; chars x|].
  split; [destruct p; [cbn in Hl; lia|done]|]. intros r.
  destruct (K c r Hc) as (t' & r' & a' & K1 & K2). set (whole := p +:+ _).
  exists (Pair RDeclaration whole [Pair RProperty p []; Pair RValues t' ps]). split; [by eapply declares_read|].
  eapply parses_normal; [reflexivity|done|]. cbn [css_rule snd seq].
  assert (Hn : firm (tv +:+ (c +:+ String ";" r))) by (apply firm_app; tauto).
  eapply (parses_as G).
  - eapply (seqN _ _ _ [_] p _ a _ [_]).
    + eapply parses_normal; [reflexivity|done|].
      apply (word_parses p (a +:+ String ":" (b +:+ (tv +:+ (c +:+ String ";" r)))) a (String ":" (b +:+ (tv +:+ (c +:+ String ";" r)))) Hp' Hl); [by apply gap_skips|done].
    + by apply gap_skips.
    + eapply (seqN _ _ _ [] ":" _ b _ [_]); [exact (parses_lit G MN ":" _)|by apply gap_skips|].
      eapply (seqN _ _ _ [_] t' _ a' _ []); [exact K1|exact K2|]. exact (parses_lit G MN ";" r).
  - unfold whole. rewrite !sapp_assoc. reflexivity.
  - reflexivity.
Qed.

(** ** Declarations and blocks. *)
Definition declaration_item (o : option Declaration) (t : string) : Prop := declaration_text (keep [o]) t.
Lemma declarations_gapped ds t : declarations_text ds t -> exists os, keep os = ds /\ gapped declaration_item os t.
Proof.
  induction 1 as [|ds t a ds' ts Ht Ha _ (os & <- & IH)]; [exists []; split; [done|constructor]|].
  destruct (declaration_parses ds t Ht) as (_ & _ & H). destruct (H "") as (p & (o & _ & <-) & _). exists (o :: os).
  split; [by destruct o|]. by constructor.
Qed.
Lemma declaration_items o t : declaration_item o t -> firm t /\ t <> "" /\ forall r, exists p, read_declaration p = Ok o /\
  parsesC MN (Call RDeclaration) (t +:+ r) (Match [p] t r).
Proof.
  intros H. destruct (declaration_parses _ t H) as (H1 & H2 & H3). split; [done|]. split; [done|]. intros r.
  destruct (H3 r) as (p & (o' & Ho & E) & Hp). exists p. split; [|done]. rewrite Ho. destruct o, o'; cbn in E; congruence.
Qed.
Lemma declarations_parse ds t : declarations_text ds t -> forall r, firm r -> parsesC MN (Call RDeclaration) r Fail ->
  firm (t +:+ r) /\ exists p, read_declarations p = Ok ds /\ exists t' a', gap a' /\ parsesC MN (Call RDeclarations) (t +:+ r) (Match [p] t' (a' +:+ r)).
Proof.
  intros H r Hr He. destruct (declarations_gapped ds t H) as (os & Hk & Hg).
  split; [by eapply (gapped_first declaration_item (Call RDeclaration) read_declaration declaration_items)|].
  destruct (gapped_parses declaration_item (Call RDeclaration) read_declaration declaration_items os t Hg r Hr He) as (ps & Hps & t' & a' & Ha & K).
  exists (Pair RDeclarations t' ps). split.
  - unfold read_declarations. cbn [p_inner]. rewrite Hps. cbn. by rewrite Hk.
  - exists t', a'. split; [done|]. eapply parses_normal; [reflexivity|done|]. exact K.
Qed.
Lemma block_parses ds t : block_text ds t -> firm t /\ t <> "" /\ forall r, exists p, (do! d <- first p; read_declarations d) = Ok ds /\
  parsesC MN (Call RDeclarationBlock) (t +:+ r) (Match [p] t r).
Proof.
  intros [ds' td a Ha Hd]. split; [done|]. split; [done|]. intros r.
  destruct (declarations_parse ds' td Hd (String "}" r) ltac:(done)) as (F & p & Hp & t' & a' & Ha' & K); [nolook; reflexivity|].
  set (whole := "{" +:+ _). exists (Pair RDeclarationBlock whole [p]). split; [exact Hp|].
  eapply parses_normal; [reflexivity|done|]. cbn [seq]. eapply (parses_as G).
  - eapply (seqN _ _ _ [] "{" _ a _ [_]); [exact (parses_lit G MN "{" _)|apply gap_skips; [done|exact F]|].
    eapply (seqN _ _ _ [_] t' _ a' _ []); [exact K|by apply gap_skips|]. exact (parses_lit G MN "}" r).
  - unfold whole. rewrite !sapp_assoc. reflexivity.
  - reflexivity.
Qed.
