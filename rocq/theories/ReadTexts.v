(** * The texts of templates are read as written. *)
From Coq Require Import ZArith Lia.
From stdpp Require Import gmap.
From Verif Require Import Str StrFacts Res Html SpecText SpecTemplate Peg CssGrammar HtmlGrammar ReadCss ReadHtml PegFacts PegLook PegTotal ReadTotal ResFacts ReadMarkup.

(** ** Lines and indentation. *)
Lemma split_unbroken l : unbroken l -> split_on nl l = [l].
Proof.
  induction l as [|c l IH]; [done|]. intros [Hc Hl]. cbn [split_on]. rewrite (IH Hl). by destruct (Ascii.eqb c nl).
Qed.
Lemma split_broken l s : unbroken l -> split_on nl (l +:+ String nl s) = l :: split_on nl s.
Proof.
  induction l as [|c l IH]; [done|]. intros [Hc Hl]. rewrite sapp_cons. cbn [split_on]. rewrite (IH Hl). by destruct (Ascii.eqb c nl).
Qed.
Lemma split_lines ls s : lines ls s -> split_on nl s = ls.
Proof. induction 1 as [l Hl|l ls s Hl _ IH]; [by apply split_unbroken|]. rewrite (split_broken l s Hl). by rewrite IH. Qed.

Lemma strip_space w r : space w -> strip_ws (w +:+ r) = Some r.
Proof.
  intros Hw. destruct Hw as [n Hn| |n Hn| |n Hn| |]; cbn [bytes fold_right]; rewrite ?sapp_cons; change ("" +:+ r) with r; unfold strip_ws.
  - rewrite nat_ascii_embedding by lia. destruct (Nat.eqb n 32); [done|]. destruct (Nat.leb_spec 9 n); [|lia]. destruct (Nat.leb_spec n 13); [done|lia].
  - reflexivity.
  - destruct Hn as [->| ->]; reflexivity.
  - reflexivity.
  - rewrite !nat_ascii_embedding by lia. change (9 <=? 226)%nat with true. change (226 <=? 13)%nat with false. cbn [Nat.eqb andb orb].
    assert (E : ((Nat.leb 128 n && Nat.leb n 138) || Nat.eqb n 168 || Nat.eqb n 169 || Nat.eqb n 175) = true).
    { destruct Hn as [[K1 K2]|[->|[->| ->]]]; [|done..]. apply Nat.leb_le in K1, K2. by rewrite K1, K2. }
    by rewrite E.
  - reflexivity.
  - reflexivity.
Qed.
Lemma strip_is_space s r : strip_ws s = Some r -> exists w, space w /\ s = w +:+ r.
Proof.
  assert (Hb : forall a n, nat_of_ascii a = n -> String a "" = bytes [n]).
  { intros a n <-. cbn. by rewrite ascii_nat_embedding. }
  assert (Hb2 : forall a b n m, nat_of_ascii a = n -> nat_of_ascii b = m -> String a (String b "") = bytes [n; m]).
  { intros a b n m <- <-. cbn. by rewrite !ascii_nat_embedding. }
  assert (Hb3 : forall a b c n m k, nat_of_ascii a = n -> nat_of_ascii b = m -> nat_of_ascii c = k -> String a (String b (String c "")) = bytes [n; m; k]).
  { intros a b c n m k <- <- <-. cbn. by rewrite !ascii_nat_embedding. }
  Ltac bools := repeat match goal with
    | E : (_ || _) = true |- _ => apply orb_prop in E as [E|E]
    | E : (_ && _) = true |- _ => apply andb_prop in E as [E ?]
    | E : Nat.eqb _ _ = true |- _ => apply Nat.eqb_eq in E
    | E : Nat.leb _ _ = true |- _ => apply Nat.leb_le in E
    end.
  destruct s as [|a s1]; [done|]. unfold strip_ws. cbv zeta.
  destruct (_ || _) eqn:E.
  { injection 1 as <-. exists (String a ""). split; [|done]. bools; [rewrite (Hb a _ E); apply space_space|rewrite (Hb a _ eq_refl); by apply space_control]. }
  destruct s1 as [|b s2]; [done|]. destruct (_ && (_ || _)) eqn:E1.
  { injection 1 as <-. exists (String a (String b "")). split; [|done].
    bools; erewrite (Hb2 a b) by eassumption; apply space_latin; lia. }
  destruct s2 as [|c s3]; [done|]. match goal with |- (if ?x then _ else _) = _ -> _ => destruct x eqn:E2; [|done] end.
  injection 1 as <-. exists (String a (String b (String c ""))). split; [|done].
  bools; first [erewrite (Hb3 a b c) by eassumption|erewrite (Hb3 a b c) by first [eassumption|reflexivity]]; first [apply space_ogham|apply space_math|apply space_ideographic|apply space_quads; lia].
Qed.
Lemma trim_more n m s : (String.length s <= n)%nat -> (String.length s <= m)%nat -> trim_fuel n s = trim_fuel m s.
Proof.
  revert m s. induction n as [|n IH]; intros m s Hn Hm.
  - destruct s; [|cbn in Hn; lia]. by destruct m.
  - destruct m as [|m]; [destruct s; [done|cbn in Hm; lia]|]. cbn [trim_fuel]. destruct (strip_ws s) as [r|] eqn:E; [|done].
    apply strip_is_space in E as (w & Hw & ->). assert (0 < String.length w)%nat by (destruct Hw; cbn; lia). rewrite sapp_length in Hn, Hm. apply IH; lia.
Qed.
Lemma trim_unindented l r : unindented l r -> trim_start l = r.
Proof.
  induction 1 as [r Hr|w l r Hw _ IH].
  - unfold trim_start. destruct (String.length r) as [|n] eqn:E; [done|]. cbn [trim_fuel]. destruct (strip_ws r) as [s|] eqn:K; [|done].
    apply strip_is_space in K as (w & Hw & K). by destruct (Hr w s Hw).
  - unfold trim_start. assert (0 < String.length w)%nat by (destruct Hw; cbn; lia). rewrite sapp_length.
    destruct (String.length w + String.length l)%nat as [|n] eqn:E; [lia|]. cbn [trim_fuel]. rewrite (strip_space w l Hw). rewrite <- IH.
    apply trim_more; lia.
Qed.
Lemma joined last ls ls' l : Forall2 unindented ls ls' ->
  fold_left (add_line last) ls l = l +:+ fold_right String.append "" (map (after_break last) ls').
Proof.
  intros K. revert l. induction K as [|x y ls ls' Hx _ IH]; intros l; [by rewrite sapp_nil|]. cbn [fold_left map fold_right]. rewrite IH.
  unfold add_line. cbv zeta. rewrite (trim_unindented x y Hx). unfold after_break.
  destruct (String.eqb y "") eqn:E; destruct last; cbn [negb orb andb]; rewrite ?sapp_assoc; reflexivity.
Qed.
Lemma says_join last s s' : says last s s' -> join_lines last s = s'.
Proof. intros [s0 l ls ls' Hl Hu]. unfold join_lines. rewrite (split_lines _ _ Hl). exact (joined last ls ls' l Hu). Qed.
Lemma shows_tidy last ss ss' : shows last ss ss' -> keep (map (tidy_span last) ss) = ss'.
Proof.
  induction 1 as [|b ss ss' _ IH|s s' ss ss' Hs Hn _ IH|s ss ss' Hs _ IH]; [done|..]; cbn [map tidy_span]; cbv zeta.
  - cbn [keep]. by rewrite IH.
  - rewrite (says_join _ _ _ Hs). destruct (String.eqb_spec s' "") as [|]; [done|]. cbn [keep]. by rewrite IH.
  - rewrite (says_join _ _ _ Hs). destruct (String.eqb_spec "" "") as [|]; [|done]. cbn [keep]. by rewrite IH.
Qed.

(** Every string says something, and only one thing. *)
Lemma lines_total s : exists l ls, lines (l :: ls) s.
Proof.
  induction s as [|c s (l & ls & IH)]; [exists "", []; by constructor|]. destruct (Ascii.eqb_spec c nl) as [->|Hc].
  - exists "", (l :: ls). exact (more_lines "" (l :: ls) s I IH).
  - assert (Hn : negb (Ascii.eqb c nl) = true) by (by destruct (Ascii.eqb_spec c nl)).
    inversion IH as [l0 Hl E1 E2|l0 ls0 s0 Hl Hs E1 E2]; subst.
    + exists (String c s), []. by constructor.
    + exists (String c l), ls. exact (more_lines (String c l) ls s0 (conj Hn Hl) Hs).
Qed.
Lemma unindented_total s : exists r, unindented s r.
Proof.
  remember (String.length s) as n eqn:E. revert s E. induction (lt_wf n) as [n _ IH]. intros s E.
  destruct (strip_ws s) as [r|] eqn:K.
  - apply strip_is_space in K as (w & Hw & ->). assert (0 < String.length w)%nat by (destruct Hw; cbn; lia). rewrite sapp_length in E.
    destruct (IH (String.length r) ltac:(lia) r eq_refl) as [q Hq]. exists q. by constructor.
  - exists s. constructor. intros w q Hw ->. by rewrite (strip_space w q Hw) in K.
Qed.
Lemma says_spec last s : says last s (join_lines last s).
Proof.
  destruct (lines_total s) as (l & ls & Hl). assert (exists ls', Forall2 unindented ls ls') as [ls' Hu].
  { clear Hl. induction ls as [|x ls [ls' IH]]; [by exists []|]. destruct (unindented_total x) as [y Hy]. exists (y :: ls'). by constructor. }
  pose proof (says_lines last s l ls ls' Hl Hu) as K. by rewrite (says_join _ _ _ K).
Qed.

(** ** Texts of elements. *)
Lemma binder_no m s : strip "{" s = None -> parsesH m (Call HBinder) s Fail.
Proof. intros Hs. apply parses_call_no. apply parses_seq_no1. by apply parses_lit_no. Qed.
Notation span := (alt [Call HBinder; Call HString]).
Lemma string_parses s z : all text_char s -> s <> "" -> stops text_char z -> parsesH MC (Call HString) (s +:+ z) (Match [Pair HString s []] s z).
Proof. intros H1 H2 Hz. eapply parses_atomic; [reflexivity|done|]. by eapply chars_plus; [apply text_rule|..]. Qed.
Lemma spans_parse ss t z : spans_text ss t -> z = "" \/ (exists q, z = String "<" q) ->
  exists ps, each prefetch_span ps = Ok ss /\ repeats H MC span (t +:+ z) ps t z.
Proof.
  intros Hs Hz. induction Hs as [|b t ss ts Hb _ (ps & IH1 & IH2)|s ss ts H1 H2 H3 _ (ps & IH1 & IH2)].
  - exists []. split; [done|]. apply repeats_end; [done|]. change ("" +:+ z) with z. exists 20%nat. destruct Hz as [->|[q ->]]; reflexivity.
  - destruct (binder_parses MC b t Hb) as [_ K]. destruct (K (ts +:+ z)) as (p & K1 & K2 & K3). exists (p :: ps). split.
    + cbn [each]. unfold prefetch_span at 1. rewrite K1, K2. cbn [bindR]. by rewrite IH1.
    + rewrite sapp_assoc. refine (repeats_more H MC _ _ [p] t _ ps ts z ltac:(done) _ IH2). by apply parses_alt1.
  - exists (Pair HString s [] :: ps). split; [cbn [each]; by rewrite IH1|]. rewrite sapp_assoc.
    refine (repeats_more H MC _ _ [_] s _ ps ts z ltac:(done) _ IH2). apply parses_alt2.
    + destruct s as [|c s]; [done|]. destruct H1 as [H1 _]. rewrite sapp_cons. apply binder_no. cbn [strip]. revert H1. unfold text_char.
      destruct (Ascii.eqb_spec "{" c) as [<-|]; done.
    + apply string_parses; [done|done|]. destruct H3 as [->|[q ->]]; [|done]. change ("" +:+ z) with z. by destruct Hz as [->|[q ->]].
Qed.
Lemma text_parses m ss t z : spans_text ss t -> ss <> [] -> z = "" \/ (exists q, z = String "<" q) ->
  exists ps, each prefetch_span ps = Ok ss /\ parsesH m (Call HText) (t +:+ z) (Match [Pair HText t ps] t z).
Proof.
  intros Hs Hn Hz. destruct (spans_parse ss t z Hs Hz) as (ps & K1 & K2). exists ps. split; [done|].
  eapply parses_compound; [reflexivity|]. remember (t +:+ z) as x eqn:Ex. destruct K2 as [s0 tw s1 Hw Ha|s0 tw s1 qs u s2 qs' u' s3 Hw Ha Hr].
  - exfalso. destruct ss; [done|]. cbn in K1. discriminate K1.
  - destruct Hw as [-> ->].
    exact (parses_as H MC _ _ _ _ _ _ _ (parses_seq H MC _ _ _ qs u s2 "" s2 qs' u' s3 Ha (conj eq_refl eq_refl) (repeats_star H MC _ _ _ _ _ ltac:(discriminate) Hr)) eq_refl Ex).
Qed.
