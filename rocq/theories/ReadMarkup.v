(** * Templates are read as written. *)
From Coq Require Import ZArith Lia.
From stdpp Require Import gmap.
From Verif Require Import Str StrFacts Res Html SpecText SpecTemplate Peg CssGrammar HtmlGrammar ReadCss ReadHtml PegFacts PegLook PegTotal ReadTotal ResFacts.

Notation H := html_grammar.
Notation parsesH := (parses html_grammar).
Notation MN := MNormal.
Notation MC := MCompound.
Notation MA := MAtomic.
Ltac chars c := destruct c as [[] [] [] [] [] [] [] []]; vm_compute; try congruence; reflexivity.

Lemma seqH a b s pa ta s1 tw s2 pb tb s3 : parsesH MN a s (Match pa ta s1) -> skips H MN s1 tw s2 -> parsesH MN b s2 (Match pb tb s3) ->
  parsesH MN (Seq a b) s (Match (pa ++ pb) (ta +:+ (tw +:+ tb)) s3).
Proof. apply parses_seq. Qed.
Lemma seqH_no a b s pa ta s1 tw s2 : parsesH MN a s (Match pa ta s1) -> skips H MN s1 tw s2 -> parsesH MN b s2 Fail -> parsesH MN (Seq a b) s Fail.
Proof. apply parses_seq_no2. Qed.
Lemma sapp_cancel (a b r : string) : a +:+ r = b +:+ r -> a = b.
Proof.
  revert b. induction a as [|x a IH]; intros b E.
  - destruct b as [|y b]; [done|]. apply (f_equal String.length) in E. rewrite !sapp_length in E. cbn in E. lia.
  - destruct b as [|y b].
    + apply (f_equal String.length) in E. rewrite !sapp_length in E. cbn in E. lia.
    + rewrite !sapp_cons in E. injection E as -> E. by rewrite (IH b E).
Qed.
Lemma parses_as {R} (g : grammar R) m e s s' ps t t' r : parses g m e s (Match ps t r) -> s = s' -> s' = t' +:+ r -> parses g m e s' (Match ps t' r).
Proof. intros K <- E. pose proof (parses_text _ _ _ _ _ _ _ K) as E'. rewrite E' in E. apply sapp_cancel in E as <-. done. Qed.

(** ** Gaps. *)
Notation hsolid := (solid "<!--").
Lemma hgap_skips b r : hgap b -> hsolid r -> skips H MN (b +:+ r) b r.
Proof. intros Hb Hr. by eapply (blank_skips H "<!--" "-->"). Qed.
Lemma solid_skips0 r : hsolid r -> skips H MN r "" r.
Proof. intros Hr. exact (hgap_skips "" r (blank_nil _ _) Hr). Qed.
Lemma solid_char c r : white c = false -> c <> "<"%char -> hsolid (String c r).
Proof. intros H1 H2. split; [done|]. cbn [strip]. destruct (Ascii.eqb_spec "<" c) as [<-|]; [done|done]. Qed.
Lemma solid_tag c r : c <> "!"%char -> hsolid (String "<" (String c r)).
Proof. intros H2. split; [done|]. change (strip "<!--" (String "<" (String c r))) with (strip "!--" (String c r)). cbn [strip].
  destruct (Ascii.eqb_spec "!" c) as [<-|]; done. Qed.
Lemma solid_nil : hsolid "".
Proof. done. Qed.
Lemma skips_funH m s t r t' r' : skips H m s t r -> skips H m s t' r' -> t = t' /\ r = r'.
Proof.
  destruct m; cbn; [|intros [-> ->] [-> ->]; done..]. intros [ps K] [ps' K']. pose proof (parses_fun _ _ _ _ _ _ K K') as E. by injection E.
Qed.
Lemma repeats_skip_starH (e : hexp) s ps t r : repeats H MN e s ps t r ->
  exists tw s1 t' r', skips H MN s tw s1 /\ parsesH MN (Star e) s1 (Match ps t' r') /\ (r' = r \/ (r = s /\ r' = s1)).
Proof.
  destruct 1 as [s tw s1 Hs Ha|s tw s1 ps t s2 ps' t' s3 Hs Ha K].
  - exists tw, s1, "", s1. split; [done|]. split; [by apply parses_star_no|]. by right.
  - exists tw, s1, (t +:+ t'), s3. split; [done|]. split; [by eapply parses_star|]. by left.
Qed.
(** After a repetition in front of a gap and a solid text, only blanks are left. *)
Lemma repeats_then (e : hexp) s ps t a z : hsolid z -> hgap a -> repeats H MN e s ps t (a +:+ z) ->
  exists tw s1 t' r' a', skips H MN s tw s1 /\ parsesH MN (Star e) s1 (Match ps t' r') /\ skips H MN r' a' z.
Proof.
  intros Hz Ha Hr. pose proof (hgap_skips a z Ha Hz) as Hsk.
  destruct (repeats_skip_starH e s ps t (a +:+ z) Hr) as (tw & s2 & t' & r' & H1 & H2 & H3).
  destruct H3 as [->|[E ->]]; [eexists _, _, _, _, _; split; [exact H1|]; split; [exact H2|exact Hsk]|]. subst s.
  destruct (skips_funH _ _ _ _ _ _ H1 Hsk) as [_ ->]. eexists _, _, _, _, _. split; [exact H1|]. split; [exact H2|by apply solid_skips0].
Qed.
Lemma repeats_eqH (e : hexp) m s ps t t' r : repeats H m e s ps t r -> t = t' -> repeats H m e s ps t' r.
Proof. by intros K <-. Qed.

(** ** Words. *)
Definition char_rule (r : HtmlRule) (p : ascii -> bool) : Prop :=
  (forall c s, p c = true -> parsesH MA (Call r) (String c s) (Match [] (String c "") s)) /\
  (forall s, stops p s -> parsesH MA (Call r) s Fail).
Lemma chars_repeat r p t z : char_rule r p -> all p t -> stops p z -> repeats H MA (Call r) (t +:+ z) [] t z.
Proof.
  intros [H1 H2]. induction t as [|c t IH]; intros Ht Hz.
  - apply repeats_end; [done|]. by apply H2.
  - destruct Ht as [Hc Ht]. exact (repeats_more H MA _ _ [] (String c "") _ [] t z ltac:(done) (H1 c _ Hc) (IH Ht Hz)).
Qed.
Lemma chars_plus r p t z : char_rule r p -> all p t -> t <> "" -> stops p z -> parsesH MA (Plus (Call r)) (t +:+ z) (Match [] t z).
Proof.
  intros K Ht Hn Hz. destruct t as [|c t]; [done|]. destruct Ht as [Hc Ht].
  exact (parses_seq H MA _ _ _ [] (String c "") (t +:+ z) "" (t +:+ z) [] t z (proj1 K c _ Hc) (conj eq_refl eq_refl)
    (repeats_star H MA _ _ _ _ _ ltac:(done) (chars_repeat r p t z K Ht Hz))).
Qed.
Lemma chars_plus_no r p z : char_rule r p -> stops p z -> parsesH MA (Plus (Call r)) z Fail.
Proof. intros K Hz. apply parses_seq_no1. by apply K. Qed.
Lemma cls_rule r p : g_rule H r = (Normal, Cls p) -> char_rule r p.
Proof.
  intros E. split.
  - intros c s Hc. eapply parses_inside; [left; exact E| |done]. by apply parses_cls.
  - intros s Hs. apply parses_call_no. rewrite E. by apply parses_cls_no.
Qed.
Lemma tag_rule : char_rule HTChar tag_char. Proof. by apply cls_rule. Qed.
Lemma key_rule : char_rule HKChar ident_char. Proof. by apply cls_rule. Qed.
(** Rules of the form [!(..) ~ ANY]. *)
Definition matched (o : option (out HtmlRule)) : bool := match o with Some (Match _ _ _) => true | _ => false end.
Definition failed (o : option (out HtmlRule)) : bool := match o with Some Fail => true | _ => false end.
Lemma not_rule r k e (p : ascii -> bool) : g_rule H r = (k, Seq (Not e) Any) -> k = Normal \/ k = Atomic ->
  failed (eval H 20 MA e "") = true ->
  (forall c s, if p c then failed (eval H 20 MA e (String c s)) = true else matched (eval H 20 MA e (String c s)) = true) -> char_rule r p.
Proof.
  intros E Hk H0 H1.
  assert (Hf : forall s, failed (eval H 20 MA e s) = true -> parsesH MA e s Fail).
  { intros s Hs. exists 20%nat. destruct (eval H 20 MA e s) as [[]|]; done. }
  assert (Hno : forall s, stops p s -> parsesH MA (Seq (Not e) Any) s Fail).
  { intros [|c s] Hs.
    - eapply parses_seq_no2; [apply parses_not, Hf; exact H0|done|]. by exists 1%nat.
    - cbn in Hs. specialize (H1 c s). rewrite Hs in H1. apply parses_seq_no1.
      destruct (eval H 20 MA e (String c s)) as [[|ps t r']|] eqn:K; [done| |done]. eapply parses_not_no. exists 20%nat. exact K. }
  split.
  - intros c s Hc. eapply parses_inside; [destruct Hk as [->| ->]; [left|right]; exact E| |done].
    specialize (H1 c s). rewrite Hc in H1.
    exact (parses_seq H MA _ _ _ [] "" _ "" _ [] (String c "") s (parses_not H MA _ _ (Hf _ H1)) (conj eq_refl eq_refl) (parses_any H MA c s)).
  - intros s Hs. apply parses_call_no. rewrite E. cbn [fst snd]. destruct Hk as [->| ->]; by apply Hno.
Qed.
Lemma text_rule : char_rule HSChar text_char.
Proof. eapply not_rule; [reflexivity|by left|reflexivity|]. intros c s. chars c. Qed.
Lemma quoted_rule : char_rule HQuotedChar quoted_char.
Proof. eapply not_rule; [reflexivity|by left|reflexivity|]. intros c s. chars c. Qed.
Lemma name_rule : char_rule HNChar attribute_char.
Proof. eapply not_rule; [reflexivity|by right|reflexivity|]. intros c s. chars c. Qed.
Lemma value_rule s t : all value_char s -> stops value_char t -> (forall q, t <> String "092" q) -> repeats H MA (Call HVChar) (s +:+ t) [] s t.
Proof.
  intros Hs Ht Hb. induction s as [|c s IH].
  - apply repeats_end; [done|]. change ("" +:+ t) with t. exists 20%nat. destruct t as [|c t]; [reflexivity|]. cbn in Ht. specialize (Hb t).
    revert Ht Hb. destruct c as [[] [] [] [] [] [] [] []]; vm_compute; congruence.
  - destruct Hs as [Hc Hs]. refine (repeats_more H MA _ _ [] (String c "") _ [] s t ltac:(done) _ (IH Hs)). rewrite sapp_cons. exists 20%nat. revert Hc. chars c.
Qed.

(** Keys, tags, names, values. *)
Lemma name_sign_is c : name_sign c = ident_char c. Proof. chars c. Qed.
Lemma tag_sign_is c : tag_sign c = tag_char c. Proof. chars c. Qed.
Lemma all_ext p q s : (forall c, p c = q c) -> all p s -> all q s.
Proof. intros E. induction s as [|c s IH]; [done|]. intros [H1 H2]. split; [by rewrite <- E|by apply IH]. Qed.
Lemma key_parses k z : key k -> stops ident_char z -> parsesH MN (Call HKey) (k +:+ z) (Match [Pair HKey k []] k z).
Proof.
  intros [H1 H2] Hz. eapply parses_atomic; [reflexivity|done|]. eapply chars_plus; [apply key_rule| |done|done]. exact (all_ext _ _ k name_sign_is H1).
Qed.
Lemma key_first k z : key k -> hsolid (k +:+ z) /\ exists c q, k = String c q /\ ident_char c = true.
Proof.
  intros [H1 H2]. destruct k as [|c q]; [done|]. destruct H1 as [H1 _]. rewrite name_sign_is in H1. split; [|by exists c, q].
  rewrite sapp_cons. apply solid_char; [revert H1; chars c|intros ->; discriminate H1].
Qed.
Lemma tag_parses t z : all tag_sign t -> t <> "" -> stops tag_char z -> parsesH MN (Call HTag) (t +:+ z) (Match [Pair HTag t []] t z).
Proof.
  intros H1 H2 Hz. eapply parses_atomic; [reflexivity|done|]. eapply chars_plus; [apply tag_rule| |done|done]. exact (all_ext _ _ t tag_sign_is H1).
Qed.
Lemma name_parses n z : attribute_name n -> stops attribute_char z -> parsesH MN (Call HName) (n +:+ z) (Match [Pair HName n []] n z).
Proof. intros [H1 H2] Hz. eapply parses_atomic; [reflexivity|done|]. by eapply chars_plus; [apply name_rule|..]. Qed.

(** ** Binders. *)
(** A text that does not go on with a name. *)
Definition gap_stops (p : ascii -> bool) a z : hgap a -> stops p z -> (forall c, white c = true -> p c = false) -> p "<"%char = false -> stops p (a +:+ z).
Proof. intros Ha Hz Hw Hl. destruct Ha as [|c b Hc Hb|body b Hb1 Hb2]; [done|by apply Hw|exact Hl]. Qed.
Notation dots := (seq [Lit "."; Call HKey]).
Definition keypair (k : string) : hpair := Pair HKey k [].
Lemma path_parses ks t : path_text ks t -> exists k ks' t2, ks = k :: ks' /\ t = k +:+ t2 /\ key k /\
  forall a z, hgap a -> hsolid z -> stops ident_char z -> strip "." z = None ->
    parsesH MN (Call HKey) (k +:+ (t2 +:+ (a +:+ z))) (Match [keypair k] k (t2 +:+ (a +:+ z))) /\
    repeats H MN dots (t2 +:+ (a +:+ z)) (map keypair ks') t2 (a +:+ z).
Proof.
  induction 1 as [k Hk|k a b ks ts Hk Ha Hb _ (k2 & ks' & t2 & -> & -> & Hk2 & IH)].
  - exists k, [], "". rewrite sapp_nil. split; [done|]. split; [done|]. split; [done|]. intros a z Ha Hz Hi Hd. change ("" +:+ ?x) with x. split.
    + apply key_parses; [done|]. apply gap_stops; [done|done| |done]. intros c. chars c.
    + eapply rep_end; [by apply hgap_skips|]. apply parses_seq_no1. by apply parses_lit_no.
  - exists k, (k2 :: ks'), (a +:+ ("." +:+ (b +:+ (k2 +:+ t2)))). split; [done|]. split; [done|]. split; [done|].
    intros a' z Ha' Hz Hi Hd. destruct (IH a' z Ha' Hz Hi Hd) as [K1 K2]. rewrite !sapp_assoc. split.
    + apply key_parses; [done|]. apply gap_stops; [done|done| |done]. intros c. chars c.
    + eapply repeats_eqH; [refine (rep_more H MN dots _ a _ [keypair k2] ("." +:+ (b +:+ k2)) _ (map keypair ks') t2 _ _ _ K2)|by rewrite !sapp_assoc].
      * apply hgap_skips; [done|]. by apply solid_char.
      * cbn [seq]. refine (seqH _ _ _ [] "." _ b _ [keypair k2] k2 _ (parses_lit H MN "." _) (hgap_skips b _ Hb _) K1). by apply key_first.
Qed.
Notation bars := (seq [Lit "|"; Call HTransformer]).
Definition transformer (k : string) : hpair := Pair HTransformer k [Pair HKey k []].
Definition bar_or_brace (z : string) : Prop := exists q, z = String "|" q \/ z = String "}" q.
Lemma bar_solid z : bar_or_brace z -> hsolid z /\ stops ident_char z /\ strip "." z = None /\ strip ":" z = None.
Proof. intros (q & [->| ->]); (split; [by apply solid_char|done]). Qed.
Lemma transformer_parses k z : key k -> bar_or_brace z -> parsesH MN (Call HTransformer) (k +:+ z) (Match [transformer k] k z).
Proof.
  intros Hk Hz. destruct (bar_solid z Hz) as (S1 & S2 & S3 & S4). eapply parses_normal; [reflexivity|done|]. cbn [seq].
  refine (parses_as H MN _ _ _ _ _ k z (seqH _ _ _ [_] k _ "" _ [] "" z (key_parses k z Hk S2) (solid_skips0 z S1) _) eq_refl eq_refl).
  apply parses_star_no. apply parses_seq_no1. by apply parses_lit_no.
Qed.
Lemma pipe_parses ks t r : pipe_text ks t -> bar_or_brace (t +:+ String "}" r) /\ repeats H MN bars (t +:+ String "}" r) (map transformer ks) t (String "}" r).
Proof.
  induction 1 as [|b k ks ts Hb Hk _ [Hz IH]].
  - split; [exists r; by right|]. eapply rep_end; [apply solid_skips0; by apply solid_char|]. apply parses_seq_no1. by apply parses_lit_no.
  - split; [eexists; left; reflexivity|]. rewrite !sapp_assoc.
    eapply repeats_eqH; [refine (rep_more H MN bars _ "" _ [transformer k] ("|" +:+ (b +:+ k)) _ (map transformer ks) ts _ (solid_skips0 _ _) _ IH)|by rewrite ?sapp_assoc].
    + by apply solid_char.
    + cbn [seq]. refine (seqH _ _ _ [] "|" _ b _ [transformer k] k _ (parses_lit H MN "|" _) (hgap_skips b _ Hb _) (transformer_parses k _ Hk Hz)).
      by apply key_first.
Qed.
Lemma pipe_read path ps : foldR binder_part (mkBinder path []) (map transformer ps) = Ok (mkBinder path ps).
Proof.
  change (mkBinder path ps) with (mkBinder path ([] ++ ps)). generalize (@nil string) as acc. induction ps as [|k ps IH]; intros acc.
  - by rewrite app_nil_r.
  - cbn [map foldR]. unfold binder_part at 1, transformer. cbn [p_rule p_text b_path b_pipe bindR]. rewrite IH. by rewrite <- app_assoc.
Qed.
Lemma keys_text ks : map p_text (map keypair ks) = ks.
Proof. induction ks as [|k ks IH]; [done|]. cbn. by rewrite IH. Qed.
Lemma binder_parses m b t : binder_text b t -> (exists q, t = String "{" q) /\ forall r, exists p, p_rule p = HBinder /\ parse_binder p = Ok b /\
  parsesH m (Call HBinder) (t +:+ r) (Match [p] t r).
Proof.
  intros [a path tp c pipe tf Ha Hp Hc Hf]. split; [by eexists|]. intros r.
  destruct (path_parses path tp Hp) as (k & ks & t2 & -> & -> & Hk & K). destruct (pipe_parses pipe tf r Hf) as [Hz K2].
  destruct (bar_solid _ Hz) as (S1 & S2 & S3 & S4). destruct (K c _ Hc S1 S2 S3) as [K1 K1'].
  destruct (repeats_then _ _ _ _ c _ S1 Hc K1') as (tw & s1 & t' & r' & a' & R1 & R2 & R3).
  assert (Hg : parsesH MN (Call HGetter) (k +:+ (t2 +:+ (c +:+ (tf +:+ String "}" r)))) (Match [Pair HGetter (k +:+ (tw +:+ t')) (map keypair (k :: ks))] (k +:+ (tw +:+ t')) r')).
  { eapply parses_normal; [reflexivity|done|]. cbn [seq]. exact (seqH _ _ _ [_] k _ tw _ _ t' r' K1 R1 R2). }
  assert (Sb : hsolid (String "}" r)) by (by apply solid_char).
  destruct (repeats_then _ _ _ _ "" (String "}" r) Sb (blank_nil _ _) K2) as (tw2 & s2 & t3 & r3 & a3 & Q1 & Q2 & Q3).
  destruct (skips_funH _ _ _ _ _ _ Q1 (solid_skips0 _ S1)) as [-> ->].
  set (whole := "{" +:+ _).
  exists (Pair HBinder whole (Pair HGetter (k +:+ (tw +:+ t')) (map keypair (k :: ks)) :: map transformer pipe)).
  split; [done|]. split.
  - unfold parse_binder. cbn [p_inner foldR]. unfold binder_part at 1. cbn [p_rule p_inner bindR b_pipe]. rewrite keys_text. apply pipe_read.
  - eapply parses_nonatomic; [reflexivity|]. cbn [seq]. eapply (parses_as H MN _ (String "{" (a +:+ (k +:+ (t2 +:+ (c +:+ (tf +:+ String "}" r))))))).
    + refine (seqH _ _ _ [] "{" _ a _ (_ :: map transformer pipe) _ r (parses_lit H MN "{" _) (hgap_skips a _ Ha _) _); [by apply key_first|].
      refine (seqH _ _ _ [_] _ r' a' _ (map transformer pipe) _ r Hg R3 _).
      replace (map transformer pipe) with (map transformer pipe ++ []) by apply app_nil_r.
      exact (seqH _ _ _ _ _ _ _ _ [] "}" r Q2 Q3 (parses_lit H MN "}" r)).
    + unfold whole. rewrite !sapp_assoc. reflexivity.
    + reflexivity.
Qed.
