(** * Templates are read as written: elements and documents. *)
From Coq Require Import ZArith Lia.
From stdpp Require Import gmap.
From Verif Require Import Str StrFacts Res Html SpecText SpecTemplate Peg CssGrammar HtmlGrammar ReadCss ReadHtml PegFacts PegLook PegTotal ReadTotal ResFacts ReadMarkup ReadTexts ReadAttributes.

(** ** The attributes of an element. *)
Definition tag_end (z : string) : Prop := exists c q, z = String c q /\ (c = ">" \/ c = "/")%char.
Lemma tag_end_solid z : tag_end z -> hsolid z /\ name_ends z /\ strip "=" z = None /\ stops attribute_char z /\ stops tag_char z.
Proof.
  intros (c & q & -> & [->| ->]); (split; [by apply solid_char|]); (split; [by eexists _, _|]); done.
Qed.
Lemma name_no z : stops attribute_char z -> parsesH MN (Call HName) z Fail.
Proof. intros Hz. apply parses_call_no. eapply chars_plus_no; [apply name_rule|done]. Qed.
Lemma attribute_no z : tag_end z -> parsesH MN (Call HAttribute) z Fail.
Proof.
  intros Hz. destruct (tag_end_solid z Hz) as (S1 & _ & _ & S4 & _). eapply parses_silent; [reflexivity|]. cbn [alt].
  do 6 (apply parses_alt2; [apply (look_no H 9); [left; by apply solid_skips0|destruct Hz as (c & q & -> & [->| ->]); reflexivity]|]).
  apply parses_alt2; [|apply parses_alt2]; apply parses_call_no; [apply parses_seq_no1| apply parses_seq_no1|]; by apply name_no.
Qed.
Lemma attributes_parse bs t z : attributes_text bs t -> tag_end z ->
  attribute_ends (t +:+ z) /\ stops tag_char (t +:+ z) /\
  exists ps T a, hgap a /\ each parse_element_binding ps = Ok bs /\ repeats H MN (Call HAttribute) (t +:+ z) ps T (a +:+ z).
Proof.
  intros Ht Hz. destruct (tag_end_solid z Hz) as (S1 & S2 & S3 & S4 & S5).
  induction Ht as [a Ha|c a b t bs ts Hc Ha Hb _ (E1 & E2 & ps & T & e & He & IH1 & IH2)].
  - split; [split; [by apply spaced_ends|by exists a, z; split_and!; [|apply spaced_gap|..]]|]. split.
    + destruct Ha as [->|(c & b & -> & Hc & _)]; [done|]. rewrite sapp_cons. change (tag_char c = false). revert Hc. chars c.
    + exists [], "", a. split; [by apply spaced_gap|]. split; [done|]. eapply rep_end; [by apply hgap_skips; [apply spaced_gap|]|]. by apply attribute_no.
  - destruct (attribute_parses b t (ts +:+ z) Hb E1) as (A1 & A2 & A3 & A4 & p & A5 & A6).
    assert (Hg : hgap (String c a)) by (by apply blank_white). rewrite sapp_cons, !sapp_assoc. split; [|split].
    + split; [eexists _, _; split; [reflexivity|]; by rewrite Hc|]. exists (String c a), (t +:+ (ts +:+ z)). split_and!; done.
    + change (tag_char c = false). revert Hc. chars c.
    + eexists (p :: ps), _, e. split; [done|]. split; [cbn [each]; rewrite A5; cbn [bindR]; by rewrite IH1|].
      exact (rep_more H MN (Call HAttribute) (String c a +:+ (t +:+ (ts +:+ z))) (String c a) _ [p] t _ ps T _ (hgap_skips _ _ Hg A1) A6 IH2).
Qed.
(** The attributes after a tag, and what is left in front of the end of the tag. *)
Lemma tagged_parse bs t z : attributes_text bs t -> tag_end z ->
  exists p tw s1 T r' a', parse_element_bindings p = Ok bs /\ skips H MN (t +:+ z) tw s1 /\ parsesH MN (Call HAttributes) s1 (Match [p] T r') /\ skips H MN r' a' z.
Proof.
  intros Ht Hz. destruct (attributes_parse bs t z Ht Hz) as (_ & _ & ps & T & a & Ha & K1 & K2). destruct (tag_end_solid z Hz) as (S1 & _).
  destruct (repeats_then _ _ ps T a z S1 Ha K2) as (tw & s1 & t' & r' & a' & R1 & R2 & R3).
  eexists (Pair HAttributes t' ps), tw, s1, t', r', a'. split; [done|]. split; [done|]. split; [|done]. eapply parses_normal; [reflexivity|done|done].
Qed.

(** ** Tags. *)
Lemma word_eq p u v y z : all p u -> all p v -> stops p y -> stops p z -> u +:+ y = v +:+ z -> u = v.
Proof.
  revert v. induction u as [|c u IH]; intros [|d v] Hu Hv Hy Hz E.
  - done.
  - rewrite sapp_cons in E. change ("" +:+ y) with y in E. subst y. destruct Hv as [Hv _]. cbn in Hy. congruence.
  - rewrite sapp_cons in E. change ("" +:+ z) with z in E. subst z. destruct Hu as [Hu _]. cbn in Hz. congruence.
  - rewrite !sapp_cons in E. injection E as -> E. destruct Hu as [_ Hu], Hv as [_ Hv]. by rewrite (IH v Hu Hv Hy Hz E).
Qed.
Lemma word_prefix p x r u z : all p x -> stops p z -> x +:+ r = u +:+ z -> exists y, u = x +:+ y.
Proof.
  revert u. induction x as [|c x IH]; intros u Hx Hz E; [by exists u|]. destruct Hx as [Hc Hx]. destruct u as [|d u].
  - change ("" +:+ z) with z in E. subst z. rewrite sapp_cons in Hz. change (p c = false) in Hz. congruence.
  - rewrite !sapp_cons in E. injection E as -> E. destruct (IH u Hx Hz E) as [y ->]. by exists y.
Qed.
Lemma small_lower c : small c = lower c. Proof. chars c. Qed.
Lemma lower_tag c d : lower c = lower d -> tag_char c = tag_char d.
Proof. intros E. assert (K : forall c, tag_char c = tag_char (lower c)) by (intros x; chars x). by rewrite (K c), (K d), E. Qed.
Lemma istrip_same v s x r : istrip v s = Some (x, r) -> same_letters v x.
Proof.
  revert s x. induction v as [|a v IH]; intros s x; cbn [istrip]; [by injection 1 as <- _|]. destruct s as [|b s]; [done|].
  destruct (Ascii.eqb_spec (lower a) (lower b)) as [E|]; [|done]. destruct (istrip v s) as [[t q]|] eqn:K; [|done]. injection 1 as <- <-.
  split; [by rewrite !small_lower|]. by eapply IH.
Qed.
Lemma istrip_tag v t z : same_letters v t -> istrip v (t +:+ z) = Some (t, z).
Proof.
  revert t. induction v as [|a v IH]; intros [|b t] K; try done. destruct K as [K1 K2]. rewrite !small_lower in K1. rewrite sapp_cons. cbn [istrip].
  rewrite (IH t K2). by destruct (Ascii.eqb_spec (lower a) (lower b)).
Qed.
Lemma istrip_other u v t z : same_letters v t -> istrip u (v +:+ z) = None -> istrip u (t +:+ z) = None.
Proof.
  revert v t. induction u as [|a u IH]; intros v t K E; [done|]. destruct v as [|b v], t as [|c t]; try done. destruct K as [K1 K2].
  assert (K3 : lower b = lower c) by (rewrite <- !small_lower; exact K1).
  rewrite sapp_cons in E. rewrite sapp_cons. cbn [istrip] in E |- *. rewrite <- K3.
  destruct (Ascii.eqb (lower a) (lower b)); [|done]. destruct (istrip u (v +:+ z)) as [[]|] eqn:F; [done|]. by rewrite (IH v t K2 F).
Qed.
Lemma same_tag v t : same_letters v t -> all tag_char v -> all tag_char t.
Proof.
  revert t. induction v as [|a v IH]; intros [|b t] K; try done. intros [H1 H2]. destruct K as [K1 K2]. rewrite !small_lower in K1.
  split; [by rewrite <- (lower_tag a b K1)|by apply IH].
Qed.
Lemma void_names v : In v void_elements -> all tag_char v /\ v <> "".
Proof. intros Hv. cbn in Hv. repeat (destruct Hv as [<-|Hv]; [done|]). done. Qed.
Lemma void_is_tag t : void_tag t -> all tag_char t /\ t <> "" /\ t <> "script".
Proof.
  intros (v & Hv & K). destruct (void_names v Hv) as [K1 K2]. split; [by eapply same_tag|]. split; [intros ->; by destruct v|]. intros ->.
  cbn in Hv. repeat (destruct Hv as [<-|Hv]; [cbn in K; revert K; vm_compute; intuition discriminate|]). done.
Qed.
Lemma void_parses t z : void_tag t -> parsesH MN (Call HVoidTag) (t +:+ z) (Match [Pair HVoidTag t []] t z).
Proof.
  intros (v & Hv & K). eapply parses_normal; [reflexivity|done|]. cbn [alt map void_tags]. cbn in Hv.
  repeat (destruct Hv as [<-|Hv];
    [repeat (apply parses_alt2; [apply parses_ilit_no; eapply istrip_other; [exact K|reflexivity]|]); first [apply parses_alt1; apply parses_ilit; by apply istrip_tag|apply parses_ilit; by apply istrip_tag]|]). done.
Qed.
Lemma void_no t z : all tag_char t -> (forall x y, t = x +:+ y -> ~ void_tag x) -> stops tag_char z -> parsesH MN (Call HVoidTag) (t +:+ z) Fail.
Proof.
  intros Ht Hn Hz. assert (Hf : forall v, In v void_elements -> parsesH MN (ILit v) (t +:+ z) Fail).
  { intros v Hv. apply parses_ilit_no. destruct (istrip v (t +:+ z)) as [[x r]|] eqn:E; [|done]. exfalso. destruct (istrip_text _ _ _ _ E) as [E1 _].
    apply istrip_same in E. destruct (word_prefix tag_char x r t z) as [y Hy]; [by eapply same_tag; [exact E|apply void_names]|done|done|].
    apply (Hn x y Hy). by exists v. }
  apply parses_call_no. cbn [snd html_rule g_rule alt map void_tags]. repeat (apply parses_alt2; [apply Hf; cbn; tauto|]). apply Hf; cbn; tauto.
Qed.
Lemma script_no t z : all tag_char t -> t <> "script" -> stops tag_char z -> parsesH MN (Call HScript) ("<" +:+ (t +:+ z)) Fail.
Proof.
  intros Ht Hn Hz. apply parses_call_no. apply parses_seq_no1. apply parses_lit_no.
  change (strip "<script>" ("<" +:+ (t +:+ z))) with (strip "script>" (t +:+ z)). destruct (strip "script>" (t +:+ z)) as [r|] eqn:E; [|done]. exfalso.
  apply strip_spec in E. apply Hn. symmetry. eapply (word_eq tag_char "script" t (">" +:+ r) z); done.
Qed.
Lemma text_no m z : stops text_char z -> strip "{" z = None -> parsesH m (Call HText) z Fail.
Proof.
  intros Hz Hb. apply parses_call_no. apply parses_seq_no1. apply parses_alt2; [by apply binder_no|]. apply parses_call_no.
  eapply chars_plus_no; [apply text_rule|done].
Qed.
Lemma tag_solid t z : all tag_char t -> t <> "" -> hsolid (t +:+ z).
Proof. intros Ht Hn. destruct t as [|c t]; [done|]. destruct Ht as [Hc _]. rewrite sapp_cons. apply solid_char; [revert Hc; chars c|intros ->; discriminate Hc]. Qed.
Lemma open_solid t z : all tag_char t -> t <> "" -> hsolid ("<" +:+ (t +:+ z)).
Proof. intros Ht Hn. destruct t as [|c t]; [done|]. destruct Ht as [Hc _]. rewrite !sapp_cons. apply solid_tag. intros ->. discriminate Hc. Qed.

(** ** Scripts. *)
Lemma white_split s : exists w s', s = w +:+ s' /\ hgap w /\ stops white s'.
Proof.
  induction s as [|c s (w & s' & -> & Hw & Hs)]; [exists "", ""; by split_and!; [|constructor|]|].
  destruct (white c) eqn:E; [exists (String c w), s'; by split_and!; [|apply blank_white|]|]. exists "", (String c (w +:+ s')). by split_and!; [|constructor|].
Qed.
Lemma closed_strip c body closing r : closing <> "" -> closed_by closing (String c body) -> strip closing (String c (body +:+ (closing +:+ r))) = None.
Proof.
  intros Hc Hb. destruct (strip closing (String c (body +:+ (closing +:+ r)))) as [q|] eqn:E; [|done]. exfalso.
  assert (Hin : exists z, String c body +:+ closing = closing +:+ z /\ z <> "").
  { apply strip_spec in E. destruct (strip closing (String c (body +:+ closing))) as [z|] eqn:Ez.
    - apply strip_spec in Ez. exists z. split; [by rewrite sapp_cons|]. intros ->. apply (f_equal String.length) in Ez.
      rewrite sapp_nil in Ez. cbn in Ez. rewrite sapp_length in Ez. lia.
    - exfalso. apply (strip_none_app _ _ r) in Ez; [|cbn; rewrite sapp_length; lia].
      rewrite sapp_cons, sapp_assoc, E, strip_app in Ez. done. }
  destruct Hin as (z & Hz & Hne). apply Hne. by apply (Hb "" z).
Qed.
Lemma no_comment_app s r : (forall q, s <> "<!--" +:+ q) -> strip "<!--" (s +:+ ("</script>" +:+ r)) = None.
Proof.
  intros Hs. destruct s as [|a s]; [done|]. destruct (strip "<!--" (String a s +:+ ("</script>" +:+ r))) as [q|] eqn:E; [|done]. exfalso. apply strip_spec in E.
  change ("<!--" +:+ q) with (String "<" (String "!" (String "-" (String "-" q)))) in E. change ("</script>" +:+ r) with (String "<" ("/script>" +:+ r)) in E.
  destruct s as [|b [|c [|d s]]]; rewrite ?sapp_cons in E; change ("" +:+ ?x) with x in E; try discriminate E.
  injection E as -> -> -> -> _. by eapply (Hs s).
Qed.
Notation script_char := (Seq (Not (Lit "</script>")) Any).
Lemma script_repeats body r : closed_by "</script>" body -> (forall x y, body <> x +:+ ("<!--" +:+ y)) ->
  exists T w, hgap w /\ repeats H MN script_char (body +:+ ("</script>" +:+ r)) [] T (w +:+ ("</script>" +:+ r)).
Proof.
  remember (String.length body) as n eqn:E. revert body E. induction (lt_wf n) as [n _ IH]. intros body E Hb Hc.
  destruct (white_split body) as (w & s & -> & Hw & Hs). rewrite sapp_assoc. assert (Sc : hsolid ("</script>" +:+ r)) by (by apply solid_tag).
  destruct s as [|c s].
  - change ("" +:+ ?x) with x. exists "", w. split; [done|]. eapply rep_end; [by apply hgap_skips|]. apply parses_seq_no1. eapply parses_not_no. apply parses_lit.
  - assert (Sb : hsolid (String c s +:+ ("</script>" +:+ r))).
    { split; [exact Hs|]. apply no_comment_app. intros q Eq. apply (Hc w q). by rewrite Eq. }
    rewrite sapp_length in E. cbn [String.length] in E. destruct (IH (String.length s) ltac:(lia) s eq_refl) as (T & w2 & Hw2 & K).
    { intros x y Exy. apply (Hb (w +:+ String c x) y). by rewrite !sapp_assoc, !sapp_cons, Exy. }
    { intros x y ->. by apply (Hc (w +:+ String c x) y); rewrite sapp_assoc, sapp_cons. }
    eexists _, w2. split; [done|]. refine (rep_more H MN script_char _ w (String c s +:+ ("</script>" +:+ r)) [] (String c "") (s +:+ ("</script>" +:+ r)) [] T _ (hgap_skips w _ Hw Sb) _ K).
    refine (seqH _ _ _ [] "" (String c s +:+ ("</script>" +:+ r)) "" _ [] (String c "") _ (parses_not H MN _ _ (parses_lit_no H MN _ _ _)) (solid_skips0 _ Sb) (parses_any H MN c _)).
    apply closed_strip; [done|]. intros x y Exy. apply (Hb (w +:+ x) y). by rewrite !sapp_assoc, Exy.
Qed.
Lemma script_parses body r : closed_by "</script>" body -> (forall x y, body <> x +:+ ("<!--" +:+ y)) ->
  exists p, parse_content p true = Ok (mkHtml "script" [] None []) /\ p_rule p = HScript /\
  parsesH MN (Call HScript) ("<script>" +:+ (body +:+ ("</script>" +:+ r))) (Match [p] ("<script>" +:+ (body +:+ "</script>")) r).
Proof.
  intros Hb Hc. destruct (script_repeats body r Hb Hc) as (T & w & Hw & K). assert (Sc : hsolid ("</script>" +:+ r)) by (by apply solid_tag).
  destruct (repeats_then _ _ [] T w _ Sc Hw K) as (tw & s1 & t' & r' & a' & R1 & R2 & R3).
  exists (Pair HScript ("<script>" +:+ (body +:+ "</script>")) []). split; [done|]. split; [done|]. eapply parses_normal; [reflexivity|done|].
  eapply parses_to; [|by rewrite !sapp_assoc]. unfold comment_exp. cbn [seq].
  refine (seqH _ _ _ [] "<script>" _ tw s1 [] _ r (parses_lit H MN "<script>" _) R1 _).
  exact (seqH _ _ _ [] t' r' a' _ [] "</script>" r R2 R3 (parses_lit H MN "</script>" r)).
Qed.

(** ** Elements. *)
Fixpoint contents (l : list hpair) : res (list Html) :=
  match l with
  | [] => Ok []
  | c :: l' =>
      do! h <- parse_content c (match l' with [] => true | _ => false end);
      do! hs <- contents l'; Ok (h :: hs)
  end.
Definition content_reads (last : bool) (h : Html) (t : string) : Prop :=
  forall r, text_ends h r -> hsolid (t +:+ r) /\
    exists p, parse_content p last = Ok h /\ parsesH MN (Call HContent) (t +:+ r) (Match [p] t r).
Definition children_read (hs : list Html) (t : string) : Prop :=
  forall g q, hgap g -> exists ps T a, hgap a /\ contents ps = Ok hs /\ List.length ps = List.length hs /\
    repeats H MN (Call HContent) (g +:+ (t +:+ ("</" +:+ q))) ps T (a +:+ ("</" +:+ q)).

Lemma content_no q : parsesH MN (Call HContent) ("</" +:+ q) Fail.
Proof.
  eapply parses_silent; [reflexivity|]. cbn [alt]. assert (Sq : hsolid ("/" +:+ q)) by (by apply solid_char).
  apply parses_alt2; [|apply parses_alt2; [|apply parses_alt2]].
  - apply parses_call_no. apply parses_seq_no1. by apply parses_lit_no.
  - apply parses_call_no. refine (seqH_no _ _ _ [] "<" ("/" +:+ q) "" ("/" +:+ q) (parses_lit H MN "<" _) (solid_skips0 _ Sq) _).
    apply parses_seq_no1. apply (look_no H 40); [left; by apply solid_skips0|reflexivity].
  - by apply text_no.
  - apply parses_call_no. refine (seqH_no _ _ _ [] "<" ("/" +:+ q) "" ("/" +:+ q) (parses_lit H MN "<" _) (solid_skips0 _ Sq) _).
    apply parses_seq_no1. apply parses_call_no. eapply chars_plus_no; [apply tag_rule|done].
Qed.
Lemma void_reads last tag bs t z r T : void_tag tag -> attributes_text bs t -> tag_end z ->
  parsesH MN (Seq (Opt (Lit "/")) (Lit ">")) z (Match [] T r) ->
  hsolid ("<" +:+ (tag +:+ (t +:+ z))) /\ forall u, "<" +:+ (tag +:+ (t +:+ z)) = u +:+ r ->
    exists p, parse_content p last = Ok (mkHtml tag bs None []) /\ parsesH MN (Call HContent) ("<" +:+ (tag +:+ (t +:+ z))) (Match [p] u r).
Proof.
  intros Hv Ht Hz K. destruct (void_is_tag tag Hv) as (V1 & V2 & V3). destruct (attributes_parse bs t z Ht Hz) as (_ & E2 & _).
  destruct (tagged_parse bs t z Ht Hz) as (p & tw & s1 & T1 & r' & a' & K1 & K2 & K3 & K4).
  split; [by apply open_solid|]. intros u Hu.
  exists (Pair HVoid u [Pair HVoidTag tag []; p]). split; [cbn; by rewrite K1|].
  eapply parses_silent; [reflexivity|]. cbn [alt]. apply parses_alt2; [by apply script_no|]. apply parses_alt1.
  eapply parses_normal; [reflexivity|done|]. eapply parses_to; [|exact Hu]. cbn [seq].
  refine (seqH _ _ _ [] "<" _ "" (tag +:+ (t +:+ z)) [Pair HVoidTag tag []; p] _ r (parses_lit H MN "<" _) (solid_skips0 _ (tag_solid tag _ V1 V2)) _).
  refine (seqH _ _ _ [Pair HVoidTag tag []] tag _ tw s1 [p] _ r (void_parses tag _ Hv) K2 _).
  exact (seqH _ _ _ [p] T1 r' a' z [] _ r K3 K4 K).
Qed.
Lemma content_read last h t : content_text last h t -> content_reads last h t.
Proof.
  revert last h t. apply (content_text_mut content_reads children_read).
  - intros last ss ss' t Hs Hn Hf Hsh r Hr. assert (Ht : exists c q, t = String c q /\ text_char c || Ascii.eqb c "{" = true).
    { destruct Hs as [|b t ss ts Hb Hs|s ss ts H1 H2 H3 Hs]; [done|..].
      - destruct (binder_parses MN b t Hb) as [[q ->] _]. eexists _, _. split; [reflexivity|done].
      - destruct s as [|c s]; [done|]. destruct H1 as [H1 _]. eexists c, _. split; [reflexivity|]. by rewrite H1. }
    destruct Ht as (c & q & -> & Hc). assert (Hlt : c <> "<"%char) by (intros ->; discriminate Hc).
    split; [rewrite sapp_cons; apply solid_char; [by eapply Hf|done]|].
    destruct (text_parses MN ss (String c q) r Hs Hn (Hr ltac:(done))) as (ps & K1 & K2).
    exists (Pair HText (String c q) ps). split; [cbn; rewrite K1; cbn [bindR]; by rewrite (shows_tidy _ _ _ Hsh)|].
    eapply parses_silent; [reflexivity|]. cbn [alt].
    assert (Hl : forall p, strip (String "<" p) (String c q +:+ r) = None).
    { intros p. rewrite sapp_cons. cbn [strip]. destruct (Ascii.eqb_spec "<" c) as [E|]; [by rewrite E in Hlt|done]. }
    apply parses_alt2; [|apply parses_alt2; [|by apply parses_alt1]]; apply parses_call_no; apply parses_seq_no1; by apply parses_lit_no.
  - intros last tag bs t Hv Ht r _. assert (Hz : tag_end (">" +:+ r)) by (eexists _, _; split; [reflexivity|by left]).
    assert (E : ("<" +:+ (tag +:+ (t +:+ ">"))) +:+ r = "<" +:+ (tag +:+ (t +:+ (">" +:+ r)))) by (by rewrite !sapp_assoc). rewrite E.
    destruct (void_reads last tag bs t (">" +:+ r) r ("" +:+ ("" +:+ ">")) Hv Ht Hz) as (S1 & K).
    { refine (seqH _ _ _ [] "" (">" +:+ r) "" (">" +:+ r) [] ">" r (parses_opt_no H MN _ _ (parses_lit_no H MN "/" (">" +:+ r) eq_refl)) (solid_skips0 _ _) (parses_lit H MN ">" r)). by apply solid_char. }
    split; [done|]. exact (K _ (eq_sym E)).
  - intros last tag bs t a Hv Ht Ha r _. assert (Hz : tag_end ("/" +:+ (a +:+ (">" +:+ r)))) by (eexists _, _; split; [reflexivity|by right]).
    assert (E : ("<" +:+ (tag +:+ (t +:+ ("/" +:+ (a +:+ ">"))))) +:+ r = "<" +:+ (tag +:+ (t +:+ ("/" +:+ (a +:+ (">" +:+ r)))))) by (by rewrite !sapp_assoc). rewrite E.
    destruct (void_reads last tag bs t ("/" +:+ (a +:+ (">" +:+ r))) r ("/" +:+ (a +:+ ">")) Hv Ht Hz) as (S1 & K).
    { refine (seqH _ _ _ [] "/" _ a (">" +:+ r) [] ">" r (parses_opt H MN _ _ _ _ _ (parses_lit H MN "/" _)) (hgap_skips a _ Ha _) (parses_lit H MN ">" r)). by apply solid_char. }
    split; [done|]. exact (K _ (eq_sym E)).
  - intros last body Hb Hc r _. rewrite !sapp_assoc. split; [by apply solid_tag|]. destruct (script_parses body r Hb Hc) as (p & K1 & K2 & K3).
    exists p. split; [destruct p as [[]]; try discriminate K2; exact K1|]. eapply parses_silent; [reflexivity|]. cbn [alt]. apply parses_alt1. exact K3.
  - intros last tag bs ta a hs tc b (T1 & T2 & T3 & T4) Hta Ha _ IH Hb r _. pose proof (all_ext _ _ tag tag_sign_is T1) as T1'.
    assert (E : ("<" +:+ (tag +:+ (ta +:+ (">" +:+ (a +:+ (tc +:+ ("</" +:+ (tag +:+ (b +:+ ">"))))))))) +:+ r
      = "<" +:+ (tag +:+ (ta +:+ (">" +:+ (a +:+ (tc +:+ ("</" +:+ (tag +:+ (b +:+ (">" +:+ r)))))))))) by (by rewrite !sapp_assoc).
    rewrite E. set (z := ">" +:+ (a +:+ _)). assert (Hz : tag_end z) by (eexists _, _; split; [reflexivity|by left]).
    destruct (attributes_parse bs ta z Hta Hz) as (_ & E2 & _). destruct (tagged_parse bs ta z Hta Hz) as (p & tw & s1 & T & r' & a' & K1 & K2 & K3 & K4).
    destruct (IH a (tag +:+ (b +:+ (">" +:+ r))) Ha) as (ps & U & e & He & C1 & _ & C2).
    assert (Sc : hsolid ("</" +:+ (tag +:+ (b +:+ (">" +:+ r))))) by (by apply solid_tag).
    split; [by apply open_solid|].
    destruct (repeats_then _ _ ps U e _ Sc He C2) as (tw2 & s2 & t2 & r2 & a2 & R1 & R2 & R3).
    eexists (Pair HElement _ [Pair HTag tag []; p; Pair HChildren t2 ps; Pair HTag tag []]). split.
    { change (parse_content (Pair HElement ?w [Pair HTag tag []; p; Pair HChildren t2 ps; Pair HTag tag []]) last)
        with (do! bindings <- parse_element_bindings p; do! kids <- contents ps; Ok (mkHtml tag bindings None kids)). rewrite K1, C1. reflexivity. }
    eapply parses_silent; [reflexivity|]. cbn [alt]. apply parses_alt2; [by apply script_no|]. apply parses_alt2; [|apply parses_alt2].
    + apply parses_call_no. refine (seqH_no _ _ _ [] "<" _ "" (tag +:+ (ta +:+ z)) (parses_lit H MN "<" _) (solid_skips0 _ (tag_solid tag _ T1' T2)) _).
      apply parses_seq_no1. by apply void_no.
    + by apply text_no.
    + eapply parses_normal; [reflexivity|done|]. eapply parses_to; [|exact (eq_sym E)]. cbn [seq].
      refine (seqH _ _ _ [] "<" _ "" (tag +:+ (ta +:+ z)) [_; _; _; _] _ r (parses_lit H MN "<" _) (solid_skips0 _ (tag_solid tag _ T1' T2)) _).
      refine (seqH _ _ _ [Pair HTag tag []] tag _ tw s1 [_; _; _] _ r (tag_parses tag _ T1 T2 E2) K2 _).
      refine (seqH _ _ _ [p] T r' a' z [_; _] _ r K3 K4 _).
      refine (seqH _ _ _ [] ">" _ tw2 s2 [_; _] _ r (parses_lit H MN ">" _) R1 _).
      refine (seqH _ _ _ [Pair HChildren t2 ps] t2 r2 a2 _ [_] _ r (parses_normal H MN HChildren _ _ _ _ _ eq_refl ltac:(discriminate) R2) R3 _).
      refine (seqH _ _ _ [] "<" ("/" +:+ (tag +:+ (b +:+ (">" +:+ r)))) "" ("/" +:+ (tag +:+ (b +:+ (">" +:+ r)))) [_] _ r (parses_lit H MN "<" _) (solid_skips0 _ _) _); [by apply solid_char|].
      refine (seqH _ _ _ [] "/" (tag +:+ (b +:+ (">" +:+ r))) "" (tag +:+ (b +:+ (">" +:+ r))) [_] _ r (parses_lit H MN "/" _) (solid_skips0 _ (tag_solid tag _ T1' T2)) _).
      refine (seqH _ _ _ [Pair HTag tag []] tag (b +:+ (">" +:+ r)) b (">" +:+ r) [] ">" r (tag_parses tag _ T1 T2 _) (hgap_skips b _ Hb _) (parses_lit H MN ">" r)).
      * apply gap_stops; [done|done| |done]. intros c. chars c.
      * by apply solid_char.
  - intros g q Hg. exists [], "", g. split; [done|]. split; [done|]. split; [done|]. change ("" +:+ ?z) with z.
    eapply rep_end; [apply hgap_skips; [done|by apply solid_tag]|]. apply content_no.
  - intros h t a hs ts _ IHh Ha Hend _ IHs g q Hg. destruct (IHs a q Ha) as (ps & T & e & He & C1 & C2 & C3).
    destruct (IHh (a +:+ (ts +:+ ("</" +:+ q)))) as (S1 & p & P1 & P2).
    { intros Hh. rewrite <- sapp_assoc. destruct (Hend Hh) as [->|[x ->]]; right; by eexists. }
    eexists (p :: ps), _, e. split; [done|]. split; [|split; [cbn; by rewrite C2|]].
    + cbn [contents]. replace (match ps with [] => true | _ => false end) with (match hs with [] => true | _ => false end) by (by destruct ps, hs).
      rewrite P1. cbn [bindR]. by rewrite C1.
    + rewrite !sapp_assoc. exact (rep_more H MN (Call HContent) _ g _ [p] t _ ps T _ (hgap_skips g _ Hg S1) P2 C3).
Qed.

(** ** Documents. *)
Lemma content_none : parsesH MN (Call HContent) "" Fail.
Proof. apply (look_no H 40); [left; by apply solid_skips0|reflexivity]. Qed.
Theorem document_read h t : document_text h t -> read_html t = Ok h.
Proof.
  intros [a h' t' b Ha Ht Hb He]. destruct (content_read true h' t' Ht b He) as (S1 & p & P1 & P2). unfold read_html.
  assert (K : exists T, parsesH MN (Call HDocument) (a +:+ (t' +:+ b)) (Match [p; Pair HEnd "" []] T "")).
  { eexists. eapply parses_silent; [reflexivity|]. cbn [seq].
    refine (seqH _ _ _ [] "" (a +:+ (t' +:+ b)) a _ [_; _] _ "" (parses_lit H MN "" _) (hgap_skips a _ Ha S1) _).
    refine (seqH _ _ _ [p] _ "" "" "" [_] "" "" _ (solid_skips0 "" solid_nil) (parses_eoi H MN)).
    refine (seqH _ _ _ [p] t' b b "" [] "" "" P2 _ (parses_star_no H MN _ _ content_none)).
    pose proof (hgap_skips b "" Hb solid_nil) as Q. by rewrite sapp_nil in Q. }
  destruct K as [T K]. destruct (parse_ends html_grammar html_null html_depth HDocument (a +:+ (t' +:+ b)) html_well_founded ltac:(apply Nat.leb_le; reflexivity)) as [o Ho].
  assert (E : o = Match [p; Pair HEnd "" []] T "") by (eapply parses_fun; [by eexists|exact K]). subst o. unfold parse_with. rewrite Ho. exact P1.
Qed.
