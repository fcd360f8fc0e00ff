(** * Style sheets and inline styles are read as written. *)
From Coq Require Import ZArith Lia Reals Lra.
From Flocq Require Import Core.Core IEEE754.BinarySingleNaN.
From stdpp Require Import gmap.
From Verif Require Import Str StrFacts Res F32 PropKey Css SpecText SpecKeys SpecSheet Number NumberFacts Peg CssGrammar ReadCss PegFacts PegLook PegTotal ReadTotal ResFacts KeyFacts ReadValues ReadBlocks ReadSelectors.
Close Scope R_scope.

(** ** Key frames. *)
Lemma as_u32_trunc (x : f32) : is_finite x = true -> (0 <= B2R x <= 100)%R -> f32_as_u32 x = Ztrunc (B2R x).
Proof.
  intros Hf [H1 H2]. assert (Hs : f32_as_u32 x = saturate 4294967295 (Btrunc x)) by (by destruct x). rewrite Hs.
  assert (Hb : Btrunc x = Ztrunc (B2R x)).
  { apply eq_IZR. rewrite (Btrunc_correct 24 128 f32_emax x). apply round_FIX_IZR. }
  rewrite Hb. unfold saturate. assert (0 <= Ztrunc (B2R x) <= 100)%Z; [|lia]. split.
  - rewrite Ztrunc_floor by done. by apply Zfloor_lub.
  - rewrite Ztrunc_floor by done. rewrite <- (Zfloor_IZR 100). by apply Zfloor_le.
Qed.
Lemma number_firm c : number_char c = true -> forall s, skips G MN (String c s) "" (String c s).
Proof. intros Hc s. apply firm_skips. cbn. revert Hc. chars c. Qed.
Lemma keyword_plain k a q : all name_char k -> (2 <= String.length k)%nat -> stops (fun c => Ascii.eqb c "-") k -> gap a -> firm q -> stops name_char q ->
  parsesC MN (Call RKeyword) (k +:+ (a +:+ q)) (Match [Pair RKeyword k []] k (a +:+ q)).
Proof.
  intros Hk Hl Hd Ha Hq Hs. eapply parses_normal; [reflexivity|done|]. cbn [seq].
  assert (F : firm (k +:+ (a +:+ q))).
  { destruct k as [|c k]; [cbn in Hl; lia|]. destruct Hk as [Hc _]. cbn. revert Hc. clear. chars c. }
  assert (Ho : parsesC MN (Opt (Lit "-")) (k +:+ (a +:+ q)) (Match [] "" (k +:+ (a +:+ q)))).
  { apply parses_opt_no, lit_not. destruct k as [|c k]; [cbn in Hl; lia|]. cbn in Hd. rewrite sapp_cons. cbn [strip].
    by rewrite Ascii.eqb_sym, Hd. }
  refine (seqN _ _ _ [] "" _ "" _ [] k _ Ho (firm_skips _ F) _).
  refine (seqN _ _ _ [] "" _ "" _ [] k _ Ho (firm_skips _ F) _).
  eapply word_parses; [done|done|by apply gap_skips|done].
Qed.
Lemma step_parses n t : step_text n t -> firm t /\ t <> "" /\ exists p, read_step p = Ok n /\
  forall a q, gap a -> parsesC MN (Call RStep) (t +:+ (a +:+ String "{" q)) (Match [p] t (a +:+ String "{" q)).
Proof.
  intros [| |t' x n' Hd Hf Hx ->].
  - split; [done|]. split; [done|]. exists (Pair RKeyword "from" []). split; [reflexivity|]. intros a q Ha.
    eapply parses_silent; [reflexivity|]. cbn [alt]. apply parses_alt1. apply keyword_plain; [by repeat split|cbn; lia|done|done|done|done].
  - split; [done|]. split; [done|]. exists (Pair RKeyword "to" []). split; [reflexivity|]. intros a q Ha.
    eapply parses_silent; [reflexivity|]. cbn [alt]. apply parses_alt1. apply keyword_plain; [by repeat split|cbn; lia|done|done|done|done].
  - destruct (decimal_first t' x Hd) as (c & s & E & Hc).
    assert (F : forall q, firm (t' +:+ q)).
    { intros q. rewrite E, sapp_cons. cbn. destruct Hc as [Hc|[-> _]]; [|done]. revert Hc. clear. chars c. }
    split; [apply F|]. split; [by rewrite E|].
    exists (Pair RPercentage (t' +:+ "%") [Pair RNumber t' []]). split.
    { unfold read_step. cbn [p_rule first p_inner head unwrap bindR]. unfold read_number. cbn [p_text].
      rewrite (denotes_reads t' x Hd). by rewrite as_u32_trunc. }
    intros a q Ha. rewrite sapp_assoc. eapply parses_silent; [reflexivity|]. cbn [alt]. apply parses_alt2.
    + apply parses_call_no. cbn [css_grammar g_rule css_rule fst snd body_mode seq]. specialize (F ("%" +:+ (a +:+ String "{" q))).
      assert (Hd' : forall d z, digit d || Ascii.eqb d "." = true -> parsesC MN (Opt (Lit "-")) (String d z) (Match [] "" (String d z)) /\ firm (String d z) /\
        parsesC MN (Plus (Cls name_char)) (String d z) Fail).
      { intros d z Hdd. split; [apply parses_opt_no, lit_not; cbn [strip]; destruct (Ascii.eqb_spec "-" d) as [<-|]; [discriminate Hdd|done]|].
        split; [cbn; revert Hdd; clear; chars d|]. apply parses_seq_no1, parses_cls_no. cbn. revert Hdd. clear. chars d. }
      rewrite E, sapp_cons in F |- *. destruct Hc as [Hc|[-> (d & s' & -> & Hdd)]].
      * destruct (Hd' c (s +:+ ("%" +:+ (a +:+ String "{" q))) Hc) as (O1 & _ & O2).
        eapply parses_seq_no2; [exact O1|by apply firm_skips|]. eapply parses_seq_no2; [exact O1|by apply firm_skips|]. exact O2.
      * rewrite sapp_cons. destruct (Hd' d (s' +:+ ("%" +:+ (a +:+ String "{" q))) Hdd) as (O1 & F1 & O2).
        eapply parses_seq_no2; [apply parses_opt; exact (parses_lit G MN "-" _)|by apply firm_skips|].
        eapply parses_seq_no2; [exact O1|by apply firm_skips|]. exact O2.
    + eapply parses_normal; [reflexivity|done|]. cbn [seq].
      refine (seqN _ _ _ [_] t' _ "" _ [] "%" _ _ (firm_skips _ _) (parses_lit G MN "%" _)); [|done].
      destruct (decimal_chars t' x Hd) as [D1 D2]. eapply parses_normal; [reflexivity|done|].
      apply parses_word_solid; [exact number_firm|done|done|by apply firm_skips|done].
Qed.

Inductive keyframe_item : Keyframe -> string -> Prop :=
| keyframe_written n tn a ds t : step_text n tn -> gap a -> block_text ds t -> keyframe_item (mkKeyframe n ds) (tn +:+ (a +:+ t)).
Lemma keyframe_parses k t : keyframe_item k t -> firm t /\ t <> "" /\ forall r, exists p, read_keyframe p = Ok k /\
  parsesC MN (Call RKeyframe) (t +:+ r) (Match [p] t r).
Proof.
  intros [n tn a ds tb Hn Ha Hb]. destruct (step_parses n tn Hn) as (S1 & S2 & p & Hp & Hs).
  destruct (block_parses ds tb Hb) as (B1 & B2 & Kb). split; [by apply firm_app|]. split; [by destruct tn|]. intros r.
  destruct (Kb r) as (b & Hb' & K). exists (Pair RKeyframe (tn +:+ (a +:+ tb)) [p; b]). split.
  - unfold read_keyframe, first at 1, second. cbn [p_inner head tail unwrap bindR]. rewrite Hp. cbn [bindR].
    destruct (first b) as [d| | |]; cbn [bindR] in Hb' |- *; try discriminate. rewrite Hb'. done.
  - rewrite !sapp_assoc. eapply parses_normal; [reflexivity|done|]. cbn [seq].
    refine (seqN _ _ _ [p] tn _ a _ [b] tb r _ (gap_skips a _ Ha (firm_app _ _ B2 B1)) K).
    inversion Hb as [ds' t' a' Ha' Hd']; subst. change (("{" +:+ ?x) +:+ r) with (String "{" (x +:+ r)). by apply Hs.
Qed.
Lemma keyframes_gapped ks t : keyframes_text ks t -> gapped keyframe_item ks t.
Proof.
  induction 1 as [|n tn a ds t b ks ts Hn Ha Ht Hb _ IH]; [constructor|].
  replace (tn +:+ (a +:+ (t +:+ (b +:+ ts)))) with ((tn +:+ (a +:+ t)) +:+ (b +:+ ts)) by (by rewrite !sapp_assoc).
  constructor; [by constructor|done|done].
Qed.

(** ** Rules. *)
Definition rule_of (p : cpair) : res Rule :=
  match p_rule p with
  | RAnimation => do! a <- read_animation p; Ok (RuleAnimation a)
  | RStyle => do! s <- read_style p; Ok (RuleStyle s)
  | _ => Panic
  end.
Lemma rule_parses x t : rule_text x t -> firm t /\ t <> "" /\ forall r, exists p, rule_of p = Ok x /\
  parsesC MN (Call RRule) (t +:+ r) (Match [p] t r).
Proof.
  intros [cs tc a ds tb Hc Ha Hb|c a n b d ks tk Hc Ha Hn Hb Hd Hk].
  - destruct (selectors_parse cs tc Hc) as (F1 & F2 & (x0 & q0 & E & Hx) & ps & Hps & K). destruct (block_parses ds tb Hb) as (B1 & B2 & Kb).
    split; [by apply firm_app|]. split; [by destruct tc|]. intros r. destruct (Kb r) as (bp & Hb' & Kb'). set (whole := tc +:+ _).
    inversion Hb as [ds' t' a' Ha' Hd']; subst ds'. set (body := a' +:+ (t' +:+ "}")) in *.
    assert (Eb : tb +:+ r = String "{" (body +:+ r)) by (by subst tb).
    destruct (K a (body +:+ r) Ha) as (ts & r' & a'' & K1 & K2).
    exists (Pair RStyle whole [Pair RSelectors ts ps; bp]). split.
    + unfold rule_of. cbn [p_rule]. unfold read_style, first at 1, second. cbn [p_inner head tail unwrap bindR]. rewrite Hps. cbn [bindR].
      destruct (first bp) as [dp| | |]; cbn [bindR] in Hb' |- *; try discriminate. rewrite Hb'. done.
    + eapply parses_silent; [reflexivity|]. cbn [alt]. apply parses_alt2.
      * apply parses_call_no. cbn [css_grammar g_rule css_rule fst snd body_mode seq]. apply parses_seq_no1, lit_not.
        unfold whole. rewrite E, !sapp_cons. cbn [strip]. destruct (Ascii.eqb_spec "@" x0) as [<-|]; [discriminate Hx|done].
      * eapply parses_normal; [reflexivity|done|]. cbn [seq]. unfold whole. rewrite !sapp_assoc. rewrite Eb in Kb' |- *.
        eapply (parses_as G).
        -- refine (seqN _ _ _ [_] ts _ a'' _ [bp] tb r K1 K2 Kb').
        -- reflexivity.
        -- rewrite <- Eb. by rewrite !sapp_assoc.
  - split; [done|]. split; [done|]. intros r. set (whole := "@keyframes" +:+ _).
    assert (Hnf : exists x q, n = String x q /\ ident_char x = true).
    { destruct Hn as [H1 H2]. destruct n as [|y q]; [done|]. exists y, q. split; [done|]. rewrite <- name_sign_is. apply H1. }
    destruct Hnf as (y & q & En & Hx).
    destruct (gapped_parses keyframe_item (Call RKeyframe) read_keyframe keyframe_parses ks tk (keyframes_gapped _ _ Hk) (String "}" r) ltac:(done)) as (ps & Hps & t' & a' & Ha' & K); [nolook; reflexivity|].
    assert (F := gapped_first keyframe_item (Call RKeyframe) read_keyframe keyframe_parses ks tk (String "}" r) (keyframes_gapped _ _ Hk) ltac:(done)).
    exists (Pair RAnimation whole (Pair RName n [] :: ps)). split.
    + unfold rule_of. cbn [p_rule]. unfold read_animation, first. cbn [p_inner head tail unwrap bindR]. rewrite Hps. done.
    + eapply parses_silent; [reflexivity|]. cbn [alt]. apply parses_alt1. eapply parses_normal; [reflexivity|done|]. cbn [seq].
      eapply (parses_as G).
      * refine (seqN _ _ (whole +:+ r) [] "@keyframes" (String c a +:+ (n +:+ (b +:+ (String "{" (d +:+ (tk +:+ String "}" r)))))) (String c a) _ (Pair RName n [] :: ps) _ r _ (gap_skips _ _ (blank_white _ _ c a Hc Ha) _) _).
        -- assert (Ew : whole +:+ r = "@keyframes" +:+ (String c a +:+ (n +:+ (b +:+ (String "{" (d +:+ (tk +:+ String "}" r))))))).
           { unfold whole. rewrite sapp_assoc. f_equal. rewrite (sapp_cons c). rewrite !sapp_assoc. reflexivity. }
           rewrite Ew. exact (parses_lit G MN "@keyframes" _).
        -- rewrite En, sapp_cons. cbn. revert Hx. clear. chars y.
        -- refine (seqN _ _ _ [_] n _ b (String "{" (d +:+ (tk +:+ String "}" r))) ps _ r _ (gap_skips b _ Hb _) _); [|done|].
           ++ eapply parses_atomic; [reflexivity|done|]. destruct Hn as [H1 H2]. apply parses_word; [done| |done|].
              ** exact (all_ext _ _ n name_sign_is H1).
              ** apply (then_one_stops (fun c => Ascii.eqb c "{")); [apply then_one_gap; [done|by apply then_one_here]|]. intros z. chars z.
           ++ refine (seqN _ _ _ [] "{" _ d (tk +:+ String "}" r) ps _ r (parses_lit G MN "{" _) (gap_skips d _ Hd F) _).
              replace ps with (ps ++ []) by apply app_nil_r.
              refine (seqN _ _ _ ps t' (a' +:+ String "}" r) a' (String "}" r) [] "}" r _ (gap_skips a' (String "}" r) Ha' eq_refl) (parses_lit G MN "}" r)).
              eapply parses_silent; [reflexivity|]. exact K.
      * reflexivity.
      * reflexivity.
Qed.
Lemma rules_gapped rs t : rules_text rs t -> gapped rule_text rs t.
Proof. induction 1; by constructor. Qed.

(** ** What the reader makes of the rules. *)
Fixpoint animations_after (m : gmap string Animation) (rs : list Rule) : gmap string Animation :=
  match rs with
  | [] => m
  | RuleAnimation a :: rs' => animations_after (<[an_name a := a]> m) rs'
  | RuleStyle _ :: rs' => animations_after m rs'
  end.
Lemma rules_fold ps : forall rs css, each rule_of ps = Ok rs ->
  foldR read_rule css ps = Ok (mkCss (css_styles css ++ styles_of rs) (animations_after (css_animations css) rs)).
Proof.
  induction ps as [|p ps IH]; intros rs css H.
  - injection H as <-. cbn. rewrite app_nil_r. by destruct css.
  - cbn [each] in H. apply bindR_Ok in H as (x & Hx & H). apply bindR_Ok in H as (xs & Hxs & H). injection H as <-.
    cbn [foldR]. unfold rule_of in Hx. unfold read_rule at 1. destruct (p_rule p); try discriminate.
    + apply bindR_Ok in Hx as (a & Ha & Hx). injection Hx as <-. rewrite Ha. cbn [bindR]. rewrite (IH xs _ Hxs). done.
    + apply bindR_Ok in Hx as (s & Hs & Hx). injection Hx as <-. rewrite Hs. cbn [bindR]. rewrite (IH xs _ Hxs). cbn. by rewrite <- app_assoc.
Qed.
Lemma animations_spec n a rs : forall m, animations_after m rs !! n = Some a <->
  last_animation n rs a \/ ((forall b, In (RuleAnimation b) rs -> an_name b <> n) /\ m !! n = Some a).
Proof.
  unfold last_animation. induction rs as [|[s|b] rs IH]; intros m; cbn [animations_after].
  - split; [intros H; right; split; [intros ? []|done]|]. intros [(bf & af & E & _)|[_ H]]; [by destruct bf|done].
  - rewrite IH. split.
    + intros [(bf & af & -> & H)|[H1 H2]]; [left; by exists (RuleStyle s :: bf), af|]. right. split; [|done]. intros b [E|Hb]; [discriminate|by apply H1].
    + intros [(bf & af & E & H)|[H1 H2]].
      * destruct bf as [|x bf]; [discriminate|]. injection E as <- ->. left. by exists bf, af.
      * right. split; [|done]. intros b Hb. apply H1. by right.
  - rewrite IH. split.
    + intros [(bf & af & -> & H)|[H1 H2]]; [left; by exists (RuleAnimation b :: bf), af|].
      destruct (decide (an_name b = n)) as [E|E].
      * rewrite E, lookup_insert in H2. injection H2 as <-. left. exists [], rs. done.
      * rewrite lookup_insert_ne in H2 by done. right. split; [|done]. intros c [Ec|Hc]; [by injection Ec as <-|by apply H1].
    + intros [(bf & af & E & H1 & H2)|[H1 H2]].
      * destruct bf as [|x bf].
        -- injection E as <- <-. right. split; [exact H2|]. rewrite H1. apply lookup_insert.
        -- injection E as <- ->. left. by exists bf, af.
      * right. split; [intros c Hc; apply H1; by right|]. rewrite lookup_insert_ne; [done|]. apply (H1 b). by left.
Qed.

(** ** Whole texts. *)
Lemma parse_reads r s ps t rest e : (css_depth r < 39)%nat -> parsesC MN (Call r) s (Match ps t rest) -> parse_with G e r s = Ok ps.
Proof.
  intros Hr H. destruct (parse_ends G css_null css_depth r s css_well_founded Hr) as [o Ho].
  assert (E : o = Match ps t rest) by (eapply parses_fun; [by eexists|exact H]). subst o. unfold parse_with. by rewrite Ho.
Qed.
Theorem sheet_read rs t : sheet_text rs t -> exists c, read_css t = Ok c /\ sheet_of rs c.
Proof.
  intros [a rs' t' Ha Hr]. assert (Hg := rules_gapped _ _ Hr).
  destruct (gapped_parses rule_text (Call RRule) rule_of rule_parses rs' t' Hg "" ltac:(done)) as (ps & Hps & tt & b & Hb & K); [nolook; reflexivity|].
  assert (F := gapped_first rule_text (Call RRule) rule_of rule_parses rs' t' "" Hg ltac:(done)). rewrite sapp_nil in F, K.
  eexists. split.
  - unfold read_css. erewrite parse_reads; [|vm_compute; lia|].
    2:{ eapply parses_silent; [reflexivity|]. cbn [seq].
        eapply (seqN _ _ _ [] "" (a +:+ t') a t' [_; _]); [exact (parses_lit G MN "" _)|by apply gap_skips|].
        eapply (seqN _ _ _ [_] tt _ b "" [_]); [eapply parses_normal; [reflexivity|done|exact K]|by apply gap_skips|]. apply parses_eoi. }
    cbn [app head bindR ok_or p_inner]. apply rules_fold. exact Hps.
  - split; [done|]. intros n x. cbn [css_animations]. rewrite animations_spec. split; [|by left]. intros [H|[_ H]]; [done|]. discriminate H.
Qed.
Theorem inline_read ds t : declarations_text ds t -> read_inline_css t = Ok ds.
Proof.
  intros H. destruct (declarations_parse ds t H "" ltac:(done)) as (_ & p & Hp & t' & a' & Ha & K); [nolook; reflexivity|]. rewrite sapp_nil in K.
  unfold read_inline_css. erewrite parse_reads; [|vm_compute; lia|exact K]. exact Hp.
Qed.
