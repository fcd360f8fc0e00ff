(** * Both readers end without a crash on every text. *)
From Coq Require Import Lia ZArith.
From stdpp Require Import gmap.
From Verif Require Import Str StrFacts Res Css Html Peg CssGrammar HtmlGrammar ReadCss ReadHtml PegFacts PegTotal PegShape ResFacts.

(** ** The parsers end. *)
Definition css_null (r : CssRule) : bool :=
  match r with
  | RStyleSheet | RRules | RKeyframes | RSelectors | RComplex | RDeclarations | RStringLiteral | REnd => true
  | _ => false
  end.
Definition css_depth (r : CssRule) : nat :=
  match r with
  | RWhitespace => 4 | RComment => 2 | RStyleSheet => 27 | RRules => 24 | RRule => 22 | RAnimation => 2 | RName => 2
  | RKeyframes => 14 | RKeyframe => 12 | RStep => 10 | RStyle => 20 | RSelectors => 18 | RComplex => 16 | RCombinator => 3
  | RCompound => 13 | RSimple => 11 | RAll => 1 | RId => 2 | RClass => 2 | RType_ => 3 | RAttribute => 3 | RMatcher => 7
  | RModifier => 2 | RRoot => 1 | RPseudoClass => 3 | RPseudoElement => 2 | RDeclarationBlock => 2 | RDeclarations => 6
  | RDeclaration => 4 | RProperty => 2 | RIdent => 2 | RValues => 18 | RShorthand => 16 | RValue => 14 | RFunction => 5
  | RVar => 2 | RExplicit => 11 | RColor => 2 | RZero => 2 | RPercentage => 4 | RTime => 4 | RTimeUnit => 2
  | RDimension => 4 | RNumber => 2 | RUnit => 2 | RKeyword => 8 | RString => 2 | RStringLiteral => 8 | REnd => 1
  end.
Definition html_null (r : HtmlRule) : bool :=
  match r with HChildren | HAttributes | HCount | HValue | HEnd => true | _ => false end.
Definition html_depth (r : HtmlRule) : nat :=
  match r with
  | HWhitespace => 4 | HComment => 2 | HDocument => 20 | HContent => 16 | HScript => 2 | HElement => 2 | HChildren => 18
  | HVoid => 2 | HVoidTag => 16 | HTag => 3 | HTChar => 1 | HText => 12 | HString => 9 | HSChar => 7 | HAttributes => 26
  | HAttribute => 24 | HAliasBinding => 2 | HTagBinding => 2 | HAttributeBinding => 2 | HQuotedString => 9
  | HQuotedChar => 7 | HCallbackBinding => 2 | HEvent => 1 | HVisibilityBinding => 4 | HVisible => 2 | HRepeatBinding => 2
  | HCount => 2 | HDoubleQuoted => 15 | HUnquoted => 15 | HEmpty => 14 | HName => 13 | HNChar => 11 | HBinder => 2
  | HGetter => 5 | HTransformer => 5 | HKey => 3 | HKChar => 1 | HValue => 10 | HVChar => 8 | HEnd => 1
  end.

Lemma css_well_founded : well_founded_grammar css_grammar css_null css_depth 40.
Proof.
  split.
  - intros []; vm_compute; congruence.
  - intros []; apply Nat.leb_le; vm_compute; reflexivity.
  - intros []; apply Nat.leb_le; vm_compute; reflexivity.
  - intros []; vm_compute; reflexivity.
  - split; [vm_compute; reflexivity|]. split; [apply Nat.leb_le; vm_compute; reflexivity|vm_compute; reflexivity].
Qed.
Lemma html_well_founded : well_founded_grammar html_grammar html_null html_depth 40.
Proof.
  split.
  - intros []; vm_compute; congruence.
  - intros []; apply Nat.leb_le; vm_compute; reflexivity.
  - intros []; apply Nat.leb_le; vm_compute; reflexivity.
  - intros []; vm_compute; reflexivity.
  - split; [vm_compute; reflexivity|]. split; [apply Nat.leb_le; vm_compute; reflexivity|vm_compute; reflexivity].
Qed.

Lemma parse_ends {R} (g : grammar R) nu rho r s : well_founded_grammar g nu rho 40 -> (rho r < 39)%nat ->
  exists o, eval g (enough s) MNormal (Call r) s = Some o.
Proof.
  intros W Hr. apply (eval_total g nu rho 40 W); cbn [heavy rank guarded]; [lia|done|]. unfold enough. lia.
Qed.
Lemma parse_out {R} (g : grammar R) nu rho e r s : well_founded_grammar g nu rho 40 -> (rho r < 39)%nat ->
  parse_with g e r s = Err e \/ exists ps t rest, parse_with g e r s = Ok ps /\ parses g MNormal (Call r) s (Match ps t rest) /\ derives g MNormal (Call r) t ps.
Proof.
  intros W Hr. unfold parse_with. destruct (parse_ends g nu rho r s W Hr) as [[|ps t rest] Ho]; rewrite Ho; [by left|].
  right. exists ps, t, rest. split; [done|]. split; [by eexists|]. by eapply eval_derives.
Qed.

(** ** Taking a match apart. *)
Ltac parts H :=
  lazymatch type of H with
  | derives _ _ (Lit _) _ _ => apply lit_inv in H; destruct H as [? ?]; subst
  | derives _ _ (ILit _) _ _ => apply ilit_inv in H; subst
  | derives _ _ Any _ _ => apply any_inv in H; subst
  | derives _ _ (Cls _) _ _ => apply cls_inv in H; destruct H as [? (? & ? & ?)]; subst
  | derives _ _ (Not _) _ _ => apply not_inv in H; destruct H as [? ?]; subst
  | derives _ _ Eoi _ _ => apply eoi_inv in H; destruct H as [? ?]; subst
  | derives _ _ (Opt _) _ _ => apply opt_inv in H; destruct H as [[? ?]|H]; [subst|parts H]
  | derives _ _ (Alt _ _) _ _ => apply alt_inv in H; destruct H as [H|H]; parts H
  | derives _ _ (Seq _ _) _ _ =>
      let H1 := fresh "Ha" in let H2 := fresh "Hb" in
      apply seq_inv in H; destruct H as (? & ? & ? & ? & ? & ? & ? & H1 & H2 & ?); subst; parts H1; parts H2
  | _ => idtac
  end.

Section nodes.
  Context {R : Type} (g : grammar R).
  (** A pair produced by a rule. *)
  Definition node (m : mode) (r : R) (p : pair R) : Prop :=
    p_rule p = r /\ derives g (body_mode (fst (g_rule g r)) m) (snd (g_rule g r)) (p_text p) (p_inner p).
  Lemma call_node m r t ps : derives g m (Call r) t ps -> fst (g_rule g r) <> Silent -> m <> MAtomic ->
    exists p, ps = [p] /\ node m r p /\ p_text p = t.
  Proof.
    intros H Hk Hm. apply call_inv in H as (inner & Hd & ->). exists (Pair r t inner). split; [|done].
    destruct (fst (g_rule g r)); [|done|..]; cbn; try reflexivity; by destruct m.
  Qed.
  Lemma call_silent m r t ps : derives g m (Call r) t ps -> fst (g_rule g r) = Silent -> derives g m (snd (g_rule g r)) t ps.
  Proof. intros H Hk. apply call_inv in H as (inner & Hd & ->). rewrite Hk in *. done. Qed.
End nodes.

Lemma each_ok {A B} (f : A -> res B) l : Forall (fun a => exists b, f a = Ok b) l -> exists bs, each f l = Ok bs.
Proof.
  induction 1 as [|a l [b Hb] _ [bs IH]]; [by exists []|]. cbn. rewrite Hb. cbn. rewrite IH. cbn. eauto.
Qed.
Lemma foldR_ok {A S} (f : S -> A -> res S) l s : Forall (fun a => forall s, exists s', f s a = Ok s') l -> exists s', foldR f s l = Ok s'.
Proof. intros H. revert s. induction H as [|a l Ha _ IH]; intros s; [by exists s|]. cbn. destruct (Ha s) as [s' ->]. apply IH. Qed.

Fixpoint pair_ind' {R} (P : pair R -> Prop) (H : forall r t ps, Forall P ps -> P (Pair r t ps)) (p : pair R) : P p :=
  match p with
  | Pair r t ps => H r t ps ((fix go ps : Forall P ps := match ps with [] => @List.Forall_nil _ P | q :: ps' => @List.Forall_cons _ P q ps' (pair_ind' P H q) (go ps') end) ps)
  end.

(** ** Style sheets. *)
Notation cn := (node css_grammar).
Ltac open H := cbn [css_grammar html_grammar g_rule css_rule html_rule fst snd body_mode seq alt any_of Plus map void_tags] in H.
(** The pairs of the calls left in a match. *)
Ltac calls :=
  repeat match goal with
  | H : derives ?g ?m (Call ?r) _ ?ps |- _ =>
      is_var ps; let p := fresh "p" in let N := fresh "N" in
      apply call_node in H; [|discriminate|discriminate]; destruct H as (p & -> & N & ?)
  end.
Ltac node_open H :=
  let Hr := fresh "Hr" in destruct H as [Hr H]; open H.

Lemma matcher_ok m p : m <> MNormal -> cn m RMatcher p -> exists x, read_matcher (p_text p) = Ok x.
Proof.
  intros Hm H. destruct p as [r t ps]. node_open H. cbn [p_text p_inner] in *.
  parts H; repeat match goal with h : m <> MNormal -> _ |- _ => specialize (h Hm) end; subst.
  all: eexists; reflexivity.
Qed.

(** A pair of one of the rules that make up a value. *)
Definition value_node (p : cpair) : Prop := cn MCompound RVar p \/ cn MCompound RFunction p \/ cn MCompound RExplicit p.

Lemma value_nodes t ps : derives css_grammar MCompound (Call RValue) t ps -> exists p, ps = [p] /\ value_node p.
Proof.
  intros H. apply call_silent in H; [|reflexivity]. open H. parts H; calls; eexists; (split; [reflexivity|]); unfold value_node; eauto.
Qed.
Lemma space_nodes m t ps : derives css_grammar m (Call RWhitespace) t ps -> ps = [].
Proof. intros H. apply call_silent in H; [|reflexivity]. cbn [css_grammar g_rule css_rule snd ws_exp alt] in H. parts H; reflexivity. Qed.

Lemma spaces_nodes m t ps : derives css_grammar m (Star (Call RWhitespace)) t ps -> ps = [].
Proof.
  intros H. apply (star_forall _ _ _ _ _ (fun _ => False)) in H; [|intros ? ? h; apply space_nodes in h as ->; constructor].
  destruct ps as [|q ps]; [done|]. apply list.Forall_cons in H as [[] _].
Qed.

Lemma color_ok m p : cn m RColor p -> exists c, read_color p = Ok c.
Proof.
  intros H. destruct p as [r t ps]. node_open H. cbn [p_text p_inner] in *.
  apply seq_inv in H as (ta & tw & tb & pa & pb & -> & _ & Ha & _). parts Ha. unfold read_color. cbn [p_text].
  destruct (_ && _); [eauto|]. destruct (_ && _); [eauto|]. cbn. eauto.
Qed.
Lemma percentage_inner m p : m <> MAtomic -> cn m RPercentage p -> exists n, p_inner p = [n].
Proof. intros Hm H. destruct p as [r t ps]. node_open H. cbn [p_text p_inner] in *. parts H. apply call_node in Ha as (q & -> & _ & _); [|discriminate|done]. by exists q. Qed.
Lemma percentage_ok p : cn MCompound RPercentage p -> exists x, read_percentage p = Ok x.
Proof. intros H. apply percentage_inner in H as [n Hn]; [|done]. unfold read_percentage, first. rewrite Hn. cbn. eauto. Qed.
Lemma seconds_ok p : cn MCompound RTime p -> exists x, read_seconds p = Ok x.
Proof.
  intros H. destruct p as [r t ps]. node_open H. cbn [p_text p_inner] in *. parts H. calls. unfold read_seconds, first, second. cbn [p_inner app head tail unwrap bindR].
  match goal with N : cn _ RTimeUnit ?q |- _ => destruct q as [r' t' ps']; node_open N; cbn [p_text p_inner] in *; parts N end; cbn; eauto.
Qed.
Lemma dimension_ok p : cn MCompound RDimension p -> exists x, read_dimension p = Ok x.
Proof.
  intros H. destruct p as [r t ps]. node_open H. cbn [p_text p_inner] in *. parts H. calls. unfold read_dimension, first, second. cbn. eauto.
Qed.
Lemma string_inner p : cn MCompound RString p -> exists q, p_inner p = [q].
Proof.
  intros H. destruct p as [r t ps]. node_open H. cbn [p_text p_inner] in *. parts H. calls. cbn. eauto.
Qed.

Lemma explicit_ok p : cn MCompound RExplicit p -> exists e v, head (p_inner p) = Some e /\ read_explicit_value e = Ok v.
Proof.
  intros H. destruct p as [r t ps]. node_open H. cbn [p_text p_inner] in *. parts H; calls; exists p; unfold read_explicit_value; rewrite (proj1 N).
  - destruct (color_ok _ _ N) as [c ->]. eexists. split; reflexivity.
  - eexists. split; reflexivity.
  - destruct (percentage_ok _ N) as [c ->]. eexists. split; reflexivity.
  - destruct (seconds_ok _ N) as [c ->]. eexists. split; reflexivity.
  - destruct (dimension_ok _ N) as [c ->]. eexists. split; reflexivity.
  - eexists. split; reflexivity.
  - eexists. split; reflexivity.
  - destruct (string_inner _ N) as [q Hq]. unfold first. rewrite Hq. eexists. split; reflexivity.
Qed.

Lemma function_inner p : cn MCompound RFunction p -> exists n args, p_inner p = n :: args /\ Forall value_node args.
Proof.
  intros H. destruct p as [r t ps]. node_open H. cbn [p_text p_inner] in *. parts H.
  - calls. eexists _, []. split; [reflexivity|constructor].
  - match goal with h : derives _ _ (Call RValue) _ _ |- _ => apply value_nodes in h as (v & -> & Hv) end.
    match goal with h : derives _ _ (Star _) _ _ |- _ => apply (star_forall _ _ _ _ _ value_node) in h end.
    2:{ intros t' ps' h'. parts h'. apply spaces_nodes in Ha0 as ->. apply value_nodes in Hb0 as (v' & -> & Hv'). cbn. by apply Forall_singleton. }
    calls. eexists _, _. split; [reflexivity|]. cbn. constructor; [exact Hv|]. rewrite app_nil_r. done.
Qed.

Lemma value_ok p : value_node p -> exists d, read_value_def p = Ok d.
Proof.
  induction p as [r t ps IH] using pair_ind'. intros [H|[H|H]].
  - destruct H as [Hr H]. cbn in Hr. subst r. open H. cbn [p_text p_inner] in H.
    apply seq_inv in H as (? & ? & ? & ? & ? & _ & -> & Ha & H & _). parts Ha.
    apply seq_inv in H as (? & ? & ? & ? & ? & _ & -> & Ha & H & _). parts Ha.
    apply seq_inv in H as (? & ? & ? & ? & ? & _ & -> & Ha & H & _). calls. cbn. eauto.
  - destruct (function_inner _ H) as (n & args & Hi & Hargs). cbn in Hi. subst ps. destruct H as [Hr H]. cbn in Hr. subst r.
    cbn [read_value_def]. apply list.Forall_cons in IH as [_ IH].
    assert (Hall : Forall (fun a => exists b, read_value_def a = Ok b) args).
    { clear H. induction args as [|a args IHa]; [constructor|]. apply list.Forall_cons in IH as [I1 I2]. apply list.Forall_cons in Hargs as [A1 A2].
      constructor; [by apply I1|by apply IHa]. }
    destruct (each_ok _ _ Hall) as [ds ->]. cbn. eauto.
  - destruct (explicit_ok _ H) as (e & v & He & Hv). destruct H as [Hr _]. cbn in Hr, He. subst r. cbn [read_value_def].
    rewrite He. cbn [unwrap bindR]. rewrite Hv. cbn. eauto.
Qed.

Lemma shorthand_ok m p : cn m RShorthand p -> exists d, read_shorthand p = Ok d.
Proof.
  intros H. destruct p as [r t ps]. node_open H. cbn [p_text p_inner] in *. parts H.
  match goal with h : derives _ _ (Call RValue) _ _ |- _ => apply value_nodes in h as (v & -> & Hv) end.
  match goal with h : derives _ _ (Star _) _ _ |- _ =>
      apply (star_forall _ _ _ _ _ value_node) in h; [|intros t' ps' h'; parts h';
        match goal with k : derives _ _ (Call RValue) _ _ |- _ => apply value_nodes in k as (v' & -> & Hv') end;
        match goal with k : derives _ _ (Call RWhitespace) _ _ |- _ => apply space_nodes in k; subst end; cbn; by apply Forall_singleton] end.
  apply each_ok. cbn. constructor; [by apply value_ok|]. eapply list.Forall_impl; [exact Hb|]. intros q. apply value_ok.
Qed.

Lemma values_inner p : cn MNormal RValues p -> Forall (cn MNormal RShorthand) (p_inner p) /\ p_inner p <> [].
Proof.
  intros H. destruct p as [r t ps]. node_open H. cbn [p_text p_inner] in *. parts H.
  match goal with h : derives _ _ (Star _) _ _ |- _ =>
      apply (star_forall _ _ _ _ _ (cn MNormal RShorthand)) in h; [|intros t' ps' h'; parts h'; calls; cbn; by apply Forall_singleton] end.
  calls. split; [|done]. cbn. by constructor.
Qed.

Lemma declaration_ok p : cn MNormal RDeclaration p -> exists d, read_declaration p = Ok d.
Proof.
  intros H. destruct p as [r t ps]. node_open H. cbn [p_text p_inner] in *. parts H. calls. unfold read_declaration, first, second. cbn [p_inner app head tail unwrap bindR].
  match goal with N : cn _ RValues _ |- _ => destruct (values_inner _ N) as [Hv Hne] end.
  match type of Hne with ?l <> _ => destruct (each_ok read_shorthand l) as [ds Hds] end.
  { eapply list.Forall_impl; [exact Hv|]. intros q. apply shorthand_ok. }
  destruct (starts_with _ _).
  - rewrite Hds. cbn [bindR]. destruct ds as [|d ds]; [|cbn; eauto].
    match type of Hne with ?l <> _ => destruct l as [|y ys]; [done|] end. cbn in Hds. destruct (read_shorthand y); try discriminate Hds. cbn in Hds.
    destruct (each _ _); discriminate Hds.
  - destruct (PropKey.parse_key _); [|eauto]. rewrite Hds. cbn. eauto.
Qed.
Lemma declarations_ok p : cn MNormal RDeclarations p -> exists d, read_declarations p = Ok d.
Proof.
  intros H. destruct p as [r t ps]. node_open H. cbn [p_text p_inner] in *. unfold read_declarations. cbn [p_inner].
  apply (star_forall _ _ _ _ _ (cn MNormal RDeclaration)) in H; [|intros; calls; by apply Forall_singleton].
  destruct (each_ok read_declaration ps) as [ds ->]; [|cbn; eauto]. eapply list.Forall_impl; [exact H|]. intros q. apply declaration_ok.
Qed.
Lemma block_ok p : cn MNormal RDeclarationBlock p -> exists q d, first p = Ok q /\ read_declarations q = Ok d.
Proof.
  intros H. destruct p as [r t ps]. node_open H. cbn [p_text p_inner] in *. parts H. calls.
  match goal with N : cn _ RDeclarations _ |- _ => destruct (declarations_ok _ N) as [d Hd] end. unfold first. cbn. eauto.
Qed.

Lemma keyframe_ok p : cn MNormal RKeyframe p -> exists k, read_keyframe p = Ok k.
Proof.
  intros H. destruct p as [r t ps]. node_open H. cbn [p_text p_inner] in *. apply seq_inv in H as (? & ? & ? & ? & ? & -> & -> & Ha & Hb & _).
  apply call_silent in Ha; [|reflexivity]. open Ha. parts Ha; calls.
  all: match goal with N : cn _ RDeclarationBlock _ |- _ => destruct (block_ok _ N) as (q & d & Hq & Hd) end.
  all: unfold read_keyframe, first at 1, second; cbn [p_inner app head tail unwrap bindR]; unfold read_step.
  - rewrite (proj1 N0). cbn [bindR]. rewrite Hq. cbn [bindR]. rewrite Hd. cbn. eauto.
  - rewrite (proj1 N0). destruct (percentage_inner MNormal _ ltac:(discriminate) N0) as [n Hn]. unfold first at 1. rewrite Hn. cbn [bindR head unwrap].
    rewrite Hq. cbn [bindR]. rewrite Hd. cbn. eauto.
Qed.
Lemma animation_ok p : cn MNormal RAnimation p -> exists a, read_animation p = Ok a.
Proof.
  intros H. destruct p as [r t ps]. node_open H. cbn [p_text p_inner] in *. parts H.
  match goal with h : derives _ _ (Call RKeyframes) _ _ |- _ => apply call_silent in h; [|reflexivity]; open h;
    apply (star_forall _ _ _ _ _ (cn MNormal RKeyframe)) in h; [|intros; calls; by apply Forall_singleton] end.
  calls. unfold read_animation, first. cbn [p_inner app head tail unwrap bindR].
  match goal with |- context [each read_keyframe ?l] => destruct (each_ok read_keyframe l) as [ds ->] end; [|cbn; eauto].
  rewrite app_nil_r. eapply list.Forall_impl; [eassumption|]. intros q. apply keyframe_ok.
Qed.

Definition simple_node (p : cpair) : Prop :=
  cn MCompound RAll p \/ cn MCompound RId p \/ cn MCompound RClass p \/ cn MCompound RRoot p \/ cn MCompound RPseudoClass p \/
  cn MCompound RPseudoElement p \/ cn MCompound RAttribute p \/ cn MCompound RType_ p.
Lemma simple_nodes t ps : derives css_grammar MCompound (Call RSimple) t ps -> exists p, ps = [p] /\ simple_node p.
Proof.
  intros H. apply call_silent in H; [|reflexivity]. open H. parts H; calls; eexists; (split; [reflexivity|]); unfold simple_node; tauto.
Qed.
Lemma attribute_ok p : cn MCompound RAttribute p -> exists s, read_simple p = Ok s.
Proof.
  intros H. destruct p as [r t ps]. node_open H. cbn [p_text p_inner] in *. unfold read_simple. cbn in Hr. subst r. cbn [p_rule p_inner].
  parts H; calls; cbn [app head tail].
  1: cbn; eauto.
  all: match goal with N : cn _ RMatcher _ |- _ => destruct (matcher_ok MCompound _ ltac:(discriminate) N) as [m Hm]; rewrite Hm end; cbn [bindR read_search].
  all: match goal with
       | N : cn _ RString ?q |- _ => rewrite (proj1 N); destruct (string_inner _ N) as [z Hz]; unfold first; rewrite Hz; eexists; reflexivity
       | N : cn _ RIdent ?q |- context [p_rule ?q] => rewrite (proj1 N); eexists; reflexivity
       end.
Qed.
Lemma simple_ok p : simple_node p -> exists s, read_simple p = Ok s.
Proof.
  intros [H|[H|[H|[H|[H|[H|[H|H]]]]]]]; try (unfold read_simple; rewrite (proj1 H); eauto; fail). by apply attribute_ok.
Qed.
Lemma component_ok m p : cn m RCombinator p \/ cn m RCompound p -> forall c, exists c', read_component c p = Ok c'.
Proof.
  intros [H|H] c.
  - destruct p as [r t ps]. node_open H. cbn in Hr. subst r. cbn [p_text p_inner] in *. unfold read_component. cbn [p_rule p_text]. parts H; eauto.
  - destruct p as [r t ps]. node_open H. cbn in Hr. subst r. cbn [p_text p_inner] in *. unfold read_component. cbn [p_rule p_inner].
    apply seq_inv in H as (? & ? & ? & ? & ? & -> & -> & Ha & Hb & _). apply simple_nodes in Ha as (q & -> & Hq).
    apply (star_forall _ _ _ _ _ simple_node) in Hb; [|intros ? ? h; apply simple_nodes in h as (q' & -> & Hq'); by apply Forall_singleton].
    match goal with |- context [each read_simple ?l] => destruct (each_ok read_simple l) as [ds ->] end; [|cbn; eauto].
    constructor; [by apply simple_ok|]. eapply list.Forall_impl; [exact Hb|]. intros z. apply simple_ok.
Qed.
Lemma complex_ok p : cn MNormal RComplex p -> exists c, read_complex p = Ok c.
Proof.
  intros H. destruct p as [r t ps]. node_open H. cbn [p_text p_inner] in *. unfold read_complex. cbn [p_inner].
  apply (star_forall _ _ _ _ _ (fun q => cn MNormal RCombinator q \/ cn MNormal RCompound q)) in H.
  - apply foldR_ok. eapply list.Forall_impl; [exact H|]. intros q. apply component_ok.
  - intros t' ps' h. parts h; calls; cbn; rewrite ?list.Forall_cons, ?list.Forall_nil; tauto.
Qed.
Lemma style_ok p : cn MNormal RStyle p -> exists s, read_style p = Ok s.
Proof.
  intros H. destruct p as [r t ps]. node_open H. cbn [p_text p_inner] in *. parts H. calls. unfold read_style, first at 1, second. cbn [p_inner app head tail unwrap bindR].
  match goal with N : cn _ RDeclarationBlock _ |- _ => destruct (block_ok _ N) as (q & d & Hq & Hd) end. rewrite Hq.
  match goal with N : cn _ RSelectors ?x |- _ => assert (Hs : Forall (cn MNormal RComplex) (p_inner x)) end.
  { match goal with N : cn _ RSelectors ?x |- _ => destruct x as [r2 t2 ps2]; node_open N; cbn [p_text p_inner] in *; parts N end.
    match goal with h : derives _ _ (Star _) _ _ |- _ =>
      apply (star_forall _ _ _ _ _ (cn MNormal RComplex)) in h; [|intros t' ps' h'; parts h'; calls; cbn; by apply Forall_singleton] end.
    calls. cbn. by constructor. }
  match goal with |- context [each read_complex ?l] => destruct (each_ok read_complex l) as [ds ->] end.
  { eapply list.Forall_impl; [exact Hs|]. intros z. apply complex_ok. }
  cbn [bindR]. rewrite Hd. cbn. eauto.
Qed.

Theorem read_css_total s : read_css s = Err ECss \/ exists c, read_css s = Ok c.
Proof.
  unfold read_css. destruct (parse_out css_grammar _ _ ECss RStyleSheet s css_well_founded ltac:(apply Nat.leb_le; reflexivity)) as [->|(ps & t & rest & -> & _ & H)]; [by left|].
  right. apply call_silent in H; [|reflexivity]. open H. parts H. calls. cbn [bindR app head ok_or]. apply foldR_ok.
  destruct p as [r t' ps']. node_open N. cbn [p_text p_inner] in *.
  eapply (star_forall _ _ _ _ _ (fun q => cn MNormal RAnimation q \/ cn MNormal RStyle q)) in N.
  - eapply list.Forall_impl; [exact N|]. intros q [Hq|Hq] c; unfold read_rule; rewrite (proj1 Hq).
    + destruct (animation_ok _ Hq) as [a ->]. cbn. eauto.
    + destruct (style_ok _ Hq) as [a ->]. cbn. eauto.
  - intros t2 ps2 h. apply call_silent in h; [|reflexivity]. open h. parts h; calls; rewrite ?list.Forall_cons, ?list.Forall_nil; tauto.
Qed.

Theorem read_inline_css_total s : read_inline_css s = Err ECss \/ exists ds, read_inline_css s = Ok ds.
Proof.
  unfold read_inline_css. destruct (parse_out css_grammar _ _ ECss RDeclarations s css_well_founded ltac:(apply Nat.leb_le; reflexivity)) as [->|(ps & t & rest & -> & _ & H)]; [by left|].
  right. calls. cbn [bindR app head ok_or]. by apply declarations_ok.
Qed.

(** ** Templates. *)
Notation hn := (node html_grammar).
Ltac starred P :=
  match goal with h : derives _ _ (Star _) _ _ |- _ =>
    apply (star_forall _ _ _ _ _ P) in h end.

Lemma binder_ok m p : hn m HBinder p -> exists b, parse_binder p = Ok b.
Proof.
  intros H. destruct p as [r t ps]. node_open H. cbn [p_text p_inner] in *. parts H.
  starred (hn MNormal HTransformer); [|intros t' ps' h'; parts h'; calls; cbn; by apply Forall_singleton].
  calls. unfold parse_binder. cbn [p_inner app].
  apply foldR_ok. rewrite list.Forall_cons, app_nil_r. split.
  - intros b. unfold binder_part. rewrite (proj1 N). eauto.
  - eapply list.Forall_impl; [eassumption|]. intros q Hq b. unfold binder_part. rewrite (proj1 Hq). eauto.
Qed.
Lemma span_ok p : hn MNormal HBinder p \/ hn MNormal HQuotedString p -> exists b, parse_span p = Ok b.
Proof.
  intros [H|H]; unfold parse_span; rewrite (proj1 H); [|eauto]. destruct (binder_ok _ _ H) as [b ->]. cbn. eauto.
Qed.
Lemma argument_ok p : hn MNormal HEvent p \/ hn MNormal HBinder p \/ hn MNormal HKey p -> exists b, parse_argument p = Ok b.
Proof.
  intros [H|[H|H]]; unfold parse_argument; rewrite (proj1 H); [eauto| |eauto]. destruct (binder_ok _ _ H) as [b ->]. cbn. eauto.
Qed.

Definition attribute_node (p : hpair) : Prop :=
  hn MNormal HRepeatBinding p \/ hn MNormal HAliasBinding p \/ hn MNormal HTagBinding p \/ hn MNormal HAttributeBinding p \/
  hn MNormal HCallbackBinding p \/ hn MNormal HVisibilityBinding p \/ hn MNormal HDoubleQuoted p \/ hn MNormal HUnquoted p \/
  hn MNormal HEmpty p.
Ltac one_binder :=
  match goal with N : hn _ HBinder _ |- _ => destruct (binder_ok _ _ N) as [b ->] end; cbn; eauto.
Lemma binding_ok p : attribute_node p -> exists b, parse_element_binding p = Ok b.
Proof.
  destruct p as [r t ps].
  intros [H|[H|[H|[H|[H|[H|[H|[H|H]]]]]]]]; node_open H; cbn in Hr; subst r; cbn [p_text p_inner] in *.
  - parts H. calls. unfold parse_element_binding, hfirst, hsecond, hthird. cbn [p_rule p_inner app head tail unwrap bindR]. one_binder.
  - parts H. calls. unfold parse_element_binding, hfirst, hsecond, hthird. cbn [p_rule p_inner app head tail unwrap bindR]. one_binder.
  - parts H. calls. unfold parse_element_binding, hfirst, hsecond, hthird. cbn [p_rule p_inner app head tail unwrap bindR]. one_binder.
  - apply seq_inv in H as (? & ? & ? & ? & ? & _ & -> & Ha & H & _). parts Ha.
    apply seq_inv in H as (? & ? & ? & ? & ? & _ & -> & Ha & H & _). calls.
    apply seq_inv in H as (? & ? & ? & ? & ? & _ & -> & Ha & H & _). parts Ha.
    apply seq_inv in H as (? & ? & ? & ? & ? & _ & -> & Ha & H & _). parts Ha.
    apply seq_inv in H as (? & ? & ? & ? & ? & _ & -> & Ha & H & _). parts H.
    apply seq_inv in Ha as (? & ? & ? & ? & ? & _ & -> & Ha & H & _).
    apply (star_forall _ _ _ _ _ (fun q => hn MNormal HBinder q \/ hn MNormal HQuotedString q)) in H;
      [|intros t' ps' h'; parts h'; calls; apply Forall_singleton; tauto].
    unfold parse_element_binding, hfirst. cbn [p_rule p_inner app head tail unwrap bindR].
    match goal with |- context [each parse_span ?l] => destruct (each_ok parse_span l) as [bs ->] end; [|cbn; eauto].
    rewrite app_nil_r. apply Forall_app. split.
    + parts Ha; calls; apply Forall_singleton; apply span_ok; tauto.
    + eapply list.Forall_impl; [exact H|]. intros q. apply span_ok.
  - parts H. starred (fun q => hn MNormal HEvent q \/ hn MNormal HBinder q \/ hn MNormal HKey q);
      [|intros t' ps' h'; parts h'; calls; apply Forall_singleton; tauto].
    calls. unfold parse_element_binding, hfirst. cbn [p_rule p_inner app head tail unwrap bindR].
    match goal with |- context [each parse_argument ?l] => destruct (each_ok parse_argument l) as [bs ->] end; [|cbn; eauto].
    rewrite app_nil_r. eapply list.Forall_impl; [eassumption|]. intros q. apply argument_ok.
  - parts H. calls. unfold parse_element_binding, hfirst, hsecond, hthird. cbn [p_rule p_inner app head tail unwrap bindR]. one_binder.
  - parts H. calls. unfold parse_element_binding, hfirst, hsecond, hthird. cbn. eauto.
  - parts H. calls. unfold parse_element_binding, hfirst, hsecond, hthird. cbn. eauto.
  - calls. unfold parse_element_binding, hfirst, hsecond, hthird. cbn. eauto.
Qed.
Lemma bindings_ok p : hn MNormal HAttributes p -> exists b, parse_element_bindings p = Ok b.
Proof.
  intros H. destruct p as [r t ps]. node_open H. cbn [p_text p_inner] in *. unfold parse_element_bindings. cbn [p_inner].
  apply (star_forall _ _ _ _ _ attribute_node) in H.
  - apply each_ok. eapply list.Forall_impl; [exact H|]. intros q. apply binding_ok.
  - intros t' ps' h'. apply call_silent in h'; [|reflexivity]. open h'. parts h'; calls; apply Forall_singleton; unfold attribute_node; tauto.
Qed.

Definition content_node (p : hpair) : Prop :=
  hn MNormal HScript p \/ hn MNormal HVoid p \/ hn MNormal HText p \/ hn MNormal HElement p.
Lemma content_nodes t ps : derives html_grammar MNormal (Call HContent) t ps -> exists p, ps = [p] /\ content_node p.
Proof.
  intros H. apply call_silent in H; [|reflexivity]. open H. parts H; calls; eexists; (split; [reflexivity|]); unfold content_node; tauto.
Qed.
Lemma text_ok p : hn MCompound HBinder p \/ hn MCompound HString p -> exists b, prefetch_span p = Ok b.
Proof.
  intros [H|H]; unfold prefetch_span; rewrite (proj1 H); [|eauto]. destruct (binder_ok _ _ H) as [b ->]. cbn. eauto.
Qed.
Definition reads_well (p : hpair) : Prop := content_node p -> forall is_last, exists h, parse_content p is_last = Ok h.
Lemma content_step r t ps : Forall reads_well ps -> Forall (fun p => Forall reads_well (p_inner p)) ps -> reads_well (Pair r t ps).
Proof.
  intros _ IH. intros [H|[H|[H|H]]] is_last.
  - destruct H as [Hr H]. cbn in Hr. subst r. cbn. eauto.
  - destruct H as [Hr H]. cbn in Hr. subst r. open H. cbn [p_inner p_text] in H.
    apply seq_inv in H as (? & ? & ? & ? & ? & _ & -> & Ha & H & _). parts Ha.
    apply seq_inv in H as (? & ? & ? & ? & ? & _ & -> & Ha & H & _). calls.
    apply seq_inv in H as (? & ? & ? & ? & ? & _ & -> & Ha & H & _). calls.
    cbn [parse_content app]. match goal with N : hn _ HAttributes _ |- _ => destruct (bindings_ok _ N) as [b ->] end. cbn. eauto.
  - destruct H as [Hr H]. cbn in Hr. subst r. open H. cbn [p_inner p_text] in H. cbn [parse_content].
    destruct (each_ok prefetch_span ps) as [ds ->]; [|cbn; eauto].
    apply seq_inv in H as (? & ? & ? & ? & ? & _ & -> & Ha & H & _).
    apply (star_forall _ _ _ _ _ (fun q => hn MCompound HBinder q \/ hn MCompound HString q)) in H;
      [|intros t' ps' h'; parts h'; calls; apply Forall_singleton; tauto].
    apply Forall_app. split.
    + parts Ha; calls; apply Forall_singleton; apply text_ok; tauto.
    + eapply list.Forall_impl; [exact H|]. intros q. apply text_ok.
  - destruct H as [Hr H]. cbn in Hr. subst r. open H. cbn [p_inner p_text] in H.
    parts H. calls. cbn [parse_content app].
    match goal with N : hn _ HAttributes _ |- _ => destruct (bindings_ok _ N) as [b ->] end. cbn [bindR].
    match goal with N : hn _ HChildren ?c |- _ => destruct c as [rc tc cs]; destruct N as [_ N]; open N; cbn [p_inner p_text] in N;
      apply (star_forall _ _ _ _ _ content_node) in N; [|intros t' ps' h'; apply content_nodes in h' as (q & -> & Hq); by apply Forall_singleton];
      rename N into HC end.
    cbn [app] in IH. apply list.Forall_cons in IH as [_ IH]. apply list.Forall_cons in IH as [_ IH]. apply list.Forall_cons in IH as [IH _].
    cbn [p_inner] in IH.
    match goal with |- exists h, bindR (?f cs) ?k = _ => assert (Hgo : forall l, Forall content_node l -> Forall reads_well l -> exists hs, f l = Ok hs) end.
    { clear. induction l as [|c l IHl]; intros HC IH; [by exists []|].
      apply list.Forall_cons in HC as [C1 C2]. apply list.Forall_cons in IH as [I1 I2].
      destruct (I1 C1 (match l with [] => true | _ => false end)) as [h Hh]. destruct (IHl C2 I2) as [hs Hhs].
      exists (h :: hs). rewrite Hh. cbn [bindR]. rewrite Hhs. reflexivity. }
    destruct (Hgo cs HC IH) as [hs Hhs]. rewrite Hhs. cbn. eauto.
Qed.
Lemma content_ok p : reads_well p.
Proof.
  enough (reads_well p /\ Forall reads_well (p_inner p)) by tauto.
  induction p as [r t ps IH] using pair_ind'.
  assert (H1 : Forall reads_well ps) by (eapply list.Forall_impl; [exact IH|]; cbn; tauto).
  assert (H2 : Forall (fun p => Forall reads_well (p_inner p)) ps) by (eapply list.Forall_impl; [exact IH|]; cbn; tauto).
  split; [|exact H1]. by apply content_step.
Qed.

Theorem read_html_total s : read_html s = Err EHtml \/ exists h, read_html s = Ok h.
Proof.
  unfold read_html. destruct (parse_out html_grammar _ _ EHtml HDocument s html_well_founded ltac:(apply Nat.leb_le; reflexivity)) as [->|(ps & t & rest & -> & _ & H)]; [by left|].
  right. apply call_silent in H; [|reflexivity]. open H.
  apply seq_inv in H as (? & ? & ? & ? & ? & _ & -> & Ha & H & _). parts Ha.
  apply seq_inv in H as (? & ? & ? & ? & ? & _ & -> & Ha & H & _).
  apply seq_inv in Ha as (? & ? & ? & ? & ? & _ & -> & Ha & _ & _).
  apply content_nodes in Ha as (q & -> & Hq). cbn [app bindR head ok_or]. by apply content_ok.
Qed.

(** A repetition never fails, so no inline style is refused. *)
Lemma loop_never {R} n (sk a : string -> option (out R)) : forall s, loop n sk a s <> Some Fail.
Proof.
  induction n as [|n IH]; intros s; cbn [loop]; [done|]. destruct (sk s) as [[|? ? s1]|]; [done| |done]. destruct (a s1) as [[|? ? s2]|]; [done| |done].
  specialize (IH s2). by destruct (loop n sk a s2) as [[| ? ? ?]|].
Qed.
Lemma declarations_never f s : eval css_grammar f MNormal (Call RDeclarations) s <> Some Fail.
Proof.
  destruct f as [|f]; [done|]. change (eval css_grammar (S f) MNormal (Call RDeclarations) s) with (emit MNormal RDeclarations <$> eval css_grammar f MNormal (Star (Call RDeclaration)) s).
  destruct f as [|f]; [done|]. cbn [eval]. fold (eval css_grammar).
  destruct (eval css_grammar f MNormal (Call RDeclaration) s) as [[|ps t s1]|]; [done| |done].
  pose proof (loop_never f (skipping MNormal (eval css_grammar f MAtomic (g_skip css_grammar))) (eval css_grammar f MNormal (Call RDeclaration)) s1) as H.
  by destruct (loop f _ _ s1) as [[| ? ? ?]|].
Qed.
Lemma refused {R} (g : grammar R) e r s : parse_with g e r s = Err e -> eval g (enough s) MNormal (Call r) s = Some Fail.
Proof. unfold parse_with. generalize (enough s). intros f. by destruct (eval g f MNormal (Call r) s) as [[|ps t rest]|]. Qed.
Theorem read_inline_css_reads s : exists ds, read_inline_css s = Ok ds.
Proof.
  unfold read_inline_css. destruct (parse_out css_grammar _ _ ECss RDeclarations s css_well_founded ltac:(apply Nat.leb_le; reflexivity)) as [E|(ps & t & rest & -> & _ & H)].
  - exfalso. apply refused in E. revert E. generalize (enough s). intros f. apply declarations_never.
  - calls. cbn [bindR app head ok_or]. by apply declarations_ok.
Qed.
