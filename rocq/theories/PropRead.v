(** * Reading templates, style sheets and data: C42-C45, C61-C67.

    Vocabulary: SpecText.v, SpecSheet.v (how style sheets are written), SpecTemplate.v (how
    templates are written), SpecKeys.v (names of properties), SpecRead.v. *)
From Coq Require Import ZArith Reals Lia Lra.
From Flocq Require Import Core.Core IEEE754.BinarySingleNaN.
From stdpp Require Import gmap.
From Verif Require Import Str StrFacts F32 Res ResFacts PropKey Css Html Json JsonFacts SpecText SpecKeys SpecSheet SpecTemplate SpecRead
  ReadCss ReadHtml ReadTotal NumberFacts KeyFacts PegFacts PegLook ReadSheet ReadMarkup ReadTexts ReadTemplate ReadFacts.
Close Scope R_scope.

(** What a declaration [p: v;] alone gives. *)
Definition gives_one (p text : string) (k : PropertyKey) (d : Definition_) : Prop :=
  read_inline_css (p +:+ (":" +:+ (text +:+ ";"))) = Ok [DeclProperty (mkProperty k [[d]])].
Definition auto : Definition_ := DExplicit (CKeyword "auto").

(** ** C42 *)
(** Six hexadecimal digits, small or large, are the three channels of an opaque colour, eight all four. *)
Theorem C42_hex_partial : forall r g b a tr tg tb ta,
  channel tr r -> channel tg g -> channel tb b -> channel ta a ->
  gives_one "color" ("#" +:+ (tr +:+ (tg +:+ tb))) KColor (DExplicit (CColor (r, g, b, 255%Z))) /\
  gives_one "color" ("#" +:+ (tr +:+ (tg +:+ (tb +:+ ta)))) KColor (DExplicit (CColor (r, g, b, a))).
Proof.
  intros r g b a tr tg tb ta Hr Hg Hb Ha.
  assert (K : forall d t, value_text d t -> gives_one "color" t KColor d).
  { intros d t H. apply single_read; try done; [cbn; lia|by intros [q E]|by apply parse_key_written]. }
  split; apply K; by constructor.
Qed.
Print Assumptions C42_hex_partial.
(** Every colour is read back from how it is written. *)
Theorem C42_round_trip_partial : forall r g b a, is_channel r -> is_channel g -> is_channel b -> is_channel a ->
  gives_one "color" ("#" +:+ (two_digits r +:+ (two_digits g +:+ two_digits b))) KColor (DExplicit (CColor (r, g, b, 255%Z))) /\
  gives_one "color" ("#" +:+ (two_digits r +:+ (two_digits g +:+ (two_digits b +:+ two_digits a)))) KColor (DExplicit (CColor (r, g, b, a))).
Proof. intros r g b a Hr Hg Hb Ha. apply C42_hex_partial; by apply two_digits_channel. Qed.
Print Assumptions C42_round_trip_partial.
Example C42_ex : gives_one "color" "#0aFf80" KColor (DExplicit (CColor (10, 255, 128, 255)%Z)) /\ two_digits 175 = "af".
Proof. split; vm_compute; reflexivity. Qed.
(** Missing: the short form [#123] is [#112233] in CSS; it is read as white. *)
Theorem C42_short_refuted : gives_one "color" "#123" KColor (DExplicit (CColor (255, 255, 255, 255)%Z)).
Proof. vm_compute. reflexivity. Qed.

(** ** C43 *)
(** No text of a template has a line break in it, and none is empty. *)
Theorem C43_no_line_break : forall s h x, read_html s = Ok h -> shown_in h x -> unbroken x /\ x <> "".
Proof. exact html_unbroken. Qed.
Print Assumptions C43_no_line_break.
Lemma paragraph_read ss s : content_text true (mkHtml "" [] (Some ss) []) s ->
  read_html ("<p>" +:+ (s +:+ "</p>")) = Ok (mkHtml "p" [] None [mkHtml "" [] (Some ss) []]).
Proof.
  intros Hc. apply document_read.
  assert (Hd : content_text true (mkHtml "p" [] None [mkHtml "" [] (Some ss) []])
    ("<" +:+ ("p" +:+ ("" +:+ (">" +:+ ("" +:+ ((s +:+ ("" +:+ "")) +:+ ("</" +:+ ("p" +:+ ("" +:+ ">")))))))))).
  { apply element_written; [split; [done|]|apply no_attributes; by left|constructor| |constructor].
    - split; [done|]. split; [done|]. intros x y E (v & Hv & Hl). destruct x as [|c x].
      + repeat (destruct Hv as [<-|Hv]; [done|]). done.
      + rewrite sapp_cons in E. injection E as <- E. destruct x; [|done]. repeat (destruct Hv as [<-|Hv]; [by destruct Hl|]). done.
    - apply next_child; [exact Hc|constructor|by left|constructor]. }
  pose proof (document_written "" _ _ "" (blank_nil _ _) Hd (blank_nil _ _) ltac:(by left)) as Q. rewrite !sapp_nil in Q. exact Q.
Qed.
(** A text says its lines without the indentation of the lines after the first, joined by single
    spaces ([says], SpecTemplate.v); missing: texts that begin with a blank. *)
Theorem C43_lines_partial : forall s s', all text_char s -> says true s s' -> s' <> "" -> (forall c r, s = String c r -> white c = false) ->
  read_html ("<p>" +:+ (s +:+ "</p>")) = Ok (mkHtml "p" [] None [mkHtml "" [] (Some [TSString s']) []]).
Proof.
  intros s s' Hs Hy Hn Hw. apply paragraph_read. apply (text_written true [TSString s] [TSString s']); try done.
  - assert (s <> "").
    { intros ->. inversion Hy as [s0 l ls ls' Hl Hf]; subst. inversion Hl as [l0 U E|l0 ls0 s1 U L E]; subst; [inversion Hf; subst; by apply Hn|by destruct l]. }
    pose proof (next_string s [] "" Hs H ltac:(by left) no_spans) as Q. by rewrite sapp_nil in Q.
  - apply shows_string; [done|done|constructor].
Qed.
Print Assumptions C43_lines_partial.
(** A text without line breaks is kept as it is, up to its last character. *)
Theorem C43_text_kept_partial : forall s, all text_char s -> unbroken s -> (forall c r, s = String c r -> white c = false) -> s <> "" ->
  read_html ("<p>" +:+ (s +:+ "</p>")) = Ok (mkHtml "p" [] None [mkHtml "" [] (Some [TSString s]) []]).
Proof.
  intros s Hs Hu Hw Hn. apply C43_lines_partial; try done. rewrite <- (sapp_nil s) at 2. apply (says_lines true s s [] []); [by constructor|constructor].
Qed.
Print Assumptions C43_text_kept_partial.
Example C43_ex : all text_char "a  b, c! " /\ unbroken "a  b, c! " /\ read_html "<p>a  b, c! </p>" = Ok (mkHtml "p" [] None [mkHtml "" [] (Some [TSString "a  b, c! "]) []]) /\
  read_html ("<p>one" +:+ String nl ("   two" +:+ String nl "</p>")) = Ok (mkHtml "p" [] None [mkHtml "" [] (Some [TSString "one two"]) []]).
Proof. repeat split; vm_compute; reflexivity. Qed.
(** Missing: in [a<b>c</b> d] the blank in front of [d] is lost. *)
Theorem C43_leading_blank_refuted : read_html "<p>a<b>c</b> d</p>" =
  Ok (mkHtml "p" [] None [mkHtml "" [] (Some [TSString "a"]) []; mkHtml "b" [] None [mkHtml "" [] (Some [TSString "c"]) []]; mkHtml "" [] (Some [TSString "d"]) []]).
Proof. vm_compute. reflexivity. Qed.

(** ** C44 *)
(** The names a declaration can be written with. *)
Definition property_like (p : string) : Prop := all letter_or_sign p /\ (2 <= String.length p)%nat /\ ~ custom p.
Lemma custom_dec p : custom p \/ ~ custom p.
Proof.
  destruct p as [|a [|b p]]; try (right; intros [q E]; discriminate E). destruct (Ascii.ascii_dec a "-") as [->|Ha]; [|right; intros [q E]; by injection E].
  destruct (Ascii.ascii_dec b "-") as [->|Hb]; [|right; intros [q E]; by injection E]. left. by exists p.
Qed.
Lemma auto_text : value_text auto "auto".
Proof. constructor. by split; [|split; [|split]]. Qed.
Lemma one_given p t d : property_like p -> value_text d t ->
  (exists k, written k p /\ gives_one p t k d) \/ ((forall k, ~ written k p) /\ read_inline_css (p +:+ (":" +:+ (t +:+ ";"))) = Ok []).
Proof.
  intros (H1 & H2 & H3) Ht. destruct (parse_key p) as [k|] eqn:E.
  - left. exists k. apply parse_key_written in E. split; [done|]. by apply single_read.
  - right. assert (Hw : forall k, ~ written k p) by (intros k Hk; apply parse_key_written in Hk; congruence). split; [done|].
    assert (K : declaration_text [] (p +:+ ("" +:+ (":" +:+ ("" +:+ (t +:+ ("" +:+ ";"))))))).
    { apply (declaration_written p [[d]]); try (by constructor); try done. apply values_last. by apply shorthand_last. }
    pose proof (next_declaration _ _ "" [] "" K (blank_nil _ _) no_declarations) as Q. apply inline_read in Q. cbn [app] in Q. rewrite <- Q. f_equal. by rewrite !sapp_nil.
Qed.
Lemma standard_like k : property_like (standard_name k).
Proof.
  assert (T : forallb (fun k => let n := standard_name k in forallb letter_or_sign (list_ascii_of_string n) && (2 <=? String.length n)%nat && negb (String.prefix "--" n)) all_keys = true) by (vm_compute; reflexivity).
  rewrite forallb_forall in T. specialize (T k (all_keys_complete k)). cbv zeta in T. apply andb_prop in T as [T T3]. apply andb_prop in T as [T1 T2]. apply Nat.leb_le in T2. split; [|split; [done|]].
  - clear T2 T3. induction (standard_name k) as [|c s IH]; [done|]. cbn in T1. apply andb_prop in T1 as [T0 T1]. split; [done|by apply IH].
  - intros [q E]. rewrite E in T3. cbn in T3. by destruct q.
Qed.
(** A property is recognised under its name in CSS, whatever its value (and then means this property);
    missing: 24 of the 593 properties. *)
Theorem C44_standard_names_partial : forall k d t, ~ In k (map fst misspelt) -> ~ In k nameless -> value_text d t -> gives_one (standard_name k) t k d.
Proof.
  intros k d t H1 H2 Ht. destruct (standard_like k) as (S1 & S2 & S3). apply single_read; try done. by right.
Qed.
Print Assumptions C44_standard_names_partial.
(** Two names never mean the same property. *)
Theorem C44_one_name : forall p p' k d t, property_like p -> property_like p' -> value_text d t -> gives_one p t k d -> gives_one p' t k d -> p = p'.
Proof.
  intros p p' k d t Hp Hp' Ht G G'.
  assert (K : forall p, property_like p -> gives_one p t k d -> written k p).
  { intros q Hq Gq. destruct (one_given q t d Hq Ht) as [(k' & Hk & E)|(_ & E)]; unfold gives_one in Gq, E; rewrite Gq in E; [|done]. apply (f_equal (fun r => match r with Ok [DeclProperty x] => Some (p_key x) | _ => None end)) in E. by injection E as <-. }
  destruct (K p Hp G) as [H|(H & N1 & N2)], (K p' Hp' G') as [H'|(H' & N1' & N2')].
  - assert (T : forallb (fun '(k, n) => forallb (fun '(k', n') => negb (key_eqb k k') || String.eqb n n') misspelt) misspelt = true) by (vm_compute; reflexivity).
    rewrite forallb_forall in T. specialize (T _ H). cbv beta iota in T. rewrite forallb_forall in T. specialize (T _ H'). cbv beta iota in T.
    apply orb_prop in T as [T|T]; [|by apply String.eqb_eq]. apply negb_true_iff in T. assert (key_eqb k k = true) by by apply key_eqb_spec. congruence.
  - exfalso. apply N1'. by apply (in_map fst) in H.
  - exfalso. apply N1. by apply (in_map fst) in H'.
  - congruence.
Qed.
Print Assumptions C44_one_name.
(** One name means at most one property, whatever the value. *)
Theorem C44_one_meaning : forall p k k' d d' t t', property_like p -> value_text d t -> value_text d' t' -> gives_one p t k d -> gives_one p t' k' d' -> k = k'.
Proof.
  intros p k k' d d' t t' Hp Ht Ht' G G'.
  assert (K : forall k d t, value_text d t -> gives_one p t k d -> parse_key p = Some k).
  { intros k0 d0 t0 Hq Gq. destruct (one_given p t0 d0 Hp Hq) as [(k1 & Hk & E)|(_ & E)]; unfold gives_one in Gq, E; rewrite Gq in E; [|done].
    apply (f_equal (fun r => match r with Ok [DeclProperty x] => Some (p_key x) | _ => None end)) in E. injection E as <-. by apply parse_key_written. }
  pose proof (K _ _ _ Ht G). pose proof (K _ _ _ Ht' G'). congruence.
Qed.
Print Assumptions C44_one_meaning.
Example C44_ex : ~ In KFlexDirection (map fst misspelt) /\ ~ In KFlexDirection nameless /\ gives_one "flex-direction" "auto" KFlexDirection auto.
Proof. split; [intros H; by apply key_in_spec in H|]. split; [intros H; by apply key_in_spec in H|]. vm_compute. reflexivity. Qed.
(** Missing: [border-style], [list-style], [outline-style] and 19 others are not recognised under
    their names (but with an [s] after [style]), [background-position-x] and [-y] under no name. *)
Theorem C44_style_names_refuted :
  read_inline_css "border-style:solid;" = Ok [] /\ gives_one "border-styles" "solid" KBorderStyle (DExplicit (CKeyword "solid")) /\
  read_inline_css "background-position-x:0;" = Ok [].
Proof. repeat split; vm_compute; reflexivity. Qed.
Theorem C44_missing_names : forall k d t, In k (map fst misspelt) \/ In k nameless -> value_text d t -> read_inline_css (standard_name k +:+ (":" +:+ (t +:+ ";"))) = Ok [].
Proof.
  intros k d t Hk Ht. destruct (one_given _ t d (standard_like k) Ht) as [(k' & Hw & _)|(_ & E)]; [|done]. exfalso.
  assert (T : forallb (fun k => match parse_key (standard_name k) with Some _ => false | None => true end) (map fst misspelt ++ nameless) = true) by (vm_compute; reflexivity).
  rewrite forallb_forall in T. specialize (T k). rewrite in_app_iff in T. specialize (T Hk). apply parse_key_written in Hw. by rewrite Hw in T.
Qed.
Print Assumptions C44_missing_names.

(** ** C45 *)
(** The values that count as false are those that are nothing: null, false, zero, the empty text and
    the empty array (Displayed and repeated data come from these readings.) *)
Theorem C45_boolean_partial : forall v, json_wf v = true -> eval_boolean v = false <-> nothing v.
Proof. exact boolean_nothing. Qed.
Print Assumptions C45_boolean_partial.
(** Missing: an empty object counts as true, unlike an empty array. *)
Theorem C45_empty_object_refuted : eval_boolean (JObj []) = true /\ eval_boolean (JArr []) = false.
Proof. split; reflexivity. Qed.
(** A number of things is what the number says without its fraction, 0 if it is negative; up to 2^53. *)
Theorem C45_count_partial : forall n r, num_wf n = true -> number_is n r -> (Rabs r <= IZR (2 ^ 53))%R -> eval_u64 (JNum n) = Z.max 0 (Ztrunc r).
Proof. exact number_counts. Qed.
Print Assumptions C45_count_partial.
(** Missing: beyond, where neighbouring whole numbers are confused. *)
Theorem C45_large_count_refuted : eval_u64 (JNum (NPos 9007199254740993)) = 9007199254740992%Z.
Proof. vm_compute. reflexivity. Qed.
Lemma read_back n : (n <= u64_max)%N -> parse_u64 (fmt_N n) = Some n.
Proof.
  intros Hn. pose proof (parse_usize_fmt (N.to_nat n)) as H. unfold fmt_nat in H. rewrite N2Nat.id in H. specialize (H Hn). unfold parse_usize in H. unfold fmt_N.
  destruct (parse_u64 (pretty n)) as [m|]; [|done]. cbn in H. injection H as H. f_equal. lia.
Qed.
(** The text that shows a whole number counts for this number, however large. *)
Theorem C45_shown_counts : forall fmt n, (n <= u64_max)%N -> eval_u64 (JStr (eval_string fmt (JNum (NPos n)))) = Z.of_N n.
Proof. intros fmt n Hn. cbn [eval_string eval_u64 fmt_num]. by rewrite read_back. Qed.
Print Assumptions C45_shown_counts.
(** Different whole numbers never look the same. *)
Theorem C45_shown_apart : forall fmt n m, (n <= u64_max)%N -> (m <= u64_max)%N -> eval_string fmt (JNum (NPos n)) = eval_string fmt (JNum (NPos m)) -> n = m.
Proof. intros fmt n m Hn Hm H. cbn in H. pose proof (read_back n Hn) as E. rewrite H, read_back in E by done. by injection E. Qed.
(** An array has the texts of its members, anything else is a list of itself. *)
Theorem C45_array : forall fmt v,
  (forall l, v = JArr l -> List.length (eval_array fmt v) = List.length l /\ forall i x, nth_error l i = Some x -> nth_error (eval_array fmt v) i = Some (eval_string fmt x)) /\
  ((forall l, v <> JArr l) -> eval_array fmt v = [eval_string fmt v]).
Proof.
  intros fmt v. split; [|intros H; destruct v; try done; by destruct (H l)]. intros l ->. cbn. split; [apply map_length|]. intros i x H. by apply map_nth_error.
Qed.
Example C45_ex : json_wf (JArr [JNum (NPos 3); JStr "x"]) = true /\ ~ nothing (JArr [JNum (NPos 3); JStr "x"]) /\ nothing (JNum (NPos 0)) /\
  eval_array (fun _ => "") (JArr [JNum (NPos 30); JStr "x"; JNull]) = ["30"; "x"; ""].
Proof. split; [reflexivity|]. split; [intros H; inversion H|]. split; [by constructor|vm_compute; reflexivity]. Qed.
