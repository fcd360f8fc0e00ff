(** * Loading pages from texts: C61-C66.

    Vocabulary: SpecText.v, SpecSheet.v (how style sheets are written), SpecTemplate.v (how
    templates are written), SpecKeys.v (names of properties); Load.v ([from_html]: loading). *)
From Coq Require Import ZArith Reals Lia Lra.
From Flocq Require Import Core.Core IEEE754.BinarySingleNaN.
From stdpp Require Import gmap.
From Verif Require Import Str StrFacts F32 Res ResFacts PropKey Css Html Json SpecText SpecKeys SpecSheet SpecTemplate SpecRead
  Number ReadCss ReadHtml ReadTotal NumberFacts KeyFacts PegFacts PegLook ReadSheet ReadMarkup ReadTexts ReadTemplate ReadFacts PropRead
  Element Tree ViewModel Render Styling Events View Load Samples FloatFacts.
Close Scope R_scope.

(** ** C61 *)
(** Every text is read or refused: no text makes a reader panic or run forever. *)
Theorem C61_sheets : forall s, (exists c, read_css s = Ok c) \/ read_css s = Err ECss.
Proof. intros s. destruct (read_css_total s); tauto. Qed.
Print Assumptions C61_sheets.
Theorem C61_inline_styles : forall s, exists ds, read_inline_css s = Ok ds.
Proof. exact read_inline_css_reads. Qed.
Print Assumptions C61_inline_styles.
Theorem C61_templates : forall s, (exists h, read_html s = Ok h) \/ read_html s = Err EHtml.
Proof. intros s. destruct (read_html_total s); tauto. Qed.
Print Assumptions C61_templates.
Example C61_ex : read_html "<p" = Err EHtml /\ read_css "p{" = Err ECss /\ is_ok (read_html "<p></p>") = true /\ is_ok (read_css "p{}") = true.
Proof. repeat split; vm_compute; reflexivity. Qed.

(** ** C62 *)
(** However a style sheet is laid out, it is read as the rules it was written from: the styles in
    their order, with their selectors, properties and values, and the last animation of each name.
    Missing: the ways of writing that CSS has and [sheet_text] has not, see below. *)
Theorem C62_sheet_read_partial : forall rs t, sheet_text rs t -> exists c, read_css t = Ok c /\ sheet_of rs c.
Proof. exact sheet_read. Qed.
Print Assumptions C62_sheet_read_partial.
(** A text is a way of writing one sheet only. *)
Theorem C62_one_meaning_partial : forall rs rs' t, sheet_text rs t -> sheet_text rs' t -> styles_of rs = styles_of rs' /\ forall n a, last_animation n rs a <-> last_animation n rs' a.
Proof.
  intros rs rs' t H H'. apply sheet_read in H as (c & E & C1 & C2). apply sheet_read in H' as (c' & E' & C1' & C2'). rewrite E in E'. injection E' as <-.
  split; [congruence|]. intros n a. by rewrite <- C2, <- C2'.
Qed.
Print Assumptions C62_one_meaning_partial.
(** A sheet written in a free layout. *)
Definition sheet_example : string :=
  "/* ink */ p > .note ,#x:hover" +:+ String nl ("{color :var(--ink);margin:1px auto ; }@keyframes fade{ from{left:0;}50%{left:2em;} }").
Lemma whole_denotes t m : decimal t false m 0 -> (0 <= m <= 2 ^ 24)%Z -> exists x, denotes t x /\ is_finite x = true /\ B2R x = IZR m.
Proof.
  intros Hd Hm. pose proof (decimal_nearest false (Z.to_N m) 0) as H. rewrite Z2N.id in H by lia. exists (f32_of_decimal false (Z.to_N m) 0).
  split; [exists false, m, 0%nat; split; [exact Hd|exact H]|]. destruct H as [H _].
  assert (E : nearest (IZR m / IZR (10 ^ Z.of_nat 0)) = IZR m).
  { change (IZR (10 ^ Z.of_nat 0)) with 1%R. unfold Rdiv. rewrite Rinv_1, Rmult_1_r. apply (int_format m). lia. }
  rewrite E in H. destruct H as (H1 & H2 & _); [|done]. apply IZR_lt. lia.
Qed.
Ltac blanks := repeat first [apply blank_nil | apply blank_white; [reflexivity|]].
Ltac named := repeat first [split | discriminate | progress vm_compute].
Lemma property_written k p vs t a b c : property_like p -> parse_key p = Some k -> values_text vs t -> gap a -> gap b -> gap c ->
  declaration_text [DeclProperty (mkProperty k vs)] (p +:+ (a +:+ (":" +:+ (b +:+ (t +:+ (c +:+ ";")))))).
Proof. intros (P1 & P2 & P3) Hw Hv Ha Hb Hc. apply (declaration_written p vs); try done. apply declares_property; [done|by apply parse_key_written]. Qed.
Ltac like := split; [by vm_compute|split; [cbn; lia|by intros [? ?]]].
Example C62_ex : exists x y, B2R x = 1%R /\ B2R y = 2%R /\
  sheet_text
    [RuleStyle (mkStyle [[SType "p"; SCombinator ">"; SClass "note"]; [SId "x"; SPseudoClass "hover"]]
       [DeclProperty (mkProperty KColor [[DVar "--ink"]]); DeclProperty (mkProperty KMargin [[DExplicit (CDimension (mkDim x UPx)); DExplicit (CKeyword "auto")]])]);
     RuleAnimation (mkAnimation "fade" [mkKeyframe 0 [DeclProperty (mkProperty KLeft [[DExplicit CZero]])]; mkKeyframe 50 [DeclProperty (mkProperty KLeft [[DExplicit (CDimension (mkDim y UEm))]])]])]
    sheet_example.
Proof.
  destruct (whole_denotes "1" 1 (decimal_whole false "1" ltac:(by vm_compute) ltac:(done)) ltac:(lia)) as (x & Hx & Fx & Rx).
  destruct (whole_denotes "2" 2 (decimal_whole false "2" ltac:(by vm_compute) ltac:(done)) ltac:(lia)) as (y & Hy & Fy & Ry).
  destruct (whole_denotes "50" 50 (decimal_whole false "50" ltac:(by vm_compute) ltac:(done)) ltac:(lia)) as (z & Hz & Fz & Rz).
  exists x, y. do 2 (split; [done|]).
  assert (Hink : keyword "--ink") by named. assert (Hauto : keyword "auto") by named.
  assert (S1 : selectors_text [[SType "p"; SCombinator ">"; SClass "note"]; [SId "x"; SPseudoClass "hover"]] "p > .note ,#x:hover").
  { apply (selectors_next _ "p > .note" " " "" [_] "#x:hover"); [| blanks | blanks |].
    - apply (complex_next [SType "p"] "p" ">" " > " [SClass "note"] ".note").
      + apply (compound_tag "p" [] ""); [named|constructor].
      + apply (child_text " " " "); blanks.
      + apply complex_last, compound_conditions. apply (next_condition (SClass "note") ".note" [] ""); [constructor; named|constructor].
    - apply selectors_last, complex_last, compound_conditions. apply (next_condition (SId "x") "#x" [_] ":hover"); [constructor; named|].
      apply (next_condition (SPseudoClass "hover") ":hover" [] ""); [constructor; [named|intros r K; discriminate K]|constructor]. }
  assert (D1 : declaration_text [DeclProperty (mkProperty KColor [[DVar "--ink"]])] "color :var(--ink);").
  { apply (property_written KColor "color" [[DVar "--ink"]] "var(--ink)" " " "" ""); [like|vm_compute; reflexivity| |blanks..].
    apply values_last, shorthand_last. by apply (var_text "--ink"). }
  assert (D2 : declaration_text [DeclProperty (mkProperty KMargin [[DExplicit (CDimension (mkDim x UPx)); DExplicit (CKeyword "auto")]])] "margin:1px auto ;").
  { apply (property_written KMargin "margin" _ "1px auto" "" "" " "); [like|vm_compute; reflexivity| |blanks..].
    apply values_last. apply (shorthand_next _ "1px" " " [_] "auto"); [by apply (length_text "1" x UPx)|reflexivity|apply shorthand_last; by constructor]. }
  assert (D3 : declaration_text [DeclProperty (mkProperty KLeft [[DExplicit CZero]])] "left:0;").
  { apply (property_written KLeft "left" _ "0" "" "" ""); [like|vm_compute; reflexivity| |blanks..].
    apply values_last, shorthand_last. constructor. }
  assert (D4 : declaration_text [DeclProperty (mkProperty KLeft [[DExplicit (CDimension (mkDim y UEm))]])] "left:2em;").
  { apply (property_written KLeft "left" _ "2em" "" "" ""); [like|vm_compute; reflexivity| |blanks..].
    apply values_last, shorthand_last. by apply (length_text "2" y UEm). }
  assert (Hg : gap "/* ink */ ").
  { apply (blank_comment "/*" "*/" " ink " " "); [|blanks]. intros a b E.
    do 5 (destruct a as [|? a]; [discriminate E|rewrite sapp_cons in E; injection E as _ E]).
    destruct a as [|? a]; [by injection E|]. rewrite sapp_cons in E. injection E as _ E. destruct a as [|? a]; [discriminate E|]. rewrite sapp_cons in E. injection E as _ E. by destruct a. }
  apply (sheet_written "/* ink */ "); [exact Hg|].
  apply (next_rule _ ("p > .note ,#x:hover" +:+ String nl "{color :var(--ink);margin:1px auto ; }") "" [_] "@keyframes fade{ from{left:0;}50%{left:2em;} }"); [|blanks|].
  - apply (style_text _ "p > .note ,#x:hover" (String nl "") _ "{color :var(--ink);margin:1px auto ; }"); [exact S1|blanks|].
    apply (block_written _ "color :var(--ink);margin:1px auto ; " ""); [blanks|].
    apply (next_declaration [_] "color :var(--ink);" "" [_] "margin:1px auto ; "); [exact D1|blanks|].
    apply (next_declaration [_] "margin:1px auto ;" " " [] ""); [exact D2|blanks|constructor].
  - apply (next_rule _ "@keyframes fade{ from{left:0;}50%{left:2em;} }" "" [] ""); [|blanks|constructor].
    apply (animation_text " " "" "fade" "" " " _ "from{left:0;}50%{left:2em;} "); [reflexivity|blanks|named|blanks|blanks|].
    apply (next_keyframe 0 "from" "" _ "{left:0;}" "" _ "50%{left:2em;} "); [constructor|blanks| |blanks|].
    + apply (block_written _ "left:0;" ""); [blanks|]. apply (next_declaration [_] "left:0;" "" [] ""); [exact D3|blanks|constructor].
    + apply (next_keyframe 50 "50%" "" _ "{left:2em;}" " " _ ""); [|blanks| |blanks|constructor].
      * apply (step_percent "50" z); [exact Hz|exact Fz|rewrite Rz; lra|rewrite Rz; by rewrite Ztrunc_IZR].
      * apply (block_written _ "left:2em;" ""); [blanks|]. apply (next_declaration [_] "left:2em;" "" [] ""); [exact D4|blanks|constructor].
Qed.
(** Missing: what CSS allows and bumaga refuses (and then the page is not loaded)... *)
Theorem C62_refused_refuted : Forall (fun s => read_css s = Err ECss)
  [(* the last declaration without a semicolon *) "p{color:red}"; (* two spaces between values *) "p{margin:0  0;}"; (* a digit in a keyword *) "p{left:fade2;}";
   (* a digit in a custom property *) "p{--a1:red;}"; (* a leading zero *) "p{left:05;}"; (* a sign *) "p{left:+5px;}"; (* an exponent *) "p{left:1e3px;}";
   (* single quotes *) "[b='c']{left:0;}"; (* other rules *) "@media print{p{left:0;}}"; (* importance *) "p{left:0 !important;}";
   (* white space around the name of a variable *) "p{left:var( --a );}"; (* sums *) "p{left:calc(1px + 2px);}"].
Proof. repeat (apply List.Forall_cons; [vm_compute; reflexivity|]). apply List.Forall_nil. Qed.
(** ...and what it reads otherwise: the arguments of [:not] are dropped, a comment separates what it
    does not separate in CSS, [:rootx] is two selectors, an empty selector is one, the case of names
    matters and unknown units are pixels. *)
Definition selectors_read (s : string) (l : list Complex) : Prop :=
  match read_css (s +:+ "{left:0;}") with Ok c => map s_selectors (css_styles c) = [l] | _ => False end.
Theorem C62_otherwise_refuted :
  selectors_read "p:not(.b)" [[SType "p"; SPseudoClass "not"]] /\ selectors_read "p.b/**/.c" [[SType "p"; SClass "b"; SCombinator " "; SClass "c"]] /\
  selectors_read ":rootx" [[SRoot; SType "x"]] /\ selectors_read "" [[]] /\
  read_inline_css "LEFT:0;" = Ok [] /\ read_inline_css "left:3lh;" = read_inline_css "left:3px;".
Proof. repeat split; vm_compute; reflexivity. Qed.

(** ** C63 *)
(** However an inline style is laid out, it is read as the declarations it was written from. *)
Theorem C63_inline_read_partial : forall ds t, declarations_text ds t -> read_inline_css t = Ok ds.
Proof. exact inline_read. Qed.
Print Assumptions C63_inline_read_partial.
Example C63_ex : declarations_text [DeclProperty (mkProperty KColor [[DExplicit (CKeyword "red")]]); DeclVariable (mkVariable "--a" [DExplicit (CKeyword "auto")])] "color: red; --a:auto;".
Proof.
  apply (next_declaration [_] "color: red;" " " [_] "--a:auto;"); [|blanks|].
  - apply (property_written KColor "color" [[DExplicit (CKeyword "red")]] "red" "" " " ""); [like|vm_compute; reflexivity| |blanks..].
    apply values_last, shorthand_last. constructor. named.
  - apply (next_declaration [_] "--a:auto;" "" [] ""); [|blanks|constructor].
    apply (declaration_written "--a" [[DExplicit (CKeyword "auto")]] _ "auto" "" "" ""); [by vm_compute|cbn; lia| | |blanks..].
    + apply declares_variable. by exists "a".
    + apply values_last, shorthand_last. constructor. named.
Qed.
(** Missing: the last semicolon may be left out in CSS, and there may be white space first; then
    bumaga drops the last declaration, or all of them, without an error (no inline style is ever
    refused, C61). *)
Theorem C63_semicolon_refuted :
  read_inline_css "color:red" = Ok [] /\ read_inline_css "color:red;left:auto" = read_inline_css "color:red;" /\ read_inline_css " color:red;" = Ok [].
Proof. repeat split; vm_compute; reflexivity. Qed.

(** ** C64 *)
(** However a template is laid out, it is read as the elements, attributes, bindings and texts it was
    written from. *)
Theorem C64_template_read_partial : forall h t, document_text h t -> read_html t = Ok h.
Proof. exact document_read. Qed.
Print Assumptions C64_template_read_partial.
(** A text is a way of writing one template only. *)
Theorem C64_one_meaning_partial : forall h h' t, document_text h t -> document_text h' t -> h = h'.
Proof. intros h h' t H H'. apply document_read in H, H'. congruence. Qed.
Print Assumptions C64_one_meaning_partial.
(** A template with all kinds of contents. *)
Fixpoint begins (v t : string) : bool :=
  match v, t with "", _ => true | String a v', String b t' => Ascii.eqb (small a) (small b) && begins v' t' | _, _ => false end.
Lemma begins_same v x y : same_letters v x -> begins v (x +:+ y) = true.
Proof.
  revert x. induction v as [|a v IH]; intros x H; [done|]. destruct x as [|b x]; [done|]. destruct H as [H1 H2]. rewrite sapp_cons. cbn. rewrite H1, Ascii.eqb_refl. by apply IH.
Qed.
Lemma content_tag_ok t : all tag_sign t -> t <> "" -> t <> "script" -> forallb (fun v => negb (begins v t)) void_elements = true -> content_tag t.
Proof.
  intros H1 H2 H3 H. do 3 (split; [done|]). intros x y -> (v & Hv & Hs). rewrite forallb_forall in H. specialize (H v Hv). by rewrite (begins_same _ _ _ Hs) in H.
Qed.
Lemma unbroken_says last s : unbroken s -> says last s s.
Proof. intros H. rewrite <- (sapp_nil s) at 2. apply (says_lines last s s [] []); [by constructor|constructor]. Qed.
Lemma key_binder k : key k -> binder_text (mkBinder [k] []) ("{" +:+ (k +:+ "}")).
Proof. intros H. apply (binder_written "" [k] k "" [] ""); [apply blank_nil|by constructor|apply blank_nil|constructor]. Qed.
Ltac tagged := apply content_tag_ok; [by vm_compute|discriminate|discriminate|vm_compute; reflexivity].
Definition quoting (s : string) : string := quotation +:+ (s +:+ quotation).
Definition template_example : string :=
  "<!-- page --><html><body>" +:+ String nl ("<p ?=" +:+ quoting "{on}" +:+ " class=" +:+ quoting "x y" +:+ " hidden>Hi, { user.name |up}!</p><br/>  </body></html>").
Definition template_read : Html :=
  mkHtml "html" [] None [mkHtml "body" [] None
    [mkHtml "p" [EBVisibility true (mkBinder ["on"] []); EBNone "class" "x y"; EBNone "hidden" ""] None
       [mkHtml "" [] (Some [TSString "Hi, "; TSBinder (mkBinder ["user"; "name"] ["up"]); TSString "!"]) []];
     mkHtml "br" [] None []]].
Example C64_ex : document_text template_read template_example.
Proof.
  assert (Hg : hgap "<!-- page -->").
  { apply (blank_comment "<!--" "-->" " page " ""); [|blanks]. intros a b E.
    do 6 (destruct a as [|? a]; [discriminate E|rewrite sapp_cons in E; injection E as _ E]).
    destruct a as [|? a]; [by injection E|]. rewrite sapp_cons in E. injection E as _ E. destruct a as [|? a]; [discriminate E|]. rewrite sapp_cons in E. injection E as _ E.
    destruct a as [|? a]; [discriminate E|]. rewrite sapp_cons in E. injection E as _ E. by destruct a. }
  assert (Ht : content_text true (mkHtml "" [] (Some [TSString "Hi, "; TSBinder (mkBinder ["user"; "name"] ["up"]); TSString "!"]) []) "Hi, { user.name |up}!").
  { apply (text_written true [TSString "Hi, "; TSBinder (mkBinder ["user"; "name"] ["up"]); TSString "!"]).
    - apply (next_string "Hi, " _ "{ user.name |up}!"); [by vm_compute|done|right; by eexists|].
      apply (next_binder _ "{ user.name |up}" _ "!").
      + apply (binder_written " " ["user"; "name"] "user.name" " " ["up"] "|up"); [blanks| |blanks|].
        * apply (path_next "user" "" "" ["name"] "name"); [named|blanks|blanks|]. constructor. named.
        * apply (next_pipe "" "up" [] ""); [blanks|named|constructor].
      + apply (next_string "!" [] ""); [by vm_compute|done|by left|constructor].
    - done.
    - by intros c r [= <- _].
    - apply shows_string; [apply unbroken_says; by vm_compute|done|]. apply shows_binder. apply shows_string; [apply unbroken_says; by vm_compute|done|constructor]. }
  assert (Ha : attributes_text [EBVisibility true (mkBinder ["on"] []); EBNone "class" "x y"; EBNone "hidden" ""] (" ?=" +:+ quoting "{on}" +:+ " class=" +:+ quoting "x y" +:+ " hidden")).
  { apply (next_attribute " " "" _ ("?=" +:+ quoting "{on}") _ (" class=" +:+ quoting "x y" +:+ " hidden")); [reflexivity|blanks| |].
    - apply (visible_attribute "" "" "" "" "{on}"); [blanks..|]. apply (key_binder "on"). named.
    - apply (next_attribute " " "" _ ("class=" +:+ quoting "x y") _ " hidden"); [reflexivity|blanks| |].
      + apply (plain_attribute "class" "" "" "" "x y"); [named|by left|blanks|blanks|by vm_compute|]. split; [by intros c r [= <- _]|intros r K; discriminate K].
      + apply (next_attribute " " "" _ "hidden" [] ""); [reflexivity|blanks|constructor; named|constructor; by left]. }
  assert (Hp : content_text false (mkHtml "p" [EBVisibility true (mkBinder ["on"] []); EBNone "class" "x y"; EBNone "hidden" ""] None [mkHtml "" [] (Some [TSString "Hi, "; TSBinder (mkBinder ["user"; "name"] ["up"]); TSString "!"]) []])
    ("<p ?=" +:+ quoting "{on}" +:+ " class=" +:+ quoting "x y" +:+ " hidden>Hi, { user.name |up}!</p>")).
  { apply (element_written false "p" _ (" ?=" +:+ quoting "{on}" +:+ " class=" +:+ quoting "x y" +:+ " hidden") "" _ "Hi, { user.name |up}!" ""); [tagged|exact Ha|blanks| |blanks].
    apply (next_child _ "Hi, { user.name |up}!" "" [] ""); [exact Ht|blanks|by left|constructor]. }
  assert (Hb : content_text true (mkHtml "br" [] None []) "<br/>").
  { apply (void_closed true "br" [] "" ""); [|constructor; by left|blanks]. exists "br". split; [cbn; tauto|by repeat split]. }
  apply (document_written "<!-- page -->" _ ("<html><body>" +:+ String nl ("<p ?=" +:+ quoting "{on}" +:+ " class=" +:+ quoting "x y" +:+ " hidden>Hi, { user.name |up}!</p><br/>  </body></html>")) ""); [exact Hg| |blanks|by intros []].
  apply (element_written true "html" [] "" "" _ ("<body>" +:+ String nl ("<p ?=" +:+ quoting "{on}" +:+ " class=" +:+ quoting "x y" +:+ " hidden>Hi, { user.name |up}!</p><br/>  </body>")) ""); [tagged|constructor; by left|blanks| |blanks].
  apply (next_child _ ("<body>" +:+ String nl ("<p ?=" +:+ quoting "{on}" +:+ " class=" +:+ quoting "x y" +:+ " hidden>Hi, { user.name |up}!</p><br/>  </body>")) "" [] ""); [|blanks|by intros []|constructor].
  apply (element_written true "body" [] "" (String nl "") _ ("<p ?=" +:+ quoting "{on}" +:+ " class=" +:+ quoting "x y" +:+ " hidden>Hi, { user.name |up}!</p><br/>  ") ""); [tagged|constructor; by left|blanks| |blanks].
  apply (next_child _ ("<p ?=" +:+ quoting "{on}" +:+ " class=" +:+ quoting "x y" +:+ " hidden>Hi, { user.name |up}!</p>") "" [_] "<br/>  "); [exact Hp|blanks|by intros []|].
  apply (next_child _ "<br/>" "  " [] ""); [exact Hb|blanks|by intros []|constructor].
Qed.
(** Missing: what HTML allows and bumaga refuses... *)
Theorem C64_refused_refuted : Forall (fun s => read_html s = Err EHtml)
  ["<!DOCTYPE html><p></p>"; (* attributes without double quotes *) "<p a='b'></p>"; "<p a=b></p>"; (* a sign in a text *) "<p>1 > 0</p>";
   (* tags that begin like those of void elements *) "<column></column>"; "<track-list></track-list>"; (* no text at all *) ""].
Proof. repeat (apply List.Forall_cons; [vm_compute; reflexivity|]). apply List.Forall_nil. Qed.
(** ...and what it reads otherwise: white space at the beginning of attributes and after the binders of one is
    dropped (so that [@class="{a} open"] is one class), blanks after a transformer belong to its name, closing tags need not fit, everything after
    the first element is forgotten, character references are not replaced. *)
Theorem C64_otherwise_refuted :
  read_html ("<p class=" +:+ quoting " a" +:+ "></p>") = Ok (mkHtml "p" [EBNone "class" "a"] None []) /\
  read_html ("<p @class=" +:+ quoting "{a} {b}" +:+ "></p>") = Ok (mkHtml "p" [EBAttribute "class" [TSBinder (mkBinder ["a"] []); TSBinder (mkBinder ["b"] [])]] None []) /\
  read_html ("<p @class=" +:+ quoting "{a} open" +:+ "></p>") = Ok (mkHtml "p" [EBAttribute "class" [TSBinder (mkBinder ["a"] []); TSString "open"]] None []) /\
  read_html "<p>{y | z }</p>" = Ok (mkHtml "p" [] None [mkHtml "" [] (Some [TSBinder (mkBinder ["y"] ["z "])]) []]) /\
  read_html "<p></b>" = Ok (mkHtml "p" [] None []) /\ read_html "<p></p><b></b>" = Ok (mkHtml "p" [] None []) /\
  read_html "<p>&lt;</p>" = Ok (mkHtml "p" [] None [mkHtml "" [] (Some [TSString "&lt;"]) []]).
Proof. repeat split; vm_compute; reflexivity. Qed.

(** ** C65 *)
(** A number in a style sheet is the single-precision number nearest to the decimal that is written
    (with or without a fraction, of any length), infinite if it is too large; with it a length has
    that many of its unit, a percentage and a time a hundredth and (for milliseconds) a thousandth of it.
    Missing: signs, exponents and superfluous zeros (C62). *)
Definition is_nearest_to (x : f32) (neg : bool) (r : R) : Prop :=
  ((nearest r < IZR (2 ^ 128))%R -> is_finite x = true /\ B2R x = (if neg then - nearest r else nearest r)%R) /\
  (~ (nearest r < IZR (2 ^ 128))%R -> x = B754_infinity neg).
Theorem C65_numbers_partial : forall t neg m k, decimal t neg m k -> exists x, is_nearest_to x neg (IZR m / IZR (10 ^ Z.of_nat k)) /\
  (forall u, gives_one "width" (t +:+ unit_name u) KWidth (DExplicit (CDimension (mkDim x u)))) /\
  gives_one "width" (t +:+ "%") KWidth (DExplicit (CPercentage (fdiv x f100))) /\
  gives_one "transition-delay" (t +:+ "s") KTransitionDelay (DExplicit (CTime x)) /\
  gives_one "transition-delay" (t +:+ "ms") KTransitionDelay (DExplicit (CTime (fdiv x (f32_of_Z 1000)))) /\
  (t <> "0" -> no_leading_zero t -> gives_one "opacity" t KOpacity (DExplicit (CNumber x))).
Proof.
  intros t neg m k Hd.
  assert (Hm : (0 <= m)%Z) by (destruct Hd; apply whole_value_pos; try done; by apply all_app).
  pose proof (decimal_nearest neg (Z.to_N m) k) as H. rewrite Z2N.id in H by done. exists (f32_of_decimal neg (Z.to_N m) k).
  assert (Hx : denotes t (f32_of_decimal neg (Z.to_N m) k)) by (exists neg, m, k; done).
  split; [split; [intros K; destruct H as [H _]; destruct (H K) as (H1 & H2 & _); done|apply H]|].
  assert (G : forall p k0 d s, property_like p -> parse_key p = Some k0 -> value_text d s -> gives_one p s k0 d).
  { intros p k0 d s (P1 & P2 & P3) Hk Hv. apply single_read; try done. by apply parse_key_written. }
  split; [intros u; apply G; [like|vm_compute; reflexivity|by constructor]|]. split; [apply G; [like|vm_compute; reflexivity|by constructor]|].
  split; [apply G; [like|vm_compute; reflexivity|by constructor]|]. split; [apply G; [like|vm_compute; reflexivity|by constructor]|].
  intros N1 N2. apply G; [like|vm_compute; reflexivity|by constructor].
Qed.
Print Assumptions C65_numbers_partial.
Example C65_ex : decimal "-12.50" true 1250 2 /\ no_leading_zero "-12.50" /\ decimal ".5" false 5 1.
Proof.
  split; [exact (decimal_point true "12" "50" ltac:(by vm_compute) ltac:(by vm_compute) ltac:(done))|]. split; [intros c r K; discriminate K|].
  exact (decimal_point false "" "5" I ltac:(by vm_compute) ltac:(done)).
Qed.

(** ** C66 *)
(** A page loaded from the texts of a template and a style sheet is the page of that template and that
    style sheet, with inline styles read from their attributes. *)
Theorem C66_loading_partial : forall h t rs s, document_text h t -> sheet_text rs s ->
  exists c, sheet_of rs c /\ forall X fuel, from_html X fuel t s = from_document (reading X) fuel h c.
Proof.
  intros h t rs s Hh Hs. apply document_read in Hh. destruct (sheet_read _ _ Hs) as (c & Hc & Hr). exists c. split; [exact Hr|].
  intros X fuel. unfold from_html. rewrite Hh. cbn [bindR]. rewrite Hc. reflexivity.
Qed.
Print Assumptions C66_loading_partial.
(** White space and comments in the texts make no difference to the page. *)
Lemma sheet_unique rs c c' : sheet_of rs c -> sheet_of rs c' -> c = c'.
Proof.
  intros [H1 H2] [H1' H2']. destruct c as [st an], c' as [st' an']. cbn [css_styles css_animations] in *. f_equal; [congruence|].
  apply map_eq. intros n. apply option_eq. intros a. by rewrite H2, H2'.
Qed.
Theorem C66_layout_of_texts_partial : forall h t t' rs s s', document_text h t -> document_text h t' -> sheet_text rs s -> sheet_text rs s' ->
  forall X fuel, from_html X fuel t s = from_html X fuel t' s'.
Proof.
  intros h t t' rs s s' Ht Ht' Hs Hs' X fuel. destruct (C66_loading_partial h t rs s Ht Hs) as (c & Hc & ->). destruct (C66_loading_partial h t' rs s' Ht' Hs') as (c' & Hc' & ->).
  by rewrite (sheet_unique rs c c').
Qed.
Print Assumptions C66_layout_of_texts_partial.
(** If a text cannot be read, nothing is loaded. *)
Theorem C66_refused : forall X fuel t s, read_html t = Err EHtml \/ read_css s = Err ECss ->
  from_html X fuel t s = Err EHtml \/ from_html X fuel t s = Err ECss.
Proof.
  intros X fuel t s H. unfold from_html. destruct (read_html_total t) as [E|[h E]]; rewrite E; cbn [bindR]; [by left|]. right.
  destruct H as [H|H]; [congruence|]. by rewrite H.
Qed.
Print Assumptions C66_refused.
