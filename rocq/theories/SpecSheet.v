(** * How style sheets are written, and what they mean.

    [sheet_text rules text]: [text] is a way of writing the style sheet with these rules, with
    white space and comments wherever CSS allows them (and bumaga too: where bumaga demands more than
    CSS, the comments say so).  Nothing here refers to the parser or the readers. *)
From Coq Require Import ZArith Reals.
From Flocq Require Import Core.Core IEEE754.BinarySingleNaN.
From stdpp Require Import gmap.
From Verif Require Import Str F32 PropKey Css SpecText SpecKeys.
Close Scope R_scope.

Notation gap := (blank "/*" "*/").

(** Keywords such as [auto], [flex-start], [--primary]; bumaga admits no digits in them. *)
Definition keyword (k : string) : Prop := all letter_or_sign k /\ k <> "" /\ k <> "-" /\ k <> "--".
(** Names of classes, identifiers, tags, functions and animations. *)
Definition name (n : string) : Prop := all name_sign n /\ n <> "".

(** Hexadecimal digits. *)
Inductive hex : ascii -> Z -> Prop :=
| hex_digit c : digit c = true -> hex c (digit_value c)
| hex_small c : between "a" "f" c = true -> hex c (Z.of_nat (nat_of_ascii c) - 97 + 10)
| hex_large c : between "A" "F" c = true -> hex c (Z.of_nat (nat_of_ascii c) - 65 + 10).

(** Two hexadecimal digits: a channel of a colour. *)
Inductive channel : string -> Z -> Prop :=
| channel_two a b x y : hex a x -> hex b y -> channel (String a (String b "")) (16 * x + y).

Definition unit_name (u : Units) : string :=
  match u with
  | UVh => "vh" | UVw => "vw" | UVmax => "vmax" | UVmin => "vmin" | UPx => "px" | UEm => "em" | URem => "rem"
  end.

(** A plain number does not begin with a superfluous zero (bumaga rejects [05]). *)
Definition no_leading_zero (t : string) : Prop :=
  forall c r, t = String "0" (String c r) -> c = "."%char.

(** Values. *)
Inductive value_text : Definition_ -> string -> Prop :=
| keyword_text k : keyword k -> value_text (DExplicit (CKeyword k)) k
| zero_text : value_text (DExplicit CZero) "0"
| number_text t x : denotes t x -> t <> "0" -> no_leading_zero t -> value_text (DExplicit (CNumber x)) t
| percent_text t x : denotes t x -> value_text (DExplicit (CPercentage (fdiv x f100))) (t +:+ "%")
| seconds_text t x : denotes t x -> value_text (DExplicit (CTime x)) (t +:+ "s")
| milliseconds_text t x : denotes t x -> value_text (DExplicit (CTime (fdiv x (f32_of_Z 1000)))) (t +:+ "ms")
| length_text t x u : denotes t x -> value_text (DExplicit (CDimension (mkDim x u))) (t +:+ unit_name u)
| color_text r g b tr tg tb :
    channel tr r -> channel tg g -> channel tb b ->
    value_text (DExplicit (CColor (r, g, b, 255%Z))) ("#" +:+ (tr +:+ (tg +:+ tb)))
| color_alpha_text r g b a tr tg tb ta :
    channel tr r -> channel tg g -> channel tb b -> channel ta a ->
    value_text (DExplicit (CColor (r, g, b, a))) ("#" +:+ (tr +:+ (tg +:+ (tb +:+ ta))))
| string_text s :
    closed_by quotation s -> value_text (DExplicit (CStr s)) (quotation +:+ (s +:+ quotation))
| var_text v : keyword v -> value_text (DVar v) ("var(" +:+ (v +:+ ")"))
(** the fallback of a variable is read and forgotten *)
| var_fallback_text v d t :
    keyword v -> value_text d t -> value_text (DVar v) ("var(" +:+ (v +:+ ("," +:+ (t +:+ ")"))))
| function_text f args t :
    name f -> f <> "var" -> arguments_text args t ->
    value_text (DFunction f args) (f +:+ ("(" +:+ (t +:+ ")")))
(** Arguments of a function, separated by a comma and possibly white space after it. *)
with arguments_text : list Definition_ -> string -> Prop :=
| no_arguments : arguments_text [] ""
| last_argument d t : value_text d t -> arguments_text [d] t
| next_argument d t w d' ds ts :
    value_text d t -> all white w -> arguments_text (d' :: ds) ts ->
    arguments_text (d :: d' :: ds) (t +:+ ("," +:+ (w +:+ ts))).

(** The values of a shorthand: one white space character between them (bumaga admits no more). *)
Inductive shorthand_text : Shorthand -> string -> Prop :=
| shorthand_last d t : value_text d t -> shorthand_text [d] t
| shorthand_next d t c ds ts :
    value_text d t -> white c = true -> shorthand_text ds ts -> shorthand_text (d :: ds) (t +:+ String c ts).

(** Lists of shorthands, separated by commas. *)
Inductive values_text : list Shorthand -> string -> Prop :=
| values_last s t : shorthand_text s t -> values_text [s] t
| values_next s t a b ss ts :
    shorthand_text s t -> gap a -> gap b -> values_text ss ts ->
    values_text (s :: ss) (t +:+ (a +:+ ("," +:+ (b +:+ ts)))).

(** What a declaration [p: vs;] gives: a custom property its first shorthand, a known property all
    its shorthands, an unknown one nothing. *)
Definition custom (p : string) : Prop := exists r, p = "--" +:+ r.
Inductive declares : string -> list Shorthand -> list Declaration -> Prop :=
| declares_variable p v vs : custom p -> declares p (v :: vs) [DeclVariable (mkVariable p v)]
| declares_property p k vs : ~ custom p -> written k p -> declares p vs [DeclProperty (mkProperty k vs)]
| declares_nothing p vs : ~ custom p -> (forall k, ~ written k p) -> declares p vs [].

(** A declaration with its semicolon.  Property names have two characters or more and no digits. *)
Inductive declaration_text : list Declaration -> string -> Prop :=
| declaration_written p vs ds t a b c :
    all letter_or_sign p -> (2 <= String.length p)%nat -> declares p vs ds -> values_text vs t ->
    gap a -> gap b -> gap c ->
    declaration_text ds (p +:+ (a +:+ (":" +:+ (b +:+ (t +:+ (c +:+ ";")))))).

(** Declarations one after the other, with gaps between and after them. *)
Inductive declarations_text : list Declaration -> string -> Prop :=
| no_declarations : declarations_text [] ""
| next_declaration ds t a ds' ts :
    declaration_text ds t -> gap a -> declarations_text ds' ts ->
    declarations_text (ds ++ ds') (t +:+ (a +:+ ts)).

(** A block in braces. *)
Inductive block_text : list Declaration -> string -> Prop :=
| block_written ds t a : gap a -> declarations_text ds t -> block_text ds ("{" +:+ (a +:+ (t +:+ "}"))).

(** ** Selectors. *)
Inductive matcher_text : Matcher -> string -> Prop :=
| equal_text : matcher_text MEqual "="
| include_text : matcher_text MInclude "~="
| dash_text : matcher_text MDashMatch "|="
| prefix_text : matcher_text MPrefix "^="
| suffix_text : matcher_text MSuffix "$="
| substring_text : matcher_text MSubstring "*=".

(** The conditions of a compound selector that may follow its tag.  A pseudo class does not begin
    with [root] unless it is [:root]. *)
Inductive condition_text : Simple -> string -> Prop :=
| id_text n : name n -> condition_text (SId n) ("#" +:+ n)
| class_text n : name n -> condition_text (SClass n) ("." +:+ n)
| root_text : condition_text SRoot ":root"
| pseudo_class_text n : name n -> (forall r, n <> "root" +:+ r) -> condition_text (SPseudoClass n) (":" +:+ n)
| pseudo_element_text n : name n -> condition_text (SPseudoElement n) ("::" +:+ n)
| exists_text n : name n -> condition_text (SAttribute n MExist "") ("[" +:+ (n +:+ "]"))
| attribute_text n m tm v :
    name n -> matcher_text m tm -> name v ->
    condition_text (SAttribute n m v) ("[" +:+ (n +:+ (tm +:+ (v +:+ "]"))))
| attribute_string_text n m tm v :
    name n -> matcher_text m tm -> closed_by quotation v ->
    condition_text (SAttribute n m v) ("[" +:+ (n +:+ (tm +:+ (quotation +:+ (v +:+ (quotation +:+ "]")))))).
Inductive conditions_text : list Simple -> string -> Prop :=
| no_conditions : conditions_text [] ""
| next_condition s t ss ts : condition_text s t -> conditions_text ss ts -> conditions_text (s :: ss) (t +:+ ts).

(** A tag or [*] and then conditions, or conditions alone. *)
Inductive compound_text : list Simple -> string -> Prop :=
| compound_tag n ss ts : name n -> conditions_text ss ts -> compound_text (SType n :: ss) (n +:+ ts)
| compound_all ss ts : conditions_text ss ts -> compound_text (SAll :: ss) ("*" +:+ ts)
| compound_conditions s ss ts : conditions_text (s :: ss) ts -> compound_text (s :: ss) ts.

(** Between two compounds: white space (and comments), or a combinator. *)
Inductive combinator_text : ascii -> string -> Prop :=
| descendant_text a c b : gap a -> white c = true -> gap b -> combinator_text " " (a +:+ String c b)
| child_text a b : gap a -> gap b -> combinator_text ">" (a +:+ (">" +:+ b))
| next_text a b : gap a -> gap b -> combinator_text "+" (a +:+ ("+" +:+ b))
| subsequent_text a b : gap a -> gap b -> combinator_text "~" (a +:+ ("~" +:+ b)).

Inductive complex_text : Complex -> string -> Prop :=
| complex_last ss t : compound_text ss t -> complex_text ss t
| complex_next ss t c tc more ts :
    compound_text ss t -> combinator_text c tc -> complex_text more ts ->
    complex_text (ss ++ SCombinator c :: more) (t +:+ (tc +:+ ts)).

Inductive selectors_text : list Complex -> string -> Prop :=
| selectors_last c t : complex_text c t -> selectors_text [c] t
| selectors_next c t a b cs ts :
    complex_text c t -> gap a -> gap b -> selectors_text cs ts ->
    selectors_text (c :: cs) (t +:+ (a +:+ ("," +:+ (b +:+ ts)))).

(** ** Rules. *)
Inductive step_text : Z -> string -> Prop :=
| step_from : step_text 0 "from"
| step_to : step_text 100 "to"
| step_percent t x n :
    denotes t x -> is_finite x = true -> (0 <= B2R x <= 100)%R -> n = Ztrunc (B2R x) ->
    step_text n (t +:+ "%").

Inductive keyframes_text : list Keyframe -> string -> Prop :=
| no_keyframes : keyframes_text [] ""
| next_keyframe n tn a ds t b ks ts :
    step_text n tn -> gap a -> block_text ds t -> gap b -> keyframes_text ks ts ->
    keyframes_text (mkKeyframe n ds :: ks) (tn +:+ (a +:+ (t +:+ (b +:+ ts)))).

Inductive Rule := RuleStyle (s : Style) | RuleAnimation (a : Animation).

Inductive rule_text : Rule -> string -> Prop :=
| style_text cs tc a ds t :
    selectors_text cs tc -> gap a -> block_text ds t ->
    rule_text (RuleStyle (mkStyle cs ds)) (tc +:+ (a +:+ t))
| animation_text c a n b d ks t :
    white c = true -> gap a -> name n -> gap b -> gap d -> keyframes_text ks t ->
    rule_text (RuleAnimation (mkAnimation n ks))
      ("@keyframes" +:+ String c (a +:+ (n +:+ (b +:+ ("{" +:+ (d +:+ (t +:+ "}"))))))).

Inductive rules_text : list Rule -> string -> Prop :=
| no_rules : rules_text [] ""
| next_rule r t a rs ts : rule_text r t -> gap a -> rules_text rs ts -> rules_text (r :: rs) (t +:+ (a +:+ ts)).

Inductive sheet_text : list Rule -> string -> Prop :=
| sheet_written a rs t : gap a -> rules_text rs t -> sheet_text rs (a +:+ t).

(** The styles of a sheet in order, and the last animation of each name. *)
Fixpoint styles_of (rs : list Rule) : list Style :=
  match rs with [] => [] | RuleStyle s :: rs' => s :: styles_of rs' | _ :: rs' => styles_of rs' end.
Definition last_animation (n : string) (rs : list Rule) (a : Animation) : Prop :=
  exists before after, rs = before ++ RuleAnimation a :: after /\ an_name a = n /\
    forall b, In (RuleAnimation b) after -> an_name b <> n.
Definition sheet_of (rs : list Rule) (c : Css) : Prop :=
  css_styles c = styles_of rs /\
  forall n a, css_animations c !! n = Some a <-> last_animation n rs a.
