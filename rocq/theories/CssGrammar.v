(** * The grammar of style sheets: src/css/css.pest, rule by rule. *)
From Verif Require Import Str Peg.

(** Names of the rules of src/css/css.pest, and pest's [EOI]. *)
Inductive CssRule : Set :=
| RWhitespace | RComment | RStyleSheet | RRules | RRule | RAnimation | RName | RKeyframes | RKeyframe
| RStep | RStyle | RSelectors | RComplex | RCombinator | RCompound | RSimple | RAll | RId | RClass
| RType_ | RAttribute | RMatcher | RModifier | RRoot | RPseudoClass | RPseudoElement
| RDeclarationBlock | RDeclarations | RDeclaration | RProperty | RIdent | RValues | RShorthand
| RValue | RFunction | RVar | RExplicit | RColor | RZero | RPercentage | RTime | RTimeUnit
| RDimension | RNumber | RUnit | RKeyword | RString | RStringLiteral | REnd.

Notation cexp := (exp CssRule).
Notation cpair := (pair CssRule).

(** One of several literals. *)
Fixpoint any_of {R} (l : list string) : exp R :=
  match l with
  | [] => Not (Lit "")
  | [x] => Lit x
  | x :: l' => Alt (Lit x) (any_of l')
  end.

(** A sequence, an ordered choice. *)
Fixpoint seq {R} (l : list (exp R)) : exp R :=
  match l with
  | [] => Lit ""
  | [x] => x
  | x :: l' => Seq x (seq l')
  end.
Fixpoint alt {R} (l : list (exp R)) : exp R :=
  match l with
  | [] => Not (Lit "")
  | [x] => x
  | x :: l' => Alt x (alt l')
  end.

(** Tab, carriage return and the double quote. *)
Definition tab : ascii := "009"%char.
Definition cr : ascii := "013"%char.
Definition quote : string := String "034" "".

(** css.pest:1 and html.pest:2 *)
Definition ws_exp {R} : exp R := alt [Lit " "; Lit (String tab ""); Lit (String cr ""); Lit (String nl "")].
(** css.pest:3 *)
Definition comment_exp {R} (opening closing : string) : exp R :=
  seq [Lit opening; Star (seq [Not (Lit closing); Any]); Lit closing].
(** What pest generates for the implicit white space of a grammar with both rules: any number of
    white space, then any number of comments each followed by any number of white space. *)
Definition skip_exp {R} (comment : exp R) : exp R :=
  Seq (Star ws_exp) (Star (Seq comment (Star ws_exp))).

(** [ASCII_ALPHA | "-" | "_"] and [ASCII_ALPHA | ASCII_DIGIT | "-" | "_"] *)
Definition name_char (a : ascii) : bool := is_alpha a || Ascii.eqb a "-" || Ascii.eqb a "_".
Definition ident_char (a : ascii) : bool := is_alpha a || is_digit a || Ascii.eqb a "-" || Ascii.eqb a "_".
(** [ASCII_DIGIT | "-" | "."] *)
Definition number_char (a : ascii) : bool := is_digit a || Ascii.eqb a "-" || Ascii.eqb a ".".

(** src/css/css.pest: the line of each rule is at its right.  A choice of single characters is
    written as one character class. *)
Definition css_rule (r : CssRule) : kind * cexp :=
  match r with
  | RWhitespace => (Silent, ws_exp)                                                         (* 1 *)
  | RComment => (Silent, comment_exp "/*" "*/")                                             (* 3 *)
  | RStyleSheet => (Silent, seq [Lit ""; Call RRules; Eoi])                                 (* 5 *)
  | RRules => (Normal, Star (Call RRule))                                                   (* 7 *)
  | RRule => (Silent, alt [Call RAnimation; Call RStyle])                                   (* 9 *)
  | RAnimation => (Normal, seq [Lit "@keyframes"; Call RName; Lit "{"; Call RKeyframes; Lit "}"]) (* 13 *)
  | RName => (Atomic, Plus (Cls ident_char))                                                (* 15 *)
  | RKeyframes => (Silent, Star (Call RKeyframe))                                           (* 17 *)
  | RKeyframe => (Normal, seq [Call RStep; Call RDeclarationBlock])                         (* 19 *)
  | RStep => (Silent, alt [Call RKeyword; Call RPercentage])                                (* 21 *)
  | RStyle => (Normal, seq [Call RSelectors; Call RDeclarationBlock])                       (* 25 *)
  | RSelectors => (Normal, seq [Call RComplex; Star (seq [Lit ","; Call RComplex])])        (* 27 *)
  | RComplex => (Normal, Star (seq [Opt (Call RCombinator); Call RCompound]))               (* 29 *)
  | RCombinator => (Normal, any_of [">"; "+"; "~"])                                         (* 31 *)
  | RCompound => (CompoundAtomic, Plus (Call RSimple))                                      (* 33 *)
  | RSimple => (Silent, alt [Call RAll; Call RId; Call RClass; Call RRoot; Call RPseudoClass;
                             Call RPseudoElement; Call RAttribute; Call RType_])            (* 35 *)
  | RAll => (Normal, Lit "*")                                                               (* 37 *)
  | RId => (Normal, seq [Lit "#"; Call RIdent])                                             (* 39 *)
  | RClass => (Normal, seq [Lit "."; Call RIdent])                                          (* 41 *)
  | RType_ => (Normal, Call RIdent)                                                         (* 43 *)
  | RAttribute =>                                                                           (* 45-48 *)
      (Normal, alt [seq [Lit "["; Call RIdent; Lit "]"];
                    seq [Lit "["; Call RIdent; Call RMatcher; alt [Call RString; Call RIdent];
                         Opt (Call RModifier); Lit "]"]])
  | RMatcher => (Normal, seq [Opt (any_of ["~"; "|"; "^"; "$"; "*"]); Lit "="])             (* 50 *)
  | RModifier => (Normal, any_of ["i"; "s"])                                                (* 52 *)
  | RRoot => (Normal, Lit ":root")                                                          (* 54 *)
  | RPseudoClass =>                                                                         (* 56-59 *)
      (Normal, alt [seq [Lit ":"; Call RIdent; Lit "("; Star (seq [Not (Lit ")"); Any]); Lit ")"];
                    seq [Lit ":"; Call RIdent]])
  | RPseudoElement => (Normal, seq [Lit "::"; Call RIdent])                                 (* 61 *)
  | RDeclarationBlock => (Normal, seq [Lit "{"; Call RDeclarations; Lit "}"])               (* 65-67 *)
  | RDeclarations => (Normal, Star (Call RDeclaration))                                     (* 69 *)
  | RDeclaration => (Normal, seq [Call RProperty; Lit ":"; Call RValues; Lit ";"])          (* 71 *)
  | RProperty => (Normal, Plus (Cls name_char))                                             (* 73 *)
  | RIdent => (Normal, Plus (Cls ident_char))                                               (* 75 *)
  | RValues => (Normal, seq [Call RShorthand; Star (seq [Lit ","; Call RShorthand])])       (* 77 *)
  | RShorthand => (CompoundAtomic, seq [Call RValue; Star (seq [Call RWhitespace; Call RValue])]) (* 79 *)
  | RValue => (Silent, alt [Call RVar; Call RFunction; Call RExplicit])                     (* 81 *)
  | RFunction =>                                                                            (* 83-86 *)
      (Normal, alt [seq [Call RIdent; Lit "("; Lit ")"];
                    seq [Call RIdent; Lit "("; Call RValue;
                         Star (seq [Lit ","; Star (Call RWhitespace); Call RValue]); Lit ")"]])
  | RVar => (Normal, seq [Lit "var"; Lit "("; Call RKeyword; Opt (seq [Lit ","; Call RValue]); Lit ")"]) (* 88 *)
  | RExplicit => (Normal, alt [Call RColor; Call RKeyword; Call RPercentage; Call RTime;
                               Call RDimension; Call RZero; Call RNumber; Call RString])    (* 90-99 *)
  | RColor => (Normal, seq [Lit "#"; Plus (Cls is_hex)])                                    (* 101 *)
  | RZero => (Normal, seq [Lit "0"; Not (Lit ".")])                                         (* 103 *)
  | RPercentage => (Normal, seq [Call RNumber; Lit "%"])                                    (* 105 *)
  | RTime => (Normal, seq [Call RNumber; Call RTimeUnit])                                   (* 107 *)
  | RTimeUnit => (Normal, any_of ["ms"; "s"])                                               (* 109 *)
  | RDimension => (Normal, seq [Call RNumber; Call RUnit])                                  (* 111 *)
  | RNumber => (Normal, Plus (Cls number_char))                                             (* 113 *)
  | RUnit => (Normal, Plus (Cls is_alpha))                                                  (* 115 *)
  | RKeyword => (Normal, seq [Opt (Lit "-"); Opt (Lit "-"); Plus (Cls name_char)])          (* 117 *)
  | RString => (Normal, seq [Lit quote; Call RStringLiteral; Lit quote])                    (* 119 *)
  | RStringLiteral => (Atomic, Star (seq [Not (Lit quote); Any]))                           (* 121 *)
  | REnd => (Normal, Eoi)
  end.

Definition css_grammar : grammar CssRule :=
  mkGrammar css_rule (skip_exp (comment_exp "/*" "*/")) REnd.
