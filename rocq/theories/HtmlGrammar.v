(** * The grammar of templates: src/html/html.pest, rule by rule. *)
From Verif Require Import Str Peg CssGrammar.

(** Names of the rules of src/html/html.pest, and pest's [EOI]. *)
Inductive HtmlRule : Set :=
| HWhitespace | HComment | HDocument | HContent | HScript | HElement | HChildren | HVoid | HVoidTag
| HTag | HTChar | HText | HString | HSChar | HAttributes | HAttribute | HAliasBinding | HTagBinding
| HAttributeBinding | HQuotedString | HQuotedChar | HCallbackBinding | HEvent | HVisibilityBinding
| HVisible | HRepeatBinding | HCount | HDoubleQuoted | HUnquoted | HEmpty | HName | HNChar | HBinder
| HGetter | HTransformer | HKey | HKChar | HValue | HVChar | HEnd.

Notation hexp := (exp HtmlRule).
Notation hpair := (pair HtmlRule).

Definition slash : string := String "092" "".  (* the backslash *)

(** [ASCII_ALPHA | ASCII_DIGIT | "-"] *)
Definition tag_char (a : ascii) : bool := is_alpha a || is_digit a || Ascii.eqb a "-".

(** html.pest:23-40 *)
Definition void_tags : list string :=
  ["area"; "base"; "br"; "col"; "command"; "embed"; "hr"; "img"; "input"; "keygen"; "link"; "meta";
   "param"; "source"; "track"; "wbr"].

(** src/html/html.pest: the line of each rule is at its right. *)
Definition html_rule (r : HtmlRule) : kind * hexp :=
  match r with
  | HWhitespace => (Silent, ws_exp)                                                         (* 2 *)
  | HComment => (Silent, comment_exp "<!--" "-->")                                          (* 4 *)
  | HDocument => (Silent, seq [Lit ""; Plus (Call HContent); Eoi])                          (* 6 *)
  | HContent => (Silent, alt [Call HScript; Call HVoid; Call HText; Call HElement])         (* 11 *)
  | HScript => (Normal, comment_exp "<script>" "</script>")                                 (* 13 *)
  | HElement => (Normal, seq [Lit "<"; Call HTag; Call HAttributes; Lit ">"; Call HChildren;
                              Lit "<"; Lit "/"; Call HTag; Lit ">"])                        (* 16 *)
  | HChildren => (Normal, Star (Call HContent))                                             (* 18 *)
  | HVoid => (Normal, seq [Lit "<"; Call HVoidTag; Call HAttributes; Opt (Lit "/"); Lit ">"]) (* 21 *)
  | HVoidTag => (Normal, alt (map ILit void_tags))                                          (* 23-40 *)
  | HTag => (Atomic, Plus (Call HTChar))                                                    (* 43 *)
  | HTChar => (Normal, Cls tag_char)                                                        (* 46 *)
  | HText => (CompoundAtomic, Plus (alt [Call HBinder; Call HString]))                      (* 49 *)
  | HString => (Atomic, Plus (Call HSChar))                                                 (* 51 *)
  | HSChar => (Normal, seq [Not (any_of ["<"; ">"; "{"]); Any])                             (* 53-55 *)
  | HAttributes => (Normal, Star (Call HAttribute))                                         (* 57 *)
  | HAttribute => (Silent, alt [Call HRepeatBinding; Call HAliasBinding; Call HTagBinding;
                                Call HAttributeBinding; Call HCallbackBinding;
                                Call HVisibilityBinding; Call HDoubleQuoted; Call HUnquoted;
                                Call HEmpty])                                               (* 60-70 *)
  | HAliasBinding => (Normal, seq [Lit "+"; Call HKey; Lit "="; Lit quote; Call HBinder; Lit quote]) (* 72 *)
  | HTagBinding => (Normal, seq [Lit "#"; Call HKey; Lit "="; Lit quote; Call HBinder; Lit quote])   (* 74 *)
  | HAttributeBinding =>                                                                    (* 76 *)
      (Normal, seq [Lit "@"; Call HKey; Lit "="; Lit quote;
                    Plus (alt [Call HBinder; Call HQuotedString]); Lit quote])
  | HQuotedString => (Atomic, Plus (Call HQuotedChar))                                      (* 78 *)
  | HQuotedChar => (Normal, seq [Not (any_of ["<"; ">"; "{"; quote]); Any])                 (* 80-82 *)
  | HCallbackBinding =>                                                                     (* 84 *)
      (Normal, seq [Lit "^"; Call HKey; Lit "="; Lit quote;
                    Star (alt [Call HEvent; Call HBinder; Call HKey]); Lit quote])
  | HEvent => (Normal, Lit "$event")                                                        (* 86 *)
  | HVisibilityBinding =>                                                                   (* 88 *)
      (Normal, seq [Call HVisible; Lit "="; Lit quote; Call HBinder; Lit quote])
  | HVisible => (Normal, any_of ["?"; "!"])                                                 (* 90 *)
  | HRepeatBinding =>                                                                       (* 92 *)
      (Normal, seq [Lit "*"; Call HKey; Lit "="; Lit quote; Call HCount; Call HBinder; Lit quote])
  | HCount => (Normal, Star (Cls is_digit))                                                 (* 94 *)
  | HDoubleQuoted => (Normal, seq [Call HName; Lit "="; Lit quote; Call HValue; Lit quote]) (* 97 *)
  | HUnquoted => (Normal, seq [Call HName; Lit "="; Call HValue])                           (* 100 *)
  | HEmpty => (Normal, Call HName)                                                          (* 103 *)
  | HName => (Atomic, Plus (Call HNChar))                                                   (* 106 *)
  | HNChar =>                                                                               (* 109-112 *)
      (Atomic, seq [Not (alt [any_of [quote; slash; "'"; ">"; "/"; "="; String "000" ""];
                              Call HWhitespace; any_of ["@"; "?"; "!"; "*"; "+"; "^"; "#"]]); Any])
  | HBinder => (NonAtomic, seq [Lit "{"; Call HGetter; Star (seq [Lit "|"; Call HTransformer]); Lit "}"]) (* 114 *)
  | HGetter => (Normal, seq [Call HKey; Star (seq [Lit "."; Call HKey])])                   (* 116 *)
  | HTransformer => (Normal, seq [Call HKey; Star (seq [Lit ":"; Call HGetter])])           (* 118 *)
  | HKey => (Atomic, Plus (Call HKChar))                                                    (* 120 *)
  | HKChar => (Normal, Cls ident_char)                                                      (* 122 *)
  | HValue => (Atomic, Star (Call HVChar))                                                  (* 125 *)
  | HVChar =>                                                                               (* 128-132 *)
      (Normal, alt [seq [Not (any_of [quote; slash]); Any];
                    seq [Lit slash; any_of [quote; slash; "/"; "b"; "f"; "n"; "r"; "t"]];
                    seq [Lit slash; seq [Lit "u"; seq [Cls is_hex; Cls is_hex; Cls is_hex; Cls is_hex]]]])
  | HEnd => (Normal, Eoi)
  end.

Definition html_grammar : grammar HtmlRule :=
  mkGrammar html_rule (skip_exp (comment_exp "<!--" "-->")) HEnd.
