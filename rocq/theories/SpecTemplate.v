(** * How templates are written, and what they mean.

    [document_text h text]: [text] is a way of writing the template [h], with white space and
    comments wherever HTML allows them (and bumaga too: where bumaga demands more than HTML, the
    comments say so).  Nothing here refers to the parser or the reader. *)
From Coq Require Import ZArith.
From Verif Require Import Str Html SpecText.

Notation hgap := (blank "<!--" "-->").

(** ** Binders: [{ a.b | f}].  A transformer is directly followed by the next bar or the closing
    brace (bumaga takes blanks after it to be part of its name); its arguments are left out. *)
Definition key (k : string) : Prop := all name_sign k /\ k <> "".

Inductive path_text : list string -> string -> Prop :=
| path_last k : key k -> path_text [k] k
| path_next k a b ks ts :
    key k -> hgap a -> hgap b -> path_text ks ts ->
    path_text (k :: ks) (k +:+ (a +:+ ("." +:+ (b +:+ ts)))).
Inductive pipe_text : list string -> string -> Prop :=
| no_pipe : pipe_text [] ""
| next_pipe b k ks ts : hgap b -> key k -> pipe_text ks ts -> pipe_text (k :: ks) ("|" +:+ (b +:+ (k +:+ ts))).
Inductive binder_text : Binder -> string -> Prop :=
| binder_written a path tp b pipe tf :
    hgap a -> path_text path tp -> hgap b -> pipe_text pipe tf ->
    binder_text (mkBinder path pipe) ("{" +:+ (a +:+ (tp +:+ (b +:+ (tf +:+ "}"))))).

(** ** Texts: strings and binders; two strings in a row are one string. *)
Definition string_or_nothing (s : string) : Prop := s = "" \/ exists q, s = String "{" q.
Definition text_char (c : ascii) : bool := negb (Ascii.eqb c "<" || Ascii.eqb c ">" || Ascii.eqb c "{").
Inductive spans_text : list TextSpan -> string -> Prop :=
| no_spans : spans_text [] ""
| next_binder b t ss ts : binder_text b t -> spans_text ss ts -> spans_text (TSBinder b :: ss) (t +:+ ts)
| next_string s ss ts :
    all text_char s -> s <> "" -> string_or_nothing ts -> spans_text ss ts ->
    spans_text (TSString s :: ss) (s +:+ ts).

(** What a string says: its lines, without the indentation of the lines after the first, joined by
    single spaces.  In the last text of an element blank lines after the first say nothing. *)
Definition unbroken (s : string) : Prop := all (fun c => negb (Ascii.eqb c nl)) s.
Inductive lines : list string -> string -> Prop :=
| one_line l : unbroken l -> lines [l] l
| more_lines l ls s : unbroken l -> lines ls s -> lines (l :: ls) (l +:+ String nl s).

(** The white space characters of Unicode, in UTF-8. *)
Definition bytes (l : list nat) : string := fold_right (fun n s => String (ascii_of_nat n) s) "" l.
Inductive space : string -> Prop :=
| space_control n : (9 <= n <= 13)%nat -> space (bytes [n])
| space_space : space (bytes [32])
| space_latin n : n = 133 \/ n = 160 -> space (bytes [194; n])
| space_ogham : space (bytes [225; 154; 128])
| space_quads n : (128 <= n <= 138)%nat \/ n = 168 \/ n = 169 \/ n = 175 -> space (bytes [226; 128; n])
| space_math : space (bytes [226; 129; 159])
| space_ideographic : space (bytes [227; 128; 128]).
Inductive unindented : string -> string -> Prop :=
| no_indent r : (forall w s, space w -> r <> w +:+ s) -> unindented r r
| an_indent w l r : space w -> unindented l r -> unindented (w +:+ l) r.

Definition after_break (last : bool) (l : string) : string :=
  if last && String.eqb l "" then "" else " " +:+ l.
Inductive says (last : bool) : string -> string -> Prop :=
| says_lines s l ls ls' :
    lines (l :: ls) s -> Forall2 unindented ls ls' ->
    says last s (l +:+ fold_right String.append "" (map (after_break last) ls')).
Inductive shows (last : bool) : list TextSpan -> list TextSpan -> Prop :=
| shows_nothing : shows last [] []
| shows_binder b ss ss' : shows last ss ss' -> shows last (TSBinder b :: ss) (TSBinder b :: ss')
| shows_string s s' ss ss' : says last s s' -> s' <> "" -> shows last ss ss' -> shows last (TSString s :: ss) (TSString s' :: ss')
| shows_empty s ss ss' : says last s "" -> shows last ss ss' -> shows last (TSString s :: ss) ss'.

(** ** Attributes. *)
(** Names of attributes. *)
Definition attribute_char (c : ascii) : bool :=
  negb (white c || Ascii.eqb c "034" || Ascii.eqb c "092" || Ascii.eqb c "'" || Ascii.eqb c ">" || Ascii.eqb c "/"
        || Ascii.eqb c "=" || Ascii.eqb c "000" || Ascii.eqb c "@" || Ascii.eqb c "?" || Ascii.eqb c "!"
        || Ascii.eqb c "*" || Ascii.eqb c "+" || Ascii.eqb c "^" || Ascii.eqb c "#").
Definition attribute_name (n : string) : Prop := all attribute_char n /\ n <> "".

(** Values without quotes and backslashes (escapes are left out: bumaga keeps them as they are
    written).  Bumaga takes white space and comments in front of the value to be no part of it. *)
Definition value_char (c : ascii) : bool := negb (Ascii.eqb c "034" || Ascii.eqb c "092").
Definition no_blank_first (s : string) : Prop :=
  (forall c r, s = String c r -> white c = false) /\ (forall r, s <> "<!--" +:+ r).

(** Strings and binders of a bound attribute; a string does not begin with white space (bumaga
    would drop it). *)
Definition quoted_char (c : ascii) : bool := text_char c && negb (Ascii.eqb c "034").
Inductive quoted_spans_text : list TextSpan -> string -> Prop :=
| no_quoted_spans a : hgap a -> quoted_spans_text [] a
| next_quoted_binder a b t ss ts :
    hgap a -> binder_text b t -> quoted_spans_text ss ts -> quoted_spans_text (TSBinder b :: ss) (a +:+ (t +:+ ts))
| next_quoted_string a c s ss ts :
    hgap a -> white c = false -> all quoted_char (String c s) -> string_or_nothing ts -> quoted_spans_text ss ts ->
    quoted_spans_text (TSString (String c s) :: ss) (a +:+ (String c s +:+ ts)).

(** Arguments of a callback. *)
Inductive arguments : list CallbackArgument -> string -> Prop :=
| no_arguments_left a : hgap a -> arguments [] a
| event_argument a ss ts : hgap a -> arguments ss ts -> arguments (CAEvent :: ss) (a +:+ ("$event" +:+ ts))
| binder_argument a b t ss ts :
    hgap a -> binder_text b t -> arguments ss ts -> arguments (CABinder b :: ss) (a +:+ (t +:+ ts))
| keyword_argument a k ss ts :
    hgap a -> key k -> (forall c r, ts = String c r -> name_sign c = false) -> arguments ss ts ->
    arguments (CAKeyword k :: ss) (a +:+ (k +:+ ts)).

(** The count of a repetition; one that is missing or does not fit 64 bits counts as 0. *)
Inductive counts : nat -> string -> Prop :=
| counts_digits d : all digit d -> d <> "" -> (whole_value 0 d < 2 ^ 64)%Z -> counts (Z.to_nat (whole_value 0 d)) d
| counts_none : counts 0 ""
| counts_large d : all digit d -> (2 ^ 64 <= whole_value 0 d)%Z -> counts 0 d.

(** [sign key = "value"] *)
Definition quoted (sign k a b value : string) : string :=
  sign +:+ (k +:+ (a +:+ ("=" +:+ (b +:+ (quotation +:+ (value +:+ quotation)))))).

(** Nothing, or white space and comments beginning with white space (a comment directly after the
    name of an attribute would begin with a [<] that belongs to the name). *)
Definition spaced (a : string) : Prop := a = "" \/ exists c b, a = String c b /\ white c = true /\ hgap b.

Inductive attribute_written : ElementBinding -> string -> Prop :=
| plain_attribute n a b c v :
    attribute_name n -> spaced a -> hgap b -> hgap c -> all value_char v -> no_blank_first v ->
    attribute_written (EBNone n v) (quoted "" n a b (c +:+ v))
| empty_attribute n : attribute_name n -> attribute_written (EBNone n "") n
| alias_attribute g k a b c e t d : hgap g -> key k -> hgap a -> hgap b -> hgap c -> hgap e -> binder_text d t ->
    attribute_written (EBAlias k d) (quoted ("+" +:+ g) k a b (c +:+ (t +:+ e)))
| tag_attribute g k a b c e t d : hgap g -> key k -> hgap a -> hgap b -> hgap c -> hgap e -> binder_text d t ->
    attribute_written (EBTag k d) (quoted ("#" +:+ g) k a b (c +:+ (t +:+ e)))
| visible_attribute a b c e t d : hgap a -> hgap b -> hgap c -> hgap e -> binder_text d t ->
    attribute_written (EBVisibility true d) (quoted "?" "" a b (c +:+ (t +:+ e)))
| hidden_attribute a b c e t d : hgap a -> hgap b -> hgap c -> hgap e -> binder_text d t ->
    attribute_written (EBVisibility false d) (quoted "!" "" a b (c +:+ (t +:+ e)))
| repeat_attribute g k a b c n tn f e t d :
    hgap g -> key k -> hgap a -> hgap b -> hgap c -> counts n tn -> hgap f -> hgap e -> binder_text d t ->
    attribute_written (EBRepeat k n d) (quoted ("*" +:+ g) k a b (c +:+ (tn +:+ (f +:+ (t +:+ e)))))
| bound_attribute g k a b ss t : hgap g -> key k -> hgap a -> hgap b -> quoted_spans_text ss t -> ss <> [] ->
    attribute_written (EBAttribute k ss) (quoted ("@" +:+ g) k a b t)
| callback_attribute g k a b args t : hgap g -> key k -> hgap a -> hgap b -> arguments args t ->
    attribute_written (EBCallback k args) (quoted ("^" +:+ g) k a b t).

(** Attributes, each after white space (and comments). *)
Inductive attributes_text : list ElementBinding -> string -> Prop :=
| no_attributes a : spaced a -> attributes_text [] a
| next_attribute c a b t bs ts :
    white c = true -> hgap a -> attribute_written b t -> attributes_text bs ts ->
    attributes_text (b :: bs) (String c (a +:+ (t +:+ ts))).

(** ** Elements. *)
Definition tag_sign (c : ascii) : bool := letter c || digit c || Ascii.eqb c "-".
Definition void_elements : list string :=
  ["area"; "base"; "br"; "col"; "command"; "embed"; "hr"; "img"; "input"; "keygen"; "link"; "meta";
   "param"; "source"; "track"; "wbr"].
(** A letter without its case, and texts that differ in case only. *)
Definition small (c : ascii) : ascii :=
  if between "A" "Z" c then ascii_of_nat (nat_of_ascii c + 32) else c.
Fixpoint same_letters (a b : string) : Prop :=
  match a, b with
  | "", "" => True
  | String x a', String y b' => small x = small y /\ same_letters a' b'
  | _, _ => False
  end.
Definition void_tag (t : string) : Prop := exists v, In v void_elements /\ same_letters v t.
(** Tags of elements with content.  In bumaga they do not begin with the name of a void element
    ([<column>] is taken to be [<col umn>]). *)
Definition content_tag (t : string) : Prop :=
  all tag_sign t /\ t <> "" /\ t <> "script" /\ forall x y, t = x +:+ y -> ~ void_tag x.

Definition is_text (h : Html) : Prop := h_text h <> None.
(** After a text comes a tag, a comment or nothing. *)
Definition text_ends (h : Html) (rest : string) : Prop := is_text h -> rest = "" \/ exists q, rest = String "<" q.

Inductive content_text : bool -> Html -> string -> Prop :=
| text_written last ss ss' t :
    spans_text ss t -> ss <> [] -> (forall c r, t = String c r -> white c = false) -> shows last ss ss' ->
    content_text last (mkHtml "" [] (Some ss') []) t
| void_written last tag bs t :
    void_tag tag -> attributes_text bs t -> content_text last (mkHtml tag bs None []) ("<" +:+ (tag +:+ (t +:+ ">")))
| void_closed last tag bs t a :
    void_tag tag -> attributes_text bs t -> hgap a ->
    content_text last (mkHtml tag bs None []) ("<" +:+ (tag +:+ (t +:+ ("/" +:+ (a +:+ ">")))))
| script_written last body :
    closed_by "</script>" body -> (forall x y, body <> x +:+ ("<!--" +:+ y)) ->
    content_text last (mkHtml "script" [] None []) ("<script>" +:+ (body +:+ "</script>"))
| element_written last tag bs ta a hs tc b :
    content_tag tag -> attributes_text bs ta -> hgap a -> children_text hs tc -> hgap b ->
    content_text last (mkHtml tag bs None hs)
      ("<" +:+ (tag +:+ (ta +:+ (">" +:+ (a +:+ (tc +:+ ("</" +:+ (tag +:+ (b +:+ ">")))))))))
with children_text : list Html -> string -> Prop :=
| no_children : children_text [] ""
| next_child h t a hs ts :
    content_text (match hs with [] => true | _ => false end) h t -> hgap a -> text_ends h (a +:+ ts) ->
    children_text hs ts -> children_text (h :: hs) (t +:+ (a +:+ ts)).

(** A document: one element (bumaga reads the first and forgets the others). *)
Inductive document_text : Html -> string -> Prop :=
| document_written a h t b :
    hgap a -> content_text true h t -> hgap b -> text_ends h b -> document_text h (a +:+ (t +:+ b)).

Scheme content_text_mut := Minimality for content_text Sort Prop
  with children_text_mut := Minimality for children_text Sort Prop.
