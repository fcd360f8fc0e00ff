(** * Reading templates: src/html/reader.rs:126-338. *)
From Coq Require Import ZArith.
From stdpp Require Import gmap.
From Verif Require Import Str Res Html Peg CssGrammar HtmlGrammar ReadCss.

(** [iter().next().unwrap()] on the pairs inside a pair, and the second of them. *)
Definition hfirst (p : hpair) : res hpair := unwrap (head (p_inner p)).
Definition hsecond (p : hpair) : res hpair := unwrap (head (tail (p_inner p))).
Definition hthird (p : hpair) : res hpair := unwrap (head (tail (tail (p_inner p)))).

(** src/html/reader.rs:249-265 *)
Definition binder_part (b : Binder) (p : hpair) : res Binder :=
  match p_rule p with
  | HGetter => Ok (mkBinder (map p_text (p_inner p)) (b_pipe b))
  | HTransformer => Ok (mkBinder (b_path b) (b_pipe b ++ [p_text p]))
  | _ => Panic
  end.
Definition parse_binder (p : hpair) : res Binder := foldR binder_part (mkBinder [] []) (p_inner p).

(** src/html/reader.rs:287-299 *)
Definition parse_span (p : hpair) : res TextSpan :=
  match p_rule p with
  | HQuotedString => Ok (TSString (p_text p))
  | HBinder => do! b <- parse_binder p; Ok (TSBinder b)
  | _ => Panic
  end.

(** src/html/reader.rs:304-313 *)
Definition parse_argument (p : hpair) : res CallbackArgument :=
  match p_rule p with
  | HKey => Ok (CAKeyword (p_text p))
  | HBinder => do! b <- parse_binder p; Ok (CABinder b)
  | HEvent => Ok CAEvent
  | _ => Panic
  end.

(** src/html/reader.rs:267-338, one attribute; a count that cannot be read is 0. *)
Definition parse_element_binding (p : hpair) : res ElementBinding :=
  do! n <- hfirst p;
  let name := p_text n in
  match p_rule p with
  | HRepeatBinding =>
      do! c <- hsecond p;
      do! q <- hthird p;
      do! b <- parse_binder q;
      Ok (EBRepeat name (match parse_usize (p_text c) with Some n => n | None => 0 end) b)
  | HAliasBinding => do! q <- hsecond p; do! b <- parse_binder q; Ok (EBAlias name b)
  | HTagBinding => do! q <- hsecond p; do! b <- parse_binder q; Ok (EBTag name b)
  | HAttributeBinding => do! spans <- each parse_span (tail (p_inner p)); Ok (EBAttribute name spans)
  | HCallbackBinding => do! args <- each parse_argument (tail (p_inner p)); Ok (EBCallback name args)
  | HVisibilityBinding => do! q <- hsecond p; do! b <- parse_binder q; Ok (EBVisibility (String.eqb name "?") b)
  | HDoubleQuoted => do! v <- hsecond p; Ok (EBNone name (p_text v))
  | HUnquoted => do! v <- hsecond p; Ok (EBNone name (p_text v))
  | HEmpty => Ok (EBNone name "")
  | _ => Panic
  end.
Definition parse_element_bindings (p : hpair) : res (list ElementBinding) :=
  each parse_element_binding (p_inner p).

(** src/html/reader.rs:170-178 *)
Definition prefetch_span (p : hpair) : res TextSpan :=
  match p_rule p with
  | HString => Ok (TSString (p_text p))
  | HBinder => do! b <- parse_binder p; Ok (TSBinder b)
  | _ => Panic
  end.

(** src/html/reader.rs:190-203: the lines of a text after the first. *)
Definition add_line (is_last : bool) (text fragment : string) : string :=
  let fragment := trim_start fragment in
  if negb (String.eqb fragment "") || negb is_last then text +:+ " " +:+ fragment else text.

(** src/html/reader.rs:189-203: a text without its line breaks and indentation. *)
Definition join_lines (is_last : bool) (s : string) : string :=
  match split_on nl s with
  | [] => ""
  | l :: ls => fold_left (add_line is_last) ls l
  end.

(** src/html/reader.rs:182-210: empty texts are dropped. *)
Definition tidy_span (is_last : bool) (span : TextSpan) : option TextSpan :=
  match span with
  | TSString s => let text := join_lines is_last s in
                  if String.eqb text "" then None else Some (TSString text)
  | span => Some span
  end.

(** src/html/reader.rs:138-247 *)
Fixpoint parse_content (p : hpair) (is_last : bool) : res Html :=
  match p with
  | Pair HElement _ inner =>
      match inner with
      | tag :: attrs :: Pair _ _ children :: _ =>
          do! bindings <- parse_element_bindings attrs;
          do! kids <- (fix go (l : list hpair) : res (list Html) :=
                         match l with
                         | [] => Ok []
                         | c :: l' =>
                             do! h <- parse_content c (match l' with [] => true | _ => false end);
                             do! hs <- go l'; Ok (h :: hs)
                         end) children;
          Ok (mkHtml (p_text tag) bindings None kids)
      | _ => Panic
      end
  | Pair HText _ inner =>
      do! spans <- each prefetch_span inner;
      Ok (mkHtml "" [] (Some (keep (map (tidy_span is_last) spans))) [])
  | Pair HVoid _ inner =>
      match inner with
      | tag :: attrs :: _ => do! bindings <- parse_element_bindings attrs; Ok (mkHtml (p_text tag) bindings None [])
      | _ => Panic
      end
  | Pair HScript _ _ => Ok (mkHtml "script" [] None [])
  | _ => Panic
  end.

(** src/html/reader.rs:126-132 *)
Definition read_html (s : string) : res Html :=
  do! ps <- parse_with html_grammar EHtml HDocument s;
  do! document <- ok_or (head ps) EHtml;
  parse_content document true.
