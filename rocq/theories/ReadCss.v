(** * Reading style sheets: src/css/reader.rs:30-306. *)
From Coq Require Import ZArith.
From stdpp Require Import gmap.
From Verif Require Import Str F32 Res PropKey Css Number Peg CssGrammar.

(** [iter().next().unwrap()] on the pairs inside a pair. *)
Definition first (p : cpair) : res cpair := unwrap (head (p_inner p)).
(** The second pair inside. *)
Definition second (p : cpair) : res cpair := unwrap (head (tail (p_inner p))).

(** [iter().map(f).collect()] *)
Section each.
  Context {A B : Type} (f : A -> res B).
  Fixpoint each (l : list A) : res (list B) :=
    match l with
    | [] => Ok []
    | a :: l' => do! b <- f a; do! bs <- each l'; Ok (b :: bs)
    end.
End each.

(** src/css/reader.rs:263-269 *)
Definition read_number (p : cpair) : f32 := read_f32 (p_text p).

(** src/css/reader.rs:246-250 *)
Definition read_percentage (p : cpair) : res f32 :=
  do! n <- first p; Ok (fdiv (read_number n) f100).

(** src/css/reader.rs:252-261 *)
Definition read_seconds (p : cpair) : res f32 :=
  do! n <- first p;
  do! u <- second p;
  if String.eqb (p_text u) "s" then Ok (read_number n)
  else if String.eqb (p_text u) "ms" then Ok (fdiv (read_number n) (f32_of_Z 1000))
  else Panic.

(** src/css/reader.rs:234-244: an unknown unit is read as pixels. *)
Definition read_dimension (p : cpair) : res Dim :=
  do! n <- first p;
  do! u <- second p;
  Ok (mkDim (read_number n) (match parse_units (p_text u) with Some u => u | None => UPx end)).

(** [u8::from_str_radix(.., 16).unwrap_or(0)] of two bytes of a text. *)
Definition hex_digit (a : ascii) : option Z :=
  let n := Z.of_nat (nat_of_ascii a) in
  if in_range 48 57 a then Some (n - 48)%Z
  else if in_range 97 102 a then Some (n - 87)%Z
  else if in_range 65 70 a then Some (n - 55)%Z
  else None.
Definition hex_byte (i : nat) (s : string) : Z :=
  match String.get i s, String.get (S i) s with
  | Some a, Some b =>
      match hex_digit a, hex_digit b with Some x, Some y => (16 * x + y)%Z | _, _ => 0%Z end
  | _, _ => 0%Z
  end.

(** src/css/reader.rs:271-306.  The branch for texts beginning with [rgb] unwraps pairs that a
    colour does not have; the grammar never reads such a text as a colour. *)
Definition read_color (p : cpair) : res Rgba :=
  let value := p_text p in
  let n := String.length value in
  if (n =? 7)%nat && starts_with "#" value then
    Ok (hex_byte 1 value, hex_byte 3 value, hex_byte 5 value, 255%Z)
  else if (n =? 9)%nat && starts_with "#" value then
    Ok (hex_byte 1 value, hex_byte 3 value, hex_byte 5 value, hex_byte 7 value)
  else if starts_with "rgb" value then Panic
  else Ok (255, 255, 255, 255)%Z.

(** src/css/reader.rs:220-232 *)
Definition read_explicit_value (p : cpair) : res ComputedValue :=
  match p_rule p with
  | RKeyword => Ok (CKeyword (p_text p))
  | RColor => do! c <- read_color p; Ok (CColor c)
  | RZero => Ok CZero
  | RTime => do! t <- read_seconds p; Ok (CTime t)
  | RPercentage => do! x <- read_percentage p; Ok (CPercentage x)
  | RDimension => do! d <- read_dimension p; Ok (CDimension d)
  | RNumber => Ok (CNumber (read_number p))
  | RString => do! s <- first p; Ok (CStr (p_text s))
  | _ => Panic
  end.

(** src/css/reader.rs:197-218 *)
Fixpoint read_value_def (p : cpair) : res Definition_ :=
  match p with
  | Pair RVar _ inner => do! n <- unwrap (head inner); Ok (DVar (p_text n))
  | Pair RFunction _ inner =>
      match inner with
      | n :: args => do! args <- each read_value_def args; Ok (DFunction (p_text n) args)
      | [] => Panic
      end
  | Pair RExplicit _ inner =>
      do! e <- unwrap (head inner); do! v <- read_explicit_value e; Ok (DExplicit v)
  | _ => Panic
  end.

(** src/css/reader.rs:193-195 *)
Definition read_shorthand (p : cpair) : res Shorthand := each read_value_def (p_inner p).

(** src/css/reader.rs:157-191, one declaration; an unsupported property is skipped. *)
Definition read_declaration (p : cpair) : res (option Declaration) :=
  do! name <- first p;
  do! shorthands <- second p;
  let key := p_text name in
  if starts_with "--" key then
    do! values <- each read_shorthand (p_inner shorthands);
    do! v <- unwrap (head values);
    Ok (Some (DeclVariable (mkVariable key v)))
  else
    match parse_key key with
    | None => Ok None
    | Some k =>
        do! values <- each read_shorthand (p_inner shorthands);
        Ok (Some (DeclProperty (mkProperty k values)))
    end.

Fixpoint keep {A} (l : list (option A)) : list A :=
  match l with
  | [] => []
  | Some a :: l' => a :: keep l'
  | None :: l' => keep l'
  end.

(** src/css/reader.rs:157-191 *)
Definition read_declarations (p : cpair) : res (list Declaration) :=
  do! ds <- each read_declaration (p_inner p); Ok (keep ds).

(** src/css/reader.rs:51-66 *)
Definition read_step (p : cpair) : res Z :=
  match p_rule p with
  | RPercentage => do! n <- first p; Ok (f32_as_u32 (read_number n))
  | RKeyword =>
      Ok (if String.eqb (p_text p) "from" then 0%Z
          else if String.eqb (p_text p) "to" then 100%Z else 0%Z)
  | _ => Panic
  end.

(** src/css/reader.rs:48-70 *)
Definition read_keyframe (p : cpair) : res Keyframe :=
  do! step <- first p;
  do! step <- read_step step;
  do! block <- second p;
  do! decls <- first block;
  do! ds <- read_declarations decls;
  Ok (mkKeyframe step ds).

(** src/css/reader.rs:44-73 *)
Definition read_animation (p : cpair) : res Animation :=
  do! name <- first p;
  do! frames <- each read_keyframe (tail (p_inner p));
  Ok (mkAnimation (p_text name) frames).

(** src/css/reader.rs:97-113 *)
Definition read_matcher (s : string) : res Matcher :=
  if String.eqb s "" then Ok MExist
  else if String.eqb s "=" then Ok MEqual
  else if String.eqb s "~=" then Ok MInclude
  else if String.eqb s "|=" then Ok MDashMatch
  else if String.eqb s "^=" then Ok MPrefix
  else if String.eqb s "$=" then Ok MSuffix
  else if String.eqb s "*=" then Ok MSubstring
  else Panic.

(** src/css/reader.rs:114-126 *)
Definition read_search (p : option cpair) : res string :=
  match p with
  | None => Ok ""
  | Some p =>
      match p_rule p with
      | RString => do! s <- first p; Ok (p_text s)
      | RIdent => Ok (p_text p)
      | _ => Panic
      end
  end.

(** src/css/reader.rs:85-134 *)
Definition read_simple (p : cpair) : res Simple :=
  let ident := match head (p_inner p) with Some i => p_text i | None => "" end in
  match p_rule p with
  | RAll => Ok SAll
  | RId => Ok (SId ident)
  | RClass => Ok (SClass ident)
  | RType_ => Ok (SType ident)
  | RAttribute =>
      let rest := tail (p_inner p) in
      do! m <- read_matcher (match head rest with Some q => p_text q | None => "" end);
      do! s <- read_search (head (tail rest));
      Ok (SAttribute ident m s)
  | RPseudoClass => Ok (SPseudoClass ident)
  | RRoot => Ok SRoot
  | RPseudoElement => Ok (SPseudoElement ident)
  | _ => Panic
  end.

(** src/css/reader.rs:78-142, one component of a selector after the components read so far. *)
Definition read_component (components : Complex) (p : cpair) : res Complex :=
  match p_rule p with
  | RCompound =>
      let is_descendant := match list.last components with
                           | Some l => match as_combinator l with None => true | Some _ => false end
                           | None => false
                           end in
      do! simples <- each read_simple (p_inner p);
      Ok (components ++ (if is_descendant then [SCombinator " "] else []) ++ simples)
  | RCombinator =>
      match p_text p with
      | String c _ => Ok (components ++ [SCombinator c])
      | "" => Panic
      end
  | _ => Panic
  end.

(** src/css/reader.rs:76-147 *)
Definition read_complex (p : cpair) : res Complex := foldR read_component [] (p_inner p).

(** src/css/reader.rs:72-155 *)
Definition read_style (p : cpair) : res Style :=
  do! selectors <- first p;
  do! complexes <- each read_complex (p_inner selectors);
  do! block <- second p;
  do! decls <- first block;
  do! ds <- read_declarations decls;
  Ok (mkStyle complexes ds).

(** src/css/reader.rs:43-155: animations are kept by name, the last of a name wins. *)
Definition read_rule (css : Css) (p : cpair) : res Css :=
  match p_rule p with
  | RAnimation =>
      do! a <- read_animation p;
      Ok (mkCss (css_styles css) (<[an_name a := a]> (css_animations css)))
  | RStyle => do! s <- read_style p; Ok (mkCss (css_styles css ++ [s]) (css_animations css))
  | _ => Panic
  end.

(** Enough fuel for a text (see ReadTotal.v: it never runs out). *)
Definition enough (s : string) : nat := S (String.length s) * 40.

(** [Parser::parse]: the pairs of the whole text, or a syntax error. *)
Definition parse_with {R} (g : grammar R) (error : ViewError) (r : R) (s : string) : res (list (pair R)) :=
  match eval g (enough s) MNormal (Call r) s with
  | None => Hang
  | Some Fail => Err error
  | Some (Match ps _ _) => Ok ps
  end.

(** src/css/reader.rs:37-155 *)
Definition read_css (s : string) : res Css :=
  do! ps <- parse_with css_grammar ECss RStyleSheet s;
  do! sheet <- ok_or (head ps) ECss;
  foldR read_rule (mkCss [] ∅) (p_inner sheet).

(** src/css/reader.rs:30-35 *)
Definition read_inline_css (s : string) : res (list Declaration) :=
  do! ps <- parse_with css_grammar ECss RDeclarations s;
  do! block <- ok_or (head ps) ECss;
  read_declarations block.
