(** * The pest parser generator: what the derived parsers of src/css/css.pest and src/html/html.pest do.

    Both readers are pest 2 parsers ([#[derive(Parser)]] at src/css/reader.rs:13-15 and
    src/html/reader.rs:11-13).  A grammar is modelled as data (CssGrammar.v, HtmlGrammar.v: one
    expression per rule of the [.pest] file) and this file models the code pest generates from it:
    ordered choice, greedy repetition, look-ahead, implicit white space between the parts of a
    sequence or repetition, and the five kinds of rules.

    Simplifications, none visible in the results for valid UTF-8 text:
    - [ANY] takes one byte where pest takes one character.  Every use is inside a repetition
      guarded by a look-ahead for ASCII characters, so the extent of the repetition is the same;
    - [SOI] is written [Lit ""]: both grammars only use it first;
    - pest's optimiser (string concatenation, factoring of common prefixes, skipping to a literal)
      is taken to preserve meaning.  Its unrolling of [e+] into [e ~ e*] is modelled, because the
      implicit white space after the first [e] is observable;
    - the depth of the call stack is not limited. *)
From Verif Require Import Str.
From Coq Require Import Lia.

(** pest's rule kinds: [{}], [_{}], [@{}], [${}], [!{}]. *)
Inductive kind : Set := Normal | Silent | Atomic | CompoundAtomic | NonAtomic.
(** pest's [Atomicity] of the parser state. *)
Inductive mode : Set := MNormal | MCompound | MAtomic.

(** The input after a prefix [p]. *)
Fixpoint strip (p s : string) : option string :=
  match p, s with
  | "", _ => Some s
  | String a p', String b s' => if Ascii.eqb a b then strip p' s' else None
  | String _ _, "" => None
  end.

Definition lower (a : ascii) : ascii :=
  let n := nat_of_ascii a in
  if (65 <=? n)%nat && (n <=? 90)%nat then ascii_of_nat (n + 32) else a.

(** The text matched by [^"p"] (ASCII case-insensitively) and the input after it. *)
Fixpoint istrip (p s : string) : option (string * string) :=
  match p, s with
  | "", _ => Some ("", s)
  | String a p', String b s' =>
      if Ascii.eqb (lower a) (lower b)
      then match istrip p' s' with Some (t, r) => Some (String b t, r) | None => None end
      else None
  | String _ _, "" => None
  end.

Section peg.
  (** The names of the grammar's rules. *)
  Context {R : Type}.

  Inductive exp :=
  | Lit (p : string)
  | ILit (p : string)
  | Any
  | Cls (p : ascii -> bool)
  | Eoi
  | Seq (a b : exp)
  | Alt (a b : exp)
  | Opt (a : exp)
  | Star (a : exp)
  | Not (a : exp)
  | Call (r : R).

  (** [e+] (pest's optimiser rewrites it to [e ~ e*]). *)
  Definition Plus (a : exp) : exp := Seq a (Star a).

  (** pest's [Pair]: the rule, the text it covers ([as_str]) and the pairs inside ([into_inner]). *)
  Inductive pair := Pair (rule : R) (text : string) (inner : list pair).
  Definition p_rule (p : pair) : R := let '(Pair r _ _) := p in r.
  Definition p_text (p : pair) : string := let '(Pair _ t _) := p in t.
  Definition p_inner (p : pair) : list pair := let '(Pair _ _ ps) := p in ps.

  (** The result of matching an expression: the pairs produced, the text consumed and the rest. *)
  Inductive out := Fail | Match (ps : list pair) (text rest : string).

  (** A grammar: its rules, the implicit white space (any WHITESPACE and COMMENT), and the
      name of the pair produced by [EOI]. *)
  Record grammar := mkGrammar { g_rule : R -> kind * exp; g_skip : exp; g_end : R }.

  (** [(skip ~ a)*], the tail of a repetition: an iteration that fails restores the input. *)
  Fixpoint loop (n : nat) (skip a : string -> option out) (s : string) : option out :=
    match n with
    | O => None
    | S n =>
        match skip s with
        | None => None
        | Some Fail => Some (Match [] "" s)
        | Some (Match _ tw s1) =>
            match a s1 with
            | None => None
            | Some Fail => Some (Match [] "" s)
            | Some (Match ps t s2) =>
                match loop n skip a s2 with
                | Some (Match ps' t' s3) => Some (Match (ps ++ ps') (tw +:+ (t +:+ t')) s3)
                | o => o
                end
            end
        end
    end.

  Context (g : grammar).

  (** A rule's pair, unless the parser is in atomic mode. *)
  Definition emit (m : mode) (r : R) (o : out) : out :=
    match o with
    | Match ps t s => Match (match m with MAtomic => ps | _ => [Pair r t ps] end) t s
    | Fail => Fail
    end.

  (** Implicit white space, only outside atomic rules. *)
  Definition skipping (m : mode) (space : string -> option out) (s : string) : option out :=
    match m with
    | MNormal => space s
    | _ => Some (Match [] "" s)
    end.

  (** Matching expression [e] in mode [m] at the beginning of [s]; [None] when the fuel runs out. *)
  Fixpoint eval (f : nat) (m : mode) (e : exp) (s : string) : option out :=
    match f with
    | O => None
    | S f =>
        let skip := skipping m (eval f MAtomic (g_skip g)) in
        match e with
        | Lit p => Some (match strip p s with Some r => Match [] p r | None => Fail end)
        | ILit p => Some (match istrip p s with Some (t, r) => Match [] t r | None => Fail end)
        | Any => Some (match s with String c r => Match [] (String c "") r | "" => Fail end)
        | Cls p => Some (match s with
                         | String c r => if p c then Match [] (String c "") r else Fail
                         | "" => Fail
                         end)
        | Eoi => Some (match s with "" => Match [Pair (g_end g) "" []] "" "" | _ => Fail end)
        | Seq a b =>
            match eval f m a s with
            | Some (Match pa ta s1) =>
                match skip s1 with
                | Some (Match _ tw s2) =>
                    match eval f m b s2 with
                    | Some (Match pb tb s3) => Some (Match (pa ++ pb) (ta +:+ (tw +:+ tb)) s3)
                    | o => o
                    end
                | o => o
                end
            | o => o
            end
        | Alt a b => match eval f m a s with Some Fail => eval f m b s | o => o end
        | Opt a => match eval f m a s with Some Fail => Some (Match [] "" s) | o => o end
        | Not a =>
            match eval f m a s with
            | Some Fail => Some (Match [] "" s)
            | Some (Match _ _ _) => Some Fail
            | None => None
            end
        | Star a =>
            match eval f m a s with
            | Some Fail => Some (Match [] "" s)
            | Some (Match ps t s1) =>
                match loop f skip (eval f m a) s1 with
                | Some (Match ps' t' s2) => Some (Match (ps ++ ps') (t +:+ t') s2)
                | o => o
                end
            | None => None
            end
        | Call r =>
            let b := snd (g_rule g r) in
            match fst (g_rule g r) with
            | Normal => emit m r <$> eval f m b s
            | Silent => eval f m b s
            | Atomic => emit m r <$> eval f MAtomic b s
            | CompoundAtomic => emit MCompound r <$> eval f MCompound b s
            | NonAtomic => emit MNormal r <$> eval f MNormal b s
            end
        end
    end.
End peg.
Arguments exp : clear implicits.
Arguments pair : clear implicits.
Arguments out : clear implicits.
Arguments grammar : clear implicits.

(** pest's built-in character classes. *)
Definition in_range (lo hi : nat) (a : ascii) : bool :=
  let n := nat_of_ascii a in (lo <=? n)%nat && (n <=? hi)%nat.
Definition is_lower (a : ascii) : bool := in_range 97 122 a.
Definition is_upper (a : ascii) : bool := in_range 65 90 a.
Definition is_alpha (a : ascii) : bool := is_lower a || is_upper a.
Definition is_hex (a : ascii) : bool := is_digit a || in_range 97 102 a || in_range 65 70 a.
