(** * Rust string primitives used by bumaga.

    A Rust [String]/[&str] is modelled as the Coq [string] of its UTF-8 bytes.
    All separators used by the code are ASCII, so the byte-wise and the
    [char]-wise readings of [split], [starts_with], ... coincide. *)
From stdpp Require Export base strings list pretty numbers.
From Coq Require Export Ascii String.
From Coq Require Import ZArith.
Global Open Scope string_scope.
Global Open Scope list_scope.

(** [str::split(c)] for a one-byte separator [c]: always at least one piece.
    (core::str::split; used at src/css/matching.rs:105,165,
    src/view_model.rs:736, src/html/reader.rs:190) *)
Fixpoint split_on (c : ascii) (s : string) : list string :=
  match s with
  | "" => [""]
  | String d s' =>
      if Ascii.eqb d c then "" :: split_on c s'
      else match split_on c s' with
           | [] => [String d ""]
           | p :: ps => String d p :: ps
           end
  end.

(** [slice::join(sep)] on strings (src/element.rs:145, src/view_model.rs:576,593). *)
Fixpoint join (sep : string) (l : list string) : string :=
  match l with
  | [] => ""
  | [x] => x
  | x :: l' => x +:+ sep +:+ join sep l'
  end.

(** [str::starts_with] (src/css/matching.rs:107, src/css/reader.rs:165,274). *)
Fixpoint starts_with (p s : string) : bool :=
  match p, s with
  | "", _ => true
  | String a p', String b s' => Ascii.eqb a b && starts_with p' s'
  | String _ _, "" => false
  end.

(** [str::ends_with] (src/css/matching.rs:109): some suffix of [s] equals [p]. *)
Fixpoint ends_with (p s : string) : bool :=
  String.eqb s p ||
  match s with
  | "" => false
  | String _ s' => ends_with p s'
  end.

(** [str::contains(&str)] (src/css/matching.rs:108). *)
Fixpoint contains (p s : string) : bool :=
  starts_with p s ||
  match s with
  | "" => false
  | String _ s' => contains p s'
  end.

Definition is_digit (a : ascii) : bool :=
  let n := N_of_ascii a in (48 <=? n)%N && (n <=? 57)%N.

Definition digit_val (a : ascii) : N := (N_of_ascii a - 48)%N.

Fixpoint parse_digits (acc : N) (s : string) : option N :=
  match s with
  | "" => Some acc
  | String a s' => if is_digit a then parse_digits (acc * 10 + digit_val a)%N s' else None
  end.

(** [u64::MAX]; [usize] is 64 bits wide on the supported targets. *)
Definition u64_max : N := 18446744073709551615%N.

(** [str::parse::<u64>()] / [str::parse::<usize>()]: optional leading ['+'],
    at least one digit, no overflow (core::num; used at
    src/view_model.rs:737, src/value.rs:37, src/html/reader.rs:276). *)
Definition parse_u64 (s : string) : option N :=
  let digits := match s with
                | String "+" s' => s'
                | _ => s
                end in
  match digits with
  | "" => None
  | _ => match parse_digits 0 digits with
         | Some n => if (n <=? u64_max)%N then Some n else None
         | None => None
         end
  end.

Definition parse_usize (s : string) : option nat := N.to_nat <$> parse_u64 s.

(** [format!("{n}")] for an unsigned integer. *)
Definition fmt_nat (n : nat) : string := pretty (N.of_nat n).
Definition fmt_N (n : N) : string := pretty n.

Definition byte (n : nat) : ascii := ascii_of_nat n.

(** One leading Unicode [White_Space] character of a UTF-8 string, if any;
    returns the rest (the definition of [char::is_whitespace]). *)
Definition strip_ws (s : string) : option string :=
  match s with
  | "" => None
  | String a s1 =>
      let n := nat_of_ascii a in
      if (Nat.eqb n 32) || ((9 <=? n)%nat && (n <=? 13)%nat) then Some s1
      else match s1 with
           | "" => None
           | String b s2 =>
               let m := nat_of_ascii b in
               if Nat.eqb n 194 && (Nat.eqb m 133 || Nat.eqb m 160) then Some s2
               else match s2 with
                    | "" => None
                    | String c s3 =>
                        let k := nat_of_ascii c in
                        if (Nat.eqb n 225 && Nat.eqb m 154 && Nat.eqb k 128)
                           || (Nat.eqb n 226 && Nat.eqb m 128
                               && (((128 <=? k)%nat && (k <=? 138)%nat)
                                   || Nat.eqb k 168 || Nat.eqb k 169 || Nat.eqb k 175))
                           || (Nat.eqb n 226 && Nat.eqb m 129 && Nat.eqb k 159)
                           || (Nat.eqb n 227 && Nat.eqb m 128 && Nat.eqb k 128)
                        then Some s3 else None
                    end
           end
  end.

Fixpoint trim_fuel (fuel : nat) (s : string) : string :=
  match fuel with
  | O => s
  | S f => match strip_ws s with
           | Some s' => trim_fuel f s'
           | None => s
           end
  end.

(** [str::trim_start] (src/html/reader.rs:192); every strip removes at least
    one byte, so the length is enough fuel. *)
Definition trim_start (s : string) : string := trim_fuel (String.length s) s.

Definition nl : ascii := "010"%char.
