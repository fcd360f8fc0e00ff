(** * Reading a decimal number: [str::parse::<f32>()] on the texts the style sheet grammar calls
    numbers (digits, ['-'] and ['.'] only; src/css/reader.rs:263-269). *)
From Coq Require Import ZArith Bool.
From Flocq Require Import Core.Core IEEE754.BinarySingleNaN Calc.Bracket Calc.Div.
From Verif Require Import Str F32.
Close Scope R_scope.

(** The [f32] with the given bit pattern (every pattern produced by rounding is valid). *)
Definition f32_of_SF (z : SpecFloat.spec_float) : f32 :=
  match Bool.bool_dec (SpecFloat.valid_binary 24 128 z) true with
  | left h => SF2B z h
  | right _ => B754_nan
  end.

(** The [f32] nearest to [± m / 10^k], ties to even: Rust's [f32::from_str] rounds correctly. *)
Definition f32_of_decimal (neg : bool) (m : N) (k : nat) : f32 :=
  match m with
  | N0 => B754_zero neg
  | Npos p =>
      let '(mz, ez, lz) :=
        Fdiv (beta := radix2) (SpecFloat.fexp 24 128) (Float radix2 (Zpos p) 0) (Float radix2 (10 ^ Z.of_nat k) 0) in
      f32_of_SF (binary_round_aux 24 128 mode_NE neg mz ez lz)
  end.

(** The leading digits of a text, and what follows them. *)
Fixpoint digits_of (s : string) : string * string :=
  match s with
  | String a s' => if is_digit a then let '(d, r) := digits_of s' in (String a d, r) else ("", s)
  | "" => ("", "")
  end.

(** [str::parse::<f32>()]: an optional sign, digits with at most one point among them and at least
    one digit.  (Exponents, ["inf"] and ["nan"] cannot occur in a number of the grammar.) *)
Definition parse_f32 (s : string) : option f32 :=
  let '(neg, body) := match s with
                      | String "-" r => (true, r)
                      | String "+" r => (false, r)
                      | _ => (false, s)
                      end in
  let '(whole, r) := digits_of body in
  let fraction := match r with
                  | "" => Some ""
                  | String "." r' => let '(d, e) := digits_of r' in match e with "" => Some d | _ => None end
                  | _ => None
                  end in
  match fraction with
  | None => None
  | Some d =>
      if (String.length whole + String.length d =? 0)%nat then None
      else match parse_digits 0 (whole +:+ d) with
           | Some m => Some (f32_of_decimal neg m (String.length d))
           | None => None
           end
  end.

(** src/css/reader.rs:263-269 *)
Definition read_f32 (s : string) : f32 := match parse_f32 s with Some x => x | None => f0 end.

Goal feq (read_f32 "12.5") (fdiv (f32_of_Z 25) (f32_of_Z 2)) = true. Proof. vm_compute. reflexivity. Qed.
Goal feq (read_f32 "-.1") (fdiv (f32_of_Z (-1)) (f32_of_Z 10)) = true. Proof. vm_compute. reflexivity. Qed.
Goal feq (read_f32 "1-2") f0 = true. Proof. vm_compute. reflexivity. Qed.
