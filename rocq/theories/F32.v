(** * IEEE-754 binary32 / binary64, as used by Rust's [f32] and [f64].

    Flocq's [binary_float] with a single NaN; all arithmetic rounds to nearest
    even, which is what Rust's operators do.  Only the NaN payload is
    abstracted (the code never inspects it). *)
From Coq Require Import ZArith Bool.
From Flocq Require Import Core.Core IEEE754.BinarySingleNaN.

Definition f32 : Set := binary_float 24 128.
Definition f64 : Set := binary_float 53 1024.

#[global] Instance f32_prec : FLX.Prec_gt_0 24 := eq_refl.
#[global] Instance f32_emax : Prec_lt_emax 24 128 := eq_refl.
#[global] Instance f64_prec : FLX.Prec_gt_0 53 := eq_refl.
#[global] Instance f64_emax : Prec_lt_emax 53 1024 := eq_refl.

(** Rust [f32] operators. *)
Definition fadd (a b : f32) : f32 := Bplus mode_NE a b.
Definition fsub (a b : f32) : f32 := Bminus mode_NE a b.
Definition fmul (a b : f32) : f32 := Bmult mode_NE a b.
Definition fdiv (a b : f32) : f32 := Bdiv mode_NE a b.
Definition fneg (a : f32) : f32 := Bopp a.
(** [a == b], [a < b], [a <= b], ... : all false on NaN. *)
Definition feq (a b : f32) : bool := Beqb a b.
Definition flt (a b : f32) : bool := Bltb a b.
Definition fle (a b : f32) : bool := Bleb a b.
Definition fgt (a b : f32) : bool := Bltb b a.
Definition fge (a b : f32) : bool := Bleb b a.

(** [f32::min]/[f32::max]: the other operand when one is NaN.  On two zeros of
    different sign Rust leaves the sign unspecified; the model returns the
    first operand, which is [==] to the other. *)
Definition fmin (a b : f32) : f32 :=
  if is_nan a then b else if is_nan b then a
  else if flt b a then b else a.
Definition fmax (a b : f32) : f32 :=
  if is_nan a then b else if is_nan b then a
  else if flt a b then b else a.

(** [z as f32] for an integer [z] (round to nearest even). *)
Definition f32_of_Z (z : Z) : f32 := binary_normalize 24 128 f32_prec f32_emax mode_NE z 0 false.
Definition f64_of_Z (z : Z) : f64 := binary_normalize 53 1024 f64_prec f64_emax mode_NE z 0 false.

(** [f32] -> [f64] widening ([f64::from(x)]); exact, written as a re-rounding
    of the same mantissa and exponent. *)
Definition f64_of_f32 (a : f32) : f64 :=
  match a with
  | B754_zero s => B754_zero s
  | B754_infinity s => B754_infinity s
  | B754_nan => B754_nan
  | B754_finite s m e _ =>
      binary_normalize 53 1024 f64_prec f64_emax mode_NE (cond_Zopp s (Zpos m)) e s
  end.

Definition f64_eq (a b : f64) : bool := Beqb a b.
Definition f64_lt (a b : f64) : bool := Bltb a b.

(** Float to unsigned integer casts, [x as u8], [x as u32], ...: truncate
    toward zero, saturate at the ends, NaN becomes 0. *)
Definition saturate (hi z : Z) : Z := Z.max 0 (Z.min hi z).
Definition f32_as_uint (hi : Z) (a : f32) : Z :=
  match a with
  | B754_nan => 0
  | B754_infinity true => 0
  | B754_infinity false => hi
  | _ => saturate hi (Btrunc a)
  end.
Definition f64_as_uint (hi : Z) (a : f64) : Z :=
  match a with
  | B754_nan => 0
  | B754_infinity true => 0
  | B754_infinity false => hi
  | _ => saturate hi (Btrunc a)
  end.
Definition f32_as_u8 : f32 -> Z := f32_as_uint 255.
Definition f32_as_u16 : f32 -> Z := f32_as_uint 65535.
Definition f32_as_u32 : f32 -> Z := f32_as_uint 4294967295.
Definition f64_as_u64 : f64 -> Z := f64_as_uint 18446744073709551615.

(** Float constants of the source. *)
Definition f0 : f32 := B754_zero false.
Definition f1 : f32 := f32_of_Z 1.
Definition f16 : f32 := f32_of_Z 16.
Definition f50 : f32 := f32_of_Z 50.
Definition f100 : f32 := f32_of_Z 100.
Definition f255 : f32 := f32_of_Z 255.
Definition f_half : f32 := binary_normalize 24 128 f32_prec f32_emax mode_NE 1 (-1) false.
Definition f64_0 : f64 := B754_zero false.

(** [f32::signum]: 1.0 or -1.0 by the sign bit, NaN for NaN. *)
Definition fsignum (a : f32) : f32 :=
  if is_nan a then a else if Bsign a then fneg f1 else f1.

(** [f32::is_finite]/[f64::is_finite]. *)
Definition f32_finite (a : f32) : bool := is_finite a.
Definition f64_finite (a : f64) : bool := is_finite a.
