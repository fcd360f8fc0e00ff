(** * Transformers: [View::pipe] and the transformer every view has. *)
From Coq Require Import ZArith.
From Flocq Require Import IEEE754.BinarySingleNaN.
From stdpp Require Import gmap.
From RecordUpdate Require Import RecordUpdate.
From Verif Require Import Str F32 Res Json Tree ViewModel Render Cascade Animation Apply Styling Events View.
Local Open Scope Z_scope.

(** [a / b] to the nearest integer, ties to the even one. *)
Definition div_half_even (a b : Z) : Z :=
  let q := a / b in
  let r := a mod b in
  if 2 * r <? b then q else if b <? 2 * r then q + 1 else if Z.even q then q else q + 1.

(** [Duration::from_secs_f64] of the standard library (since Rust 1.63), in
    nanoseconds: negative numbers, infinities, NaN and everything from 2^64
    seconds on panic; other numbers are rounded to the nearest nanosecond, ties to even. *)
Definition from_secs_f64 (a : f64) : option Z :=
  match a with
  | B754_zero _ => Some 0
  | B754_finite false m e _ =>
      if 0 <=? e then
        let n := Zpos m * 2 ^ e in
        if n <? 2 ^ 64 then Some (n * 10 ^ 9) else None
      else Some (div_half_even (Zpos m * 10 ^ 9) (2 ^ (- e)))
  | _ => None
  end.

(** The fractional digits of the standard library's [fmt_decimal] (no
    precision given): until nothing is left, at most as many as the divisor has. *)
Fixpoint fraction (places : nat) (part : Z) : string :=
  match places with
  | O => ""
  | S p => if part =? 0 then ""
           else String (pretty_N_char (Z.to_N (part / 10 ^ Z.of_nat p))) (fraction p (part mod 10 ^ Z.of_nat p))
  end.
Definition fmt_decimal (whole part : Z) (places : nat) (suffix : string) : string :=
  let f := fraction places part in
  fmt_N (Z.to_N whole) +:+ ((match f with "" => "" | _ => "." +:+ f end) +:+ suffix).

(** [Debug for Duration] of the standard library *)
Definition fmt_duration (nanos : Z) : string :=
  if 10 ^ 9 <=? nanos then fmt_decimal (nanos / 10 ^ 9) (nanos mod 10 ^ 9) 9 "s"
  else if 10 ^ 6 <=? nanos then fmt_decimal (nanos / 10 ^ 6) (nanos mod 10 ^ 6) 6 "ms"
  else if 10 ^ 3 <=? nanos then fmt_decimal (nanos / 10 ^ 3) (nanos mod 10 ^ 3) 3 "µs"
  else fmt_decimal nanos 0 0 "ns".

(** src/view_model.rs:764-773 *)
Definition duration (v : json) : res json :=
  match as_f64 v with
  | None => Ok v
  | Some a => match from_secs_f64 a with Some nanos => Ok (JStr (fmt_duration nanos)) | None => Panic end
  end.

(** src/view_model.rs:763-777 *)
Definition default_transformers : gmap string Transformer := {["duration" := duration]}.

(** src/view.rs:102-107 *)
Definition pipe (name : string) (f : json -> res json) (v : View) : View := v <| v_transformers ::= <[name := f]> |>.
