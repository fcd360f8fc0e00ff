(** * Vocabulary for what the readers deliver. *)
From Coq Require Import ZArith Reals.
From Flocq Require Import IEEE754.BinarySingleNaN.
From Verif Require Import Str F32 Html Css Json SpecText SpecSheet.
Close Scope R_scope.

(** A string among the texts of a template. *)
Inductive shown_in : Html -> string -> Prop :=
| shown_here h spans s : h_text h = Some spans -> In (TSString s) spans -> shown_in h s
| shown_below h c s : In c (h_children h) -> shown_in c s -> shown_in h s.

(** A channel of a colour written with two (small) hexadecimal digits. *)
Definition hex_sign (x : Z) : ascii :=
  ascii_of_nat (Z.to_nat (if (x <? 10)%Z then 48 + x else 87 + x)).
Definition two_digits (x : Z) : string := String (hex_sign (x / 16)) (String (hex_sign (x mod 16)) "").
Definition is_channel (x : Z) : Prop := (0 <= x <= 255)%Z.

(** What a JSON number counts for. *)
Definition number_is (n : num) (r : R) : Prop :=
  match n with
  | NPos n => r = IZR (Z.of_N n)
  | NNeg z => r = IZR z
  | NFloat f => is_finite f = true /\ r = B2R f
  end.
(** Values that mean "nothing there". *)
Inductive nothing : json -> Prop :=
| nothing_null : nothing JNull
| nothing_false : nothing (JBool false)
| nothing_zero n : number_is n 0%R -> nothing (JNum n)
| nothing_text : nothing (JStr "")
| nothing_array : nothing (JArr []).
