(** * Texts: the vocabulary of the readers' specifications. *)
From Coq Require Import ZArith Reals.
From Flocq Require Import Core.Core IEEE754.BinarySingleNaN.
From Verif Require Import Str F32.
Close Scope R_scope.

(** Every character of a text is of a kind. *)
Fixpoint all (p : ascii -> bool) (s : string) : Prop :=
  match s with "" => True | String c s' => p c = true /\ all p s' end.

(** Space, tab, carriage return, line feed. *)
Definition white (c : ascii) : bool :=
  Ascii.eqb c " " || Ascii.eqb c "009" || Ascii.eqb c "013" || Ascii.eqb c "010".

(** [body] followed by [closing]: the closing mark is nowhere but at the end. *)
Definition closed_by (closing body : string) : Prop :=
  forall x y, body +:+ closing = x +:+ (closing +:+ y) -> y = "".

(** White space and comments, in any order and number. *)
Inductive blank (opening closing : string) : string -> Prop :=
| blank_nil : blank opening closing ""
| blank_white c b : white c = true -> blank opening closing b -> blank opening closing (String c b)
| blank_comment body b :
    closed_by closing body -> blank opening closing b ->
    blank opening closing (opening +:+ (body +:+ (closing +:+ b))).

(** The letters, digits and signs of names. *)
Definition between (lo hi c : ascii) : bool :=
  (nat_of_ascii lo <=? nat_of_ascii c)%nat && (nat_of_ascii c <=? nat_of_ascii hi)%nat.
Definition letter (c : ascii) : bool := between "a" "z" c || between "A" "Z" c.
Definition digit (c : ascii) : bool := between "0" "9" c.
Definition letter_or_sign (c : ascii) : bool := letter c || Ascii.eqb c "-" || Ascii.eqb c "_".
Definition name_sign (c : ascii) : bool := letter c || digit c || Ascii.eqb c "-" || Ascii.eqb c "_".

Definition quotation : string := String "034" "".

(** ** Decimal numbers. *)
(** The number written by decimal digits. *)
Definition digit_value (c : ascii) : Z := Z.of_nat (nat_of_ascii c) - 48.
Fixpoint whole_value (acc : Z) (s : string) : Z :=
  match s with "" => acc | String c s' => whole_value (10 * acc + digit_value c) s' end.

(** A decimal numeral: an optional minus, digits and possibly a point and more digits; at least one
    digit in all. *)
Inductive decimal : string -> bool -> Z -> nat -> Prop :=
| decimal_whole (neg : bool) ds :
    all digit ds -> ds <> "" ->
    decimal ((if neg then "-" else "") +:+ ds) neg (whole_value 0 ds) 0
| decimal_point (neg : bool) ds fs :
    all digit ds -> all digit fs -> ds +:+ fs <> "" ->
    decimal ((if neg then "-" else "") +:+ (ds +:+ String "." fs)) neg (whole_value 0 (ds +:+ fs)) (String.length fs).

(** The single-precision number nearest to a real number, ties to the even one. *)
Definition nearest (r : R) : R := round radix2 (FLT_exp (-149) 24) ZnearestE r.

(** What a numeral denotes: the nearest single-precision number, an infinity when it is too large. *)
Definition denotes (t : string) (x : f32) : Prop :=
  exists neg m k, decimal t neg m k /\
    let r := (IZR m / IZR (10 ^ Z.of_nat k))%R in
    ((nearest r < IZR (2 ^ 128))%R ->
       is_finite x = true /\ B2R x = (if neg then - nearest r else nearest r)%R /\ Bsign x = neg) /\
    (~ (nearest r < IZR (2 ^ 128))%R -> x = B754_infinity neg).
