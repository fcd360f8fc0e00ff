(** * Vocabulary for spans of time (C72). *)
From Coq Require Import ZArith Reals.
From Flocq Require Import Core.Core.
From stdpp Require Import gmap.
From Verif Require Import Str SpecText.
Close Scope R_scope.

(** Units of time, in nanoseconds *)
Definition time_units : list (string * Z) := [("s", 10 ^ 9); ("ms", 10 ^ 6); ("µs", 10 ^ 3); ("ns", 1)]%Z.

(** [s] writes [nanos] nanoseconds: a decimal numeral and a unit, 1.5s *)
Definition written_time (s : string) (nanos : Z) : Prop :=
  exists t m k unit u, s = t +:+ unit /\ decimal t false m k /\ In (unit, u) time_units /\ (m * u = nanos * 10 ^ Z.of_nat k)%Z.

(** ... in the largest unit that is not larger than the time (nanoseconds for
    nothing), without a nought too many: the whole part does not begin
    with 0 unless it is 0, the fractional part does not end with 0 *)
Definition neat_time (s : string) (nanos : Z) : Prop :=
  exists whole part unit u, s = whole +:+ (part +:+ unit) /\ In (unit, u) time_units /\
    (u <= nanos \/ unit = "ns")%Z /\ (forall unit' u', In (unit', u') time_units -> u' <= nanos -> u' <= u)%Z /\
    all digit whole /\ (whole = "0" \/ exists d r, whole = String d r /\ d <> "0"%char) /\
    (part = "" \/ exists ds d, part = "." +:+ (ds +:+ String d "") /\ all digit (ds +:+ String d "") /\ d <> "0"%char).

(** The double-precision number nearest to a real number, ties to the even one
    (beyond the range of double-precision numbers: as if it were unbounded) *)
Definition double (r : R) : R := round radix2 (FLT_exp (-1074) 53) ZnearestE r.
(** The nearest whole number, ties to the even one *)
Definition nearest_whole (r : R) : Z := ZnearestE r.
