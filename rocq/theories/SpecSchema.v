(** * Pointers and the data they need (C06). *)
From stdpp Require Import gmap.
From Verif Require Import Str Json.

(** the reference tokens of a pointer: "/a/0/b" is a, 0, b *)
Definition tokens (p : string) : list string := tail (split_on "/" p).
(** a token that counts as a list index *)
Definition indexes (t : string) : bool := match parse_usize t with Some _ => true | None => false end.

Fixpoint no_tilde (s : string) : bool :=
  match s with "" => true | String a s => negb (Ascii.eqb a "~") && no_tilde s end.
(** tokens without the escapes of JSON pointers, list indexes written the way
    numbers are printed (no leading zero or plus) *)
Definition plain_token (t : string) : bool :=
  no_tilde t && match parse_usize t with Some i => String.eqb t (fmt_nat i) | None => true end.
(** a pointer starts with a slash; "/this" (the whole model) is no position *)
Definition plain_pointer (p : string) : bool :=
  match p with String "/" _ => forallb plain_token (tokens p) && negb (String.eqb p "/this") | _ => false end.

(** two pointers never use the same position as a list and as a record *)
Definition agree_on (p q : list string) : Prop :=
  forall pre a b x y, p = pre ++ a :: x -> q = pre ++ b :: y -> indexes a = indexes b.
Definition consistent (ps : list string) : Prop :=
  forall p q, p ∈ ps -> q ∈ ps -> agree_on (tokens p) (tokens q).
