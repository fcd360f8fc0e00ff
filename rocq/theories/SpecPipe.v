(** * Vocabulary for applications that register transformers (C73). *)
From stdpp Require Import gmap.
From Verif Require Import Str F32 Res Json Tree ViewModel Render Cascade Animation Apply Styling Events View Transform.

(** What an application does with a view: pass data, or register a transformer
    (at any time, again and again). *)
Inductive call :=
| Pass (i : Input) (x : json)
| Register (name : string) (f : json -> res json).
Inductive performs (X : Externals) (fuel : nat) : View -> list call -> View -> Prop :=
| performs_nil v : performs X fuel v [] v
| performs_pass v i x v1 o cs v' : update X fuel v i x = Ok (v1, o) -> performs X fuel v1 cs v' -> performs X fuel v (Pass i x :: cs) v'
| performs_register v name f cs v' : performs X fuel (pipe name f v) cs v' -> performs X fuel v (Register name f :: cs) v'.

(** The transformer a name has after these calls: the one registered last, the
    view's own if there was none. *)
Fixpoint in_force (own : option (json -> res json)) (name : string) (cs : list call) : option (json -> res json) :=
  match cs with
  | [] => own
  | Register name' f :: cs => in_force (if String.eqb name name' then Some f else own) name cs
  | Pass _ _ :: cs => in_force own name cs
  end.
(** All data passed is fit for [ok]. *)
Definition passes (ok : json -> Prop) (cs : list call) : Prop := Forall (fun c => match c with Pass _ x => ok x | Register _ _ => True end) cs.
