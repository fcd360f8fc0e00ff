(** * What it means that an update ends (C39). *)
From stdpp Require Import gmap.
From RecordUpdate Require Import RecordUpdate.
From Coq Require Import ZArith Reals.
From Flocq Require Import Core.Core IEEE754.BinarySingleNaN.
From Verif Require Import Str F32 Res Json PropKey Html Css Element Tree ViewModel Cascade Initial Animation Apply Styling Events View SpecPage SpecAnim.

(** A computation that may not end is a function of a bound on its loops, and
    [Hang] says that the bound was too low.  It ends when from some bound on it
    has one and the same outcome, a value, an error or a panic. *)
Definition ends {A} (f : nat -> res A) : Prop := exists bound r, r <> Hang /\ forall fuel, bound <= fuel -> f fuel = r.
(** It never ends when no bound is enough. *)
Definition never_ends {A} (f : nat -> res A) : Prop := forall fuel, f fuel = Hang.

(** The application's transformers end. *)
Definition halting (tr : gmap string (json -> res json)) : Prop := forall name f v, tr !! name = Some f -> f v <> Hang.

(** No custom property of the rules refers to itself, even through others: the names
    can be ranked so that each definition refers to lower ones only. *)
Definition ranked_declaration (rank : string -> nat) (d : Declaration) : Prop :=
  match d with
  | DeclVariable v => forall ref, In ref (flat_map refers (v_shorthand v)) -> rank ref < rank (v_key v)
  | DeclProperty _ => True
  end.
Definition ranked (rank : string -> nat) (css : Css) : Prop :=
  forall s, s ∈ css_styles css -> Forall (ranked_declaration rank) (s_declaration s).

(** The animator when the frame time has been added. *)
Definition advanced (time : f32) (a : Animator) : Animator :=
  if a_running a && fgt (a_duration a) f0 then a <| a_time := fadd (a_time a) time |> else a.
(** It has not lapped yet, or has a duration above zero and not gone round more
    than 2^23 (8388608) times. *)
Definition few_laps (time : f32) (a : Animator) : Prop :=
  let b := advanced time a in
  flt (elapsed b) f0 = true \/ fgt (active_time b) (a_duration b) = false \/
  is_finite (active_time b) = true /\ is_finite (a_duration b) = true /\ (0 < B2R (a_duration b))%R /\
    (B2R (active_time b) <= bpow radix2 23 * B2R (a_duration b))%R.
(** A transition knows what value it starts from. *)
Definition has_range (tn : Transition) : Prop := t_key tn = None \/ is_Some (t_range tn).
(** All timers of the page. *)
Definition tame_timers (time : f32) (t : Tree) : Prop :=
  forall n e, get_ctx t n = Some e -> Forall (few_laps time) (e_animators e) /\
    Forall (fun tn => few_laps time (t_animator tn) /\ has_range tn) (e_transitions e).
