(** * [Input]: what an application passes to an update. *)
From Coq Require Import ZArith.
From stdpp Require Import gmap.
From RecordUpdate Require Import RecordUpdate.
From Verif Require Import Str F32 Res Json Element Tree ViewModel Render Cascade Animation Apply Styling Events View.
Local Open Scope Z_scope.

(** [std::time::Duration] in nanoseconds: whole seconds in a [u64] and the rest,
    less than 10^9. *)
Definition is_duration (nanos : Z) : Prop := 0 <= nanos < 2 ^ 64 * 10 ^ 9.

(** [Duration::as_secs_f32] of the standard library:
    [(self.secs as f32) + (self.nanos as f32) / (NANOS_PER_SEC as f32)];
    called at src/styles/mod.rs:97 *)
Definition as_secs_f32 (nanos : Z) : f32 :=
  fadd (f32_of_Z (nanos / 10 ^ 9)) (fdiv (f32_of_Z (nanos mod 10 ^ 9)) (f32_of_Z (10 ^ 9))).

(** src/input.rs:4-8 *)
Record InputBuilder := mkBuilder { ib_time : Z; ib_viewport : vec2; ib_events : list InputEvent }.
#[global] Instance eta_InputBuilder : Settable _ := settable! mkBuilder <ib_time; ib_viewport; ib_events>.
(** src/input.rs:11-17 *)
Definition input_new : InputBuilder := mkBuilder 0 (f32_of_Z 800, f32_of_Z 600) [].
(** src/input.rs:19-22 *)
Definition input_time (time : Z) (i : InputBuilder) : InputBuilder := i <| ib_time := time |>.
(** src/input.rs:24-27 *)
Definition input_viewport (viewport : vec2) (i : InputBuilder) : InputBuilder := i <| ib_viewport := viewport |>.
(** src/input.rs:29-32 *)
Definition input_events (events : list InputEvent) (i : InputBuilder) : InputBuilder := i <| ib_events := events |>.
(** src/input.rs:34-37 *)
Definition input_event (event : InputEvent) (i : InputBuilder) : InputBuilder := i <| ib_events ::= (fun l => l ++ [event])%list |>.
(** How the view reads the fields: the time as [f32] seconds (src/styles/mod.rs:97),
    the viewport (src/view.rs:123-133) and the events
    (src/view_model.rs:245) as they are. *)
Definition input_read (i : InputBuilder) : Input := mkInput (as_secs_f32 (ib_time i)) (ib_viewport i) (ib_events i).
