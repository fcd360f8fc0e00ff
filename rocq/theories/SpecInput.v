(** * Building an input (C81, C82): vocabulary. *)
From Coq Require Import ZArith.
From stdpp Require Import gmap.
From Verif Require Import F32 Element Events View Input.

(** the calls of an application on [Input::new()], in order *)
Inductive input_call := CallTime (nanos : Z) | CallViewport (v : vec2) | CallEvents (l : list InputEvent) | CallEvent (e : InputEvent).
Definition call (c : input_call) (i : InputBuilder) : InputBuilder :=
  match c with CallTime t => input_time t i | CallViewport v => input_viewport v i | CallEvents l => input_events l i | CallEvent e => input_event e i end.
Definition build (calls : list input_call) : InputBuilder := fold_left (fun i c => call c i) calls input_new.

(** the events that calls of [event] add *)
Definition added (c : input_call) : list InputEvent := match c with CallEvent e => [e] | _ => [] end.
Definition sets_time (c : input_call) : Prop := match c with CallTime _ => True | _ => False end.
Definition sets_viewport (c : input_call) : Prop := match c with CallViewport _ => True | _ => False end.
Definition sets_events (c : input_call) : Prop := match c with CallEvents _ => True | _ => False end.
