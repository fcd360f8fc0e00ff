(** * Vocabulary for what an event tells (C51): numbers as JSON and the state of its element. *)
From stdpp Require Import gmap.
From Verif Require Import Str F32 Res Json Html Css Element Tree ViewModel Events View SpecEvents.
From Flocq Require Import Core.Core IEEE754.BinarySingleNaN.

(** a coordinate in JSON: the same real number, or null for what JSON cannot write *)
Inductive number_told (f : f32) : json -> Prop :=
| told_number (d : f64) : is_finite f = true -> is_finite d = true -> B2R d = B2R f -> number_told f (JNum (NFloat d))
| told_null : is_finite f = false -> number_told f JNull.
(** [event] has at [path] the pair [v] *)
Definition pair_told (event : json) (path : string) (v : vec2) : Prop :=
  exists a b, pointer event path = Some (JArr [a; b]) /\ number_told (fst v) a /\ number_told (snd v) b.
(** [event] says that its element is in the state [s] *)
Definition flags_told (event : json) (s : ElementState) : Prop :=
  pointer event "/target/state/active" = Some (JBool (st_active s)) /\
  pointer event "/target/state/checked" = Some (JBool (st_checked s)) /\
  pointer event "/target/state/focus" = Some (JBool (st_focus s)) /\
  pointer event "/target/state/hover" = Some (JBool (st_hover s)).

(** [state_told input h was s]: while [input] is handled an element that was in
    state [was] before it can be told to be in state [s] by the handler [h].
    - A move changes only the hover flag, which is up except when leaving;
    - a press changes the focus, taken or given by then, and the active flag,
      which is up for the pressed elements;
    - a release, a key or a character tells the state as it was, a click that
      of an active element and a key that of the focused one. *)
Definition state_told (input : InputEvent) (h : string) (was s : ElementState) : Prop :=
  st_checked s = st_checked was /\
  match input with
  | IMouseMove _ => st_active s = st_active was /\ st_focus s = st_focus was /\
      (st_hover s = true <-> h <> "onmouseleave" /\ h <> "ondragleave")
  | IMouseButtonDown _ => st_hover s = st_hover was /\
      (h = "onfocus" -> st_focus s = true) /\ (h = "onblur" -> st_focus s = false) /\ (h <> "onblur" -> st_active s = true)
  | IMouseButtonUp _ => s = was /\ (h = "onclick" -> st_active s = true)
  | _ => s = was /\ st_focus s = true
  end.
