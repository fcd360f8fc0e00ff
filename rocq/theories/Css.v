(** * Style sheet syntax tree: src/css/model.rs:1-206. *)
From stdpp Require Import gmap.
From Verif Require Import Str F32 PropKey.

(** [[u8; 4]]; each channel is a number below 256. *)
Definition Rgba : Set := Z * Z * Z * Z.

(** src/css/model.rs:161-190 *)
Inductive Units : Set := UVh | UVw | UVmax | UVmin | UPx | UEm | URem.
#[global] Instance Units_eq_dec : EqDecision Units. Proof. solve_decision. Defined.

Definition parse_units (name : string) : option Units :=
  if String.eqb name "vh" then Some UVh
  else if String.eqb name "vw" then Some UVw
  else if String.eqb name "vmax" then Some UVmax
  else if String.eqb name "vmin" then Some UVmin
  else if String.eqb name "px" then Some UPx
  else if String.eqb name "em" then Some UEm
  else if String.eqb name "rem" then Some URem
  else None.

(** src/css/model.rs:149-153 *)
Record Dim : Set := mkDim { d_value : f32; d_unit : Units }.

(** src/css/model.rs:119-130 *)
Inductive ComputedValue : Set :=
| CKeyword (s : string)
| CZero
| CPercentage (f : f32)
| CTime (f : f32)
| CDimension (d : Dim)
| CNumber (f : f32)
| CColor (c : Rgba)
| CStr (s : string)
| CError.

Definition rgba_eqb (a b : Rgba) : bool :=
  match a, b with
  | (a0, a1, a2, a3), (b0, b1, b2, b3) =>
      Z.eqb a0 b0 && Z.eqb a1 b1 && Z.eqb a2 b2 && Z.eqb a3 b3
  end.

(** derived [PartialEq] of [ComputedValue] (floats compare with [==]). *)
Definition cv_eq (a b : ComputedValue) : bool :=
  match a, b with
  | CKeyword x, CKeyword y => String.eqb x y
  | CZero, CZero => true
  | CPercentage x, CPercentage y => feq x y
  | CTime x, CTime y => feq x y
  | CDimension x, CDimension y =>
      feq (d_value x) (d_value y) && bool_decide (d_unit x = d_unit y)
  | CNumber x, CNumber y => feq x y
  | CColor x, CColor y => rgba_eqb x y
  | CStr x, CStr y => String.eqb x y
  | CError, CError => true
  | _, _ => false
  end.

(** src/css/model.rs:107-116 (definitions), 193-196 (functions) *)
Inductive Definition_ :=
| DVar (name : string)
| DFunction (name : string) (args : list Definition_)
| DExplicit (v : ComputedValue).

(** src/css/model.rs:105 *)
Definition Shorthand := list Definition_.

(** src/css/model.rs:80-103 *)
Record Variable_ := mkVariable { v_key : string; v_shorthand : Shorthand }.
Record Property := mkProperty { p_key : PropertyKey; p_values : list Shorthand }.
Inductive Declaration :=
| DeclVariable (v : Variable_)
| DeclProperty (p : Property).

(** src/css/model.rs:49-63 *)
Inductive Matcher : Set :=
| MExist | MEqual | MInclude | MDashMatch | MPrefix | MSubstring | MSuffix.

(** src/css/model.rs:35-47 *)
Inductive Simple :=
| SAll
| SId (s : string)
| SClass (s : string)
| SType (s : string)
| SAttribute (name : string) (op : Matcher) (value : string)
| SRoot
| SPseudoClass (s : string)
| SPseudoElement (s : string)
| SCombinator (c : ascii).

(** src/css/model.rs:65-72 *)
Definition as_combinator (s : Simple) : option ascii :=
  match s with SCombinator c => Some c | _ => None end.

(** src/css/model.rs:27-30, 74-79 *)
Definition Complex := list Simple.
Record Style := mkStyle { s_selectors : list Complex; s_declaration : list Declaration }.

(** src/css/model.rs:3-20 *)
Record Keyframe := mkKeyframe { kf_step : Z; kf_declaration : list Declaration }.
Record Animation := mkAnimation { an_name : string; an_keyframes : list Keyframe }.
Record Css := mkCss { css_styles : list Style; css_animations : gmap string Animation }.

(** src/css/model.rs:132-147: [PropertyDescriptor] and [ComputedStyle]. *)
Definition Descriptor : Set := PropertyKey * nat.
Definition ComputedStyle := gmap Descriptor ComputedValue.

(** src/css/model.rs:21-25; frames are a [BTreeMap<u32, _>]: sorted by step. *)
Record AnimationTrack := mkTrack { tr_descriptor : Descriptor; tr_frames : list (Z * ComputedValue) }.
