(** * Measuring texts: src/fonts.rs and [measure_text] of src/view.rs. *)
From Coq Require Import ZArith.
From Flocq Require Import IEEE754.BinarySingleNaN.
From stdpp Require Import gmap.
From Verif Require Import Str F32 Element Tree.

(** src/fonts.rs:3-5: text, font, width to break lines at *)
Definition Fonts : Type := string -> FontFace -> option f32 -> f32 * f32.

(** [f32::floor] *)
Definition f_floor (a : f32) : f32 := Bnearbyint mode_DN a.
(** 0.75 *)
Definition f_three_quarters : f32 := binary_normalize 24 128 f32_prec f32_emax mode_NE 3 (-2) false.

(** src/fonts.rs:7-28; [text.len()] counts bytes *)
Definition dummy_fonts : Fonts := fun text face max_width =>
  let width := fmul (fmul (f32_of_Z (Z.of_nat (String.length text))) (f_size face)) f_three_quarters in
  match max_width with
  | None => (width, f_size face)
  | Some m => if feq m f0 then (f0, f0)
              else (m, fmul (fadd f1 (f_floor (fdiv width m))) (f_size face))
  end.

(** taffy's [AvailableSpace] *)
Inductive AvailableSpace := MinContent | MaxContent | Definite (width : f32).

(** src/view.rs:493-520 *)
Definition measure_text (fonts : Fonts) (size : option f32 * option f32) (space : AvailableSpace) (element : option Element) : f32 * f32 :=
  match size with
  | (Some w, Some h) => (w, h)
  | _ =>
      match element with
      | None => (f0, f0)
      | Some e =>
          match e_text e with
          | None => (f0, f0)
          | Some spans =>
              let max_width := match fst size with
                               | Some w => Some w
                               | None => match space with MinContent => Some f0 | MaxContent => None | Definite w => Some w end
                               end in
              fonts (text_to_string spans) (e_font e) max_width
          end
      end
  end.
