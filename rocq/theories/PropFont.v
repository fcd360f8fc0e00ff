(** * Property C74: room for texts.

    [measure_text fonts known space e]: the size the layout is told an element
    needs, when some of its sizes are already known and this much space is available. *)
From Coq Require Import ZArith Reals Lra.
From Flocq Require Import Core.Core IEEE754.BinarySingleNaN.
From stdpp Require Import gmap.
From RecordUpdate Require Import RecordUpdate.
From Verif Require Import Str F32 Element Tree Fonts FontFacts.
Close Scope R_scope.

(** C74.  With the fonts a view has by default: a text that is [w] wide on one
    line gets, where the width is [m], a number of lines [k] that is enough to hold it
    and at most one more than necessary, each as high as the font. *)
Theorem C74_text_has_room_partial : forall e spans space m w h,
  e_text e = Some spans -> measure_text dummy_fonts (None, None) MaxContent (Some e) = (w, h) ->
  is_finite w = true -> is_finite m = true -> (0 < B2R m)%R -> (0 <= B2R w)%R -> (B2R w <= IZR (2 ^ 23) * B2R m)%R ->
  exists k, (1 <= k <= 2 ^ 23 + 1)%Z /\ (B2R w < IZR k * B2R m)%R /\ ((IZR k - 2) * B2R m < B2R w)%R /\
    measure_text dummy_fonts (None, None) (Definite m) (Some e) = (m, fmul (f32_of_Z k) (f_size (e_font e))) /\
    measure_text dummy_fonts (Some m, None) space (Some e) = (m, fmul (f32_of_Z k) (f_size (e_font e))).
Proof.
  intros e spans space m w h He Hm Hw Hfm H0 H1 H2. unfold measure_text in *. rewrite He in *. cbn [fst] in *.
  destruct (text_fits _ _ m w h Hm Hw Hfm H0 H1 H2) as (k & K1 & K2 & K3 & K4). exists k. do 3 (split; [done|]). split; exact K1.
Qed.
Print Assumptions C74_text_has_room_partial.

(** A narrower box never makes a text less high. *)
Theorem C74_narrower_is_not_lower : forall e spans m m' w h h1 h2,
  e_text e = Some spans -> measure_text dummy_fonts (None, None) MaxContent (Some e) = (w, h) ->
  is_finite w = true -> is_finite m = true -> is_finite m' = true -> (0 < B2R m <= B2R m')%R -> (0 <= B2R w <= IZR (2 ^ 23) * B2R m)%R ->
  (0 <= B2R (f_size (e_font e)))%R -> is_finite (f_size (e_font e)) = true ->
  measure_text dummy_fonts (None, None) (Definite m) (Some e) = (m, h1) -> measure_text dummy_fonts (None, None) (Definite m') (Some e) = (m', h2) ->
  is_finite h1 = true -> is_finite h2 = true /\ (B2R h2 <= B2R h1)%R.
Proof.
  intros e spans m m' w h h1 h2 He. unfold measure_text. rewrite He. cbn [fst]. apply narrower_higher.
Qed.
Print Assumptions C74_narrower_is_not_lower.

(** With any fonts: an element whose sizes are both known needs just them; else an
    element without a text needs nothing, and a text is what its spans are in a row,
    in the font of the element, as wide as is known or else as there is space for. *)
Theorem C74_any_fonts : forall (fonts : Fonts) known space e,
  (forall w h, known = (Some w, Some h) -> measure_text fonts known space (Some e) = (w, h)) /\
  (e_text e = None -> fst known = None \/ snd known = None -> measure_text fonts known space (Some e) = (f0, f0)) /\
  (forall spans w, e_text e = Some spans -> known = (Some w, None) -> measure_text fonts known space (Some e) = fonts (String.concat "" spans) (e_font e) (Some w)) /\
  (forall spans h w, e_text e = Some spans -> known = (None, h) -> space = Definite w -> measure_text fonts known space (Some e) = fonts (String.concat "" spans) (e_font e) (Some w)) /\
  (forall spans h, e_text e = Some spans -> known = (None, h) -> space = MaxContent -> measure_text fonts known space (Some e) = fonts (String.concat "" spans) (e_font e) None).
Proof.
  assert (J : forall l, text_to_string l = String.concat "" l).
  { unfold text_to_string. induction l as [|a [|b l] IH]; [reflexivity..|]. exact (f_equal (fun x => a +:+ ("" +:+ x)) IH). }
  intros fonts known space e. split; [by intros w h ->|]. split.
  - intros He [H|H]; destruct known as [w h]; cbn [fst snd] in H; subst; unfold measure_text; rewrite He; [reflexivity|by destruct w].
  - split; [|split].
    + intros spans w He ->. unfold measure_text. rewrite He, (J spans). reflexivity.
    + intros spans h w He -> ->. unfold measure_text. rewrite He, (J spans). reflexivity.
    + intros spans h He -> ->. unfold measure_text. rewrite He, (J spans). reflexivity.
Qed.
Print Assumptions C74_any_fonts.
(** With the default fonts a line is three quarters of the font size wide per byte, and as
    high as the font. *)
Theorem C74_line_width : forall e spans s,
  e_text e = Some spans -> is_finite (f_size (e_font e)) = true -> B2R (f_size (e_font e)) = IZR s -> (0 <= s)%Z ->
  (Z.of_nat (String.length (String.concat "" spans)) <= 2 ^ 22)%Z -> (3 * (Z.of_nat (String.length (String.concat "" spans)) * s) < 2 ^ 24)%Z ->
  exists w, measure_text dummy_fonts (None, None) MaxContent (Some e) = (w, f_size (e_font e)) /\ is_finite w = true /\
    B2R w = (INR (String.length (String.concat "" spans)) * IZR s * (3 / 4))%R.
Proof.
  intros e spans s He Hf Hs Hs0 Hn H. destruct (C74_any_fonts dummy_fonts (None, None) MaxContent e) as (_ & _ & _ & _ & K).
  rewrite (K spans None He eq_refl eq_refl). destruct (line_width _ _ s Hf Hs Hs0 Hn H) as (L1 & L2 & L3).
  destruct (dummy_fonts _ _ None) as [w h]. cbn [fst snd] in *. subst h. by exists w.
Qed.
Print Assumptions C74_line_width.

Definition ten (spans : list string) : Element := create_element 0 <| e_text := Some spans |>.
Definition says_size (r : f32 * f32) (w h : Z) : bool := feq (fst r) (f32_of_Z w) && feq (snd r) (f32_of_Z h).
(** 21 letters, 12 pixels each *)
Example C74_ex : says_size (measure_text dummy_fonts (None, None) MaxContent (Some (ten ["ten "; "letters and so on"]))) 252 16 = true /\
  says_size (measure_text dummy_fonts (None, None) (Definite f100) (Some (ten ["ten "; "letters and so on"]))) 100 48 = true.
Proof. vm_compute. split; reflexivity. Qed.

(** Missing, because false: that the lines are only as many as necessary (a text that fills
    its line exactly gets another one) ... *)
Theorem C74_full_line_takes_two_refuted :
  says_size (measure_text dummy_fonts (None, None) MaxContent (Some (ten ["12345"]))) 60 16 = true /\
  says_size (measure_text dummy_fonts (None, None) (Definite (f32_of_Z 60)) (Some (ten ["12345"]))) 60 32 = true.
Proof. vm_compute. split; reflexivity. Qed.
Print Assumptions C74_full_line_takes_two_refuted.
(** ... that a short text is as wide as it is (it takes all the width there is) ... *)
Theorem C74_short_text_takes_all_refuted :
  says_size (measure_text dummy_fonts (None, None) MaxContent (Some (ten ["a"]))) 12 16 = true /\
  says_size (measure_text dummy_fonts (None, None) (Definite (f32_of_Z 800)) (Some (ten ["a"]))) 800 16 = true.
Proof. vm_compute. split; reflexivity. Qed.
Print Assumptions C74_short_text_takes_all_refuted.
(** ... and that a text needs any room at all where the layout asks for the smallest size. *)
Theorem C74_smallest_size_is_nothing_refuted : forall e spans, e_text e = Some spans ->
  measure_text dummy_fonts (None, None) MinContent (Some e) = (f0, f0).
Proof. intros e spans He. unfold measure_text. rewrite He. reflexivity. Qed.
Print Assumptions C74_smallest_size_is_nothing_refuted.
