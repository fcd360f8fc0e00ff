(** * When two layout styles are the same (C83). *)
From Coq Require Import ZArith Lia Reals.
From Flocq Require Import IEEE754.BinarySingleNaN.
From Flocq Require Import Core.
From stdpp Require Import gmap.
From Verif Require Import Str F32 Res PropKey Css Element Tree Cascade Apply Metrics SpecMetrics.
Close Scope R_scope.

Lemma feq_zero (f : f32) : feq f f0 = true <-> exists s, f = B754_zero s.
Proof.
  destruct f as [s|s| |s m e B].
  - split; [by eexists|done].
  - split; [by destruct s|by intros [s' H]].
  - split; [done|by intros [s' H]].
  - split; [by destruct s|by intros [s' H]].
Qed.
Lemma feq_unsigned (f g : f32) : feq f f = true -> (feq f g = true <-> unsigned_zero f = unsigned_zero g).
Proof.
  intros Hf. unfold unsigned_zero.
  destruct (feq f f0) eqn:Ef; destruct (feq g f0) eqn:Eg.
  - apply feq_zero in Ef as [sf ->], Eg as [sg ->]. done.
  - split; [|by intros H; rewrite <- H in Eg]. intros H. apply feq_zero in Ef as [sf ->].
    destruct g as [sg|sg| |sg m e B]; [done|by destruct sg|done|by destruct sg].
  - split; [|by intros H; rewrite H in Ef]. intros H. apply feq_zero in Eg as [sg ->].
    destruct f as [sf|sf| |sf m e B]; [done|by destruct sf|done|by destruct sf].
  - split; [|by intros ->].
    destruct f as [sf|sf| |sf mf ef Bf]; [done| |done|].
    + destruct g as [sg|sg| |sg m e B]; [by destruct sf| |by destruct sf|by destruct sf]. by destruct sf, sg.
    + destruct g as [sg|sg| |sg m e B]; [by destruct sf|by destruct sf, sg|by destruct sf|]. intros H. apply B2R_inj; [done..|].
      unfold feq in H. rewrite Beqb_correct in H by done. revert H. by case Req_bool_spec.
Qed.

(** [eqb] compares up to the signs of zeros what has no NaN on its left *)
Definition up_to_zeros {A : Set} (num : A -> list f32) (eqb : A -> A -> bool) (map : (f32 -> f32) -> A -> A) : Prop :=
  forall a b, (forall f, f ∈ num a -> feq f f = true) -> (eqb a b = true <-> map unsigned_zero a = map unsigned_zero b).
Lemma dimension_zeros : up_to_zeros dimension_numbers dimension_eqb dimension_map.
Proof.
  intros a b H. destruct a as [|f|f], b as [|g|g]; cbn [dimension_eqb dimension_map]; try (split; congruence);
    rewrite (feq_unsigned f g (H f ltac:(apply elem_of_list_here))); split; congruence.
Qed.
Lemma lp_zeros : up_to_zeros lp_numbers lp_eqb lp_map.
Proof.
  intros a b H. destruct a as [f|f], b as [g|g]; cbn [lp_eqb lp_map]; try (split; congruence);
    rewrite (feq_unsigned f g (H f ltac:(apply elem_of_list_here))); split; congruence.
Qed.
Lemma lpa_zeros : up_to_zeros lpa_numbers lpa_eqb lpa_map.
Proof.
  intros a b H. destruct a as [|f|f], b as [|g|g]; cbn [lpa_eqb lpa_map]; try (split; congruence);
    rewrite (feq_unsigned f g (H f ltac:(apply elem_of_list_here))); split; congruence.
Qed.
Lemma rect_zeros {A : Set} (num : A -> list f32) eqb map : up_to_zeros num eqb map -> up_to_zeros (rect_numbers num) (rect_eqb eqb) (fun f => rect_map (map f)).
Proof.
  intros Z [l r t b] [l' r' t' b'] H. unfold rect_numbers in H. cbn [r_left r_right r_top r_bottom] in H. unfold rect_eqb, rect_map. cbn [r_left r_right r_top r_bottom].
  rewrite !andb_true_iff, (Z l l'), (Z r r'), (Z t t'), (Z b b') by (intros f Hf; apply H; rewrite !elem_of_app; tauto).
  split; [intros [[[-> ->] ->] ->]; done|by intros [= -> -> -> ->]].
Qed.
Lemma size_zeros {A : Set} (num : A -> list f32) eqb map : up_to_zeros num eqb map -> up_to_zeros (size_numbers num) (size_eqb eqb) (fun f => size_map (map f)).
Proof.
  intros Z [w h] [w' h'] H. unfold size_numbers in H. cbn [sz_width sz_height] in H. unfold size_eqb, size_map. cbn [sz_width sz_height].
  rewrite !andb_true_iff, (Z w w'), (Z h h') by (intros f Hf; apply H; rewrite !elem_of_app; tauto).
  split; [intros [-> ->]; done|by intros [= -> ->]].
Qed.
Lemma style_zeros : up_to_zeros style_numbers tstyle_eqb style_map.
Proof.
  intros a b H. unfold style_numbers in H.
  unfold tstyle_eqb. rewrite !andb_true_iff, !bool_decide_eq_true.
  rewrite (rect_zeros _ _ _ lpa_zeros (ts_inset a)) by (intros f Hf; apply H; rewrite !elem_of_app; tauto).
  rewrite (rect_zeros _ _ _ lpa_zeros (ts_margin a)) by (intros f Hf; apply H; rewrite !elem_of_app; tauto).
  rewrite (rect_zeros _ _ _ lp_zeros (ts_padding a)) by (intros f Hf; apply H; rewrite !elem_of_app; tauto).
  rewrite (rect_zeros _ _ _ lp_zeros (ts_border a)) by (intros f Hf; apply H; rewrite !elem_of_app; tauto).
  rewrite (size_zeros _ _ _ dimension_zeros (ts_size a)) by (intros f Hf; apply H; rewrite !elem_of_app; tauto).
  rewrite (size_zeros _ _ _ dimension_zeros (ts_min_size a)) by (intros f Hf; apply H; rewrite !elem_of_app; tauto).
  rewrite (size_zeros _ _ _ dimension_zeros (ts_max_size a)) by (intros f Hf; apply H; rewrite !elem_of_app; tauto).
  rewrite (size_zeros _ _ _ lp_zeros (ts_gap a)) by (intros f Hf; apply H; rewrite !elem_of_app; tauto).
  rewrite (feq_unsigned (ts_flex_grow a)) by (apply H; rewrite !elem_of_app, !elem_of_cons; tauto).
  rewrite (feq_unsigned (ts_flex_shrink a)) by (apply H; rewrite !elem_of_app, !elem_of_cons; tauto).
  rewrite (dimension_zeros (ts_flex_basis a)) by (intros f Hf; apply H; rewrite !elem_of_app; tauto).
  clear H. unfold style_map. split.
  - intros H. repeat match goal with H : _ /\ _ |- _ => destruct H end. f_equal; assumption.
  - intros H. repeat split;
      first [exact (f_equal ts_display H)|exact (f_equal ts_overflow_x H)|exact (f_equal ts_overflow_y H)|exact (f_equal ts_position H)|exact (f_equal ts_box_sizing H)
            |exact (f_equal ts_inset H)|exact (f_equal ts_margin H)|exact (f_equal ts_padding H)|exact (f_equal ts_border H)
            |exact (f_equal ts_size H)|exact (f_equal ts_min_size H)|exact (f_equal ts_max_size H)|exact (f_equal ts_gap H)
            |exact (f_equal ts_align_items H)|exact (f_equal ts_align_self H)|exact (f_equal ts_justify_items H)|exact (f_equal ts_justify_self H)
            |exact (f_equal ts_align_content H)|exact (f_equal ts_justify_content H)|exact (f_equal ts_flex_direction H)|exact (f_equal ts_flex_wrap H)
            |exact (f_equal ts_flex_grow H)|exact (f_equal ts_flex_shrink H)|exact (f_equal ts_flex_basis H)].
Qed.
