(** * Scrolling (C41). *)
From Coq Require Import ZArith Reals Lia Lra.
From stdpp Require Import gmap.
From RecordUpdate Require Import RecordUpdate.
From Flocq Require Import Core.Core IEEE754.BinarySingleNaN.
From Verif Require Import Str F32 Res ResFacts Json Css Element Tree ViewModel Styling Events View FloatFacts AnimFloat ValueFacts AnimProps SpecPlace PlaceFacts.
Close Scope R_scope.

Definition scroll_after (s : option Scrolling) (step : scroll_step) : option Scrolling :=
  match step with Laid l => scrolling_ensure l s | Turned w => scrolling_offset w <$> s end.
Definition sc_ok (s : option Scrolling) : Prop := match s with None => True | Some s => in_range (sc_x s) (sc_scroll_x s) /\ in_range (sc_y s) (sc_scroll_y s) end.

Lemma zero_range limit : is_finite limit = true -> (0 <= B2R limit)%R -> in_range f0 limit.
Proof. intros F H. split; [done|]. split; [done|]. change (B2R f0) with 0%R. lra. Qed.
Lemma min_range x limit : is_finite x = true -> (0 <= B2R x)%R -> is_finite limit = true -> (0 <= B2R limit)%R -> in_range (fmin x limit) limit.
Proof.
  intros Fx Hx Fl Hl. destruct (fmin_real x limit Fx Fl) as [F E]. split; [done|]. split; [done|]. rewrite E. split; [by apply Rmin_glb|apply Rmin_r].
Qed.
Lemma clamp_range (x limit : f32) : is_nan x = false -> is_finite limit = true -> (0 <= B2R limit)%R -> in_range (fmax (fmin x limit) f0) limit.
Proof.
  intros Nx Fl Hl. destruct (fmin_wide x limit Nx (finite_not_nan _ Fl)) as [N W]. unfold fmax. rewrite N. cbn [is_nan f0]. change (is_nan f0) with false. cbv iota.
  destruct (flt (fmin x limit) f0) eqn:E; [by apply zero_range|].
  assert (G : (0 <= wide (fmin x limit))%R). { destruct (Rle_or_lt 0 (wide (fmin x limit))) as [H|H]; [done|]. exfalso. assert (flt (fmin x limit) f0 = true); [|congruence]. apply flt_wide; [done|done|]. by rewrite (wide_finite f0 eq_refl). }
  assert (L : (wide (fmin x limit) <= B2R limit)%R). { rewrite W, (wide_finite _ Fl). apply Rmin_r. }
  destruct (wide_cases _ N) as [[F W']|[E'|E']].
  - split; [done|]. split; [done|]. lra.
  - exfalso. rewrite E' in G. cbn [wide] in G. pose proof (finite_top limit Fl). lra.
  - exfalso. rewrite E' in L. pose proof (finite_top limit Fl). cbn [wide] in L. lra.
Qed.
Lemma ensure_ok l s : full_content l -> sc_ok s -> sc_ok (scrolling_ensure l s).
Proof.
  intros (F1 & F2 & H1 & H2) Hs. unfold scrolling_ensure. destruct l as [loc [w h] [cw ch]]. cbn [lo_content lo_size] in *. unfold over_width, over_height in *. cbn [lo_content lo_size fst snd] in *.
  destruct s as [s|]; cbn [sc_ok] in Hs.
  - destruct Hs as [(X1 & X2 & X3) (Y1 & Y2 & Y3)]. destruct (_ || _); [|done]. cbn [sc_ok sc_x sc_y sc_scroll_x sc_scroll_y]. split; apply min_range; (done || lra).
  - destruct (_ || _); [|done]. cbn [sc_ok sc_x sc_y sc_scroll_x sc_scroll_y]. split; apply min_range; (done || (change (B2R f0) with 0%R; lra)).
Qed.
Lemma signum_step x : is_nan x = false -> is_finite (fmul (fsignum x) f50) = true.
Proof. intros H. unfold fsignum. rewrite H. destruct (Bsign x); vm_compute; reflexivity. Qed.

Lemma fadd_number (a b : f32) : is_finite a = true -> is_finite b = true -> is_nan (fadd a b) = false.
Proof. intros Ha Hb. destruct (fadd_cases a b Ha Hb) as [[F _]|[E _]]; [by apply finite_not_nan|by rewrite E]. Qed.
Lemma fsub_number (a b : f32) : is_finite a = true -> is_finite b = true -> is_nan (fsub a b) = false.
Proof. intros Ha Hb. destruct (fsub_cases a b Ha Hb) as [[F _]|[E _]]; [by apply finite_not_nan|by rewrite E]. Qed.
Lemma offset_ok w s : is_nan (fst w) = false -> is_nan (snd w) = false -> sc_ok (Some s) -> sc_ok (Some (scrolling_offset w s)).
Proof.
  intros W1 W2 [(X1 & X2 & X3) (Y1 & Y2 & Y3)]. destruct w as [wx wy]. cbn [fst snd] in *. unfold scrolling_offset. cbn [sc_ok sc_x sc_y sc_scroll_x sc_scroll_y]. split.
  - destruct (feq wx f0); [done|]. apply clamp_range; [|done|lra]. apply fadd_number; [done|by apply signum_step].
  - destruct (feq wy f0); [done|]. apply clamp_range; [|done|lra]. apply fsub_number; [done|by apply signum_step].
Qed.
Definition step_ok (step : scroll_step) : Prop :=
  match step with Laid l => full_content l | Turned w => is_nan (fst w) = false /\ is_nan (snd w) = false end.
Lemma scroll_ok steps : Forall step_ok steps -> forall s, sc_ok s -> sc_ok (foldl scroll_after s steps).
Proof.
  induction 1 as [|step steps Hs _ IH]; intros s H; cbn [foldl]; [done|]. apply IH. destruct step as [l|w]; cbn [step_ok scroll_after] in *; [by apply ensure_ok|].
  destruct s as [s|]; [|done]. cbn [fmap option_fmap option_map]. destruct Hs. by apply offset_ok.
Qed.
(** one turn *)
Definition clamp (z limit : Z) : Z := Z.max (Z.min z limit) 0.
Lemma whole_clamp (x limit : f32) z l : whole x z -> whole limit l -> whole (fmax (fmin x limit) f0) (clamp z l).
Proof.
  intros (F1 & E1 & B1) (F2 & E2 & B2). destruct (fmin_real x limit F1 F2) as [Fm Em]. destruct (fmax_real (fmin x limit) f0 Fm eq_refl) as [FM EM].
  split; [exact FM|]. unfold clamp. split; [|lia]. rewrite EM, Em, E1, E2. change (B2R f0) with (IZR 0).
  unfold Rmax, Rmin. destruct (Rle_dec (IZR z) (IZR l)) as [H|H].
  - apply le_IZR in H. destruct (Rle_dec _ _) as [H'|H']; [apply le_IZR in H'|apply Rnot_le_lt, lt_IZR in H']; f_equal; lia.
  - apply Rnot_le_lt, lt_IZR in H. destruct (Rle_dec _ _) as [H'|H']; [apply le_IZR in H'|apply Rnot_le_lt, lt_IZR in H']; f_equal; lia.
Qed.
Lemma fifty (w : f32) : is_nan w = false -> whole (fmul (fsignum w) f50) (if Bsign w then -50 else 50).
Proof.
  intros Nw. unfold fsignum. rewrite Nw. destruct (Bsign w).
  - assert (E : fmul (fneg f1) f50 = f32_of_Z (-50)) by (apply B2SF_inj; vm_compute; reflexivity). rewrite E. destruct (f32_int (-50)); [lia|]. split; [done|]. split; [done|lia].
  - assert (E : fmul f1 f50 = f32_of_Z 50) by (apply B2SF_inj; vm_compute; reflexivity). rewrite E. destruct (f32_int 50); [lia|]. split; [done|]. split; [done|lia].
Qed.
Lemma wheel_turns (wx wy : f32) s x y lx ly : is_nan wx = false -> is_nan wy = false -> feq wx f0 = false -> feq wy f0 = false ->
  whole (sc_x s) x -> whole (sc_y s) y -> whole (sc_scroll_x s) lx -> whole (sc_scroll_y s) ly -> (Z.abs x <= 2 ^ 23)%Z -> (Z.abs y <= 2 ^ 23)%Z ->
  whole (sc_x (scrolling_offset (wx, wy) s)) (clamp (if Bsign wx then x - 50 else x + 50) lx) /\
  whole (sc_y (scrolling_offset (wx, wy) s)) (clamp (if Bsign wy then y + 50 else y - 50) ly).
Proof.
  intros Nx Ny Hx Hy X Y LX LY BX BY. unfold scrolling_offset. cbn [sc_x sc_y]. rewrite Hx, Hy. split; apply whole_clamp; try done.
  - pose proof (fifty wx Nx) as F. replace (if Bsign wx then x - 50 else x + 50)%Z with (x + (if Bsign wx then -50 else 50))%Z by (destruct (Bsign wx); lia). apply whole_add; [done..|]. destruct (Bsign wx); lia.
  - pose proof (fifty wy Ny) as F. replace (if Bsign wy then y + 50 else y - 50)%Z with (y - (if Bsign wy then -50 else 50))%Z by (destruct (Bsign wy); lia). apply whole_sub; [done..|]. destruct (Bsign wy); lia.
Qed.
Lemma last_move_wheels evs : forall acc, last_move (List.filter (fun e => negb (is_wheel e)) evs) acc = last_move evs acc.
Proof. induction evs as [|e evs IH]; intros acc; [done|]. destruct e; cbn [List.filter is_wheel negb last_move]; apply IH. Qed.
Lemma input_wheels fmt depth m tr body evs : forall st, handle_elements_input fmt depth m tr body st (List.filter (fun e => negb (is_wheel e)) evs) = handle_elements_input fmt depth m tr body st evs.
Proof.
  unfold handle_elements_input. induction evs as [|e evs IH]; intros st; [done|]. destruct (is_wheel e) eqn:E; cbn [List.filter]; rewrite E; cbn [negb foldR].
  - destruct e; try discriminate E. cbn [handle_event bindR]. apply IH.
  - destruct (handle_event fmt depth m tr body st e); cbn [bindR]; try reflexivity; apply IH.
Qed.
Lemma wheels_ignored X fuel v time viewport evs x :
  update X fuel v (mkInput time viewport (List.filter (fun e => negb (is_wheel e)) evs)) x = update X fuel v (mkInput time viewport evs) x.
Proof.
  unfold update. change (prepare X fuel v (mkInput time viewport (List.filter (fun e => negb (is_wheel e)) evs)) x) with (prepare X fuel v (mkInput time viewport evs) x).
  destruct (prepare X fuel v (mkInput time viewport evs) x) as [[[m t] ids]| | |]; cbn [bindR in_events]; [|reflexivity..].
  replace (handle_output (x_fmt_f64 X) (tree_depth t) m (v_transformers v) (v_body v) (List.filter (fun e => negb (is_wheel e)) evs) (v_session v, t))
    with (handle_output (x_fmt_f64 X) (tree_depth t) m (v_transformers v) (v_body v) evs (v_session v, t)); [reflexivity|].
  unfold handle_output. rewrite last_move_wheels. destruct (last_move evs None) as [p|]; cbv beta iota zeta.
  - by rewrite input_wheels.
  - pose proof (input_wheels (x_fmt_f64 X) (tree_depth t) m (v_transformers v) (v_body v) (IMouseMove (ev_mouse (v_session v)) :: evs)) as H. cbn [List.filter is_wheel negb] in H. by rewrite H.
Qed.
