(** * The bound on loops and recursions does not matter (C39). *)
From Coq Require Import ZArith Lia.
From stdpp Require Import gmap.
From RecordUpdate Require Import RecordUpdate.
From Verif Require Import Str F32 Res ResFacts Json PropKey Html Css Element Tree ViewModel Render Update Matching
  Cascade Initial Animation Apply Styling Events View RenderMore SpecEnds.

Lemma le_res_mapR {A B} (f g : A -> res B) l : (forall a, le_res (f a) (g a)) -> le_res (mapR f l) (mapR g l).
Proof. intros H. induction l as [|a l IH]; cbn [mapR]; [apply le_res_refl|]. apply le_res_bind; [apply H|]. intros b. apply le_res_bind; [exact IH|]. intros; apply le_res_refl. Qed.

Lemma definition_le vars : forall fuel d, le_res (compute_definition fuel vars d) (compute_definition (S fuel) vars d).
Proof.
  induction fuel as [|fuel IH]; intros d; [by intros H|]. cbn [compute_definition]. fold (compute_definition (S fuel) vars). destruct d as [name|name args|v].
  - destruct (vars !! name) as [sh|]; [|apply le_res_refl]. apply le_res_bind; [apply le_res_mapR; exact IH|]. intros; apply le_res_refl.
  - apply le_res_bind; [apply le_res_mapR; exact IH|]. intros; apply le_res_refl.
  - apply le_res_refl.
Qed.
Lemma values_le vars key fuel : forall values index s, le_res (compute_values fuel vars key index values s) (compute_values (S fuel) vars key index values s).
Proof.
  induction values as [|sh values IH]; intros index s; cbn [compute_values]; [apply le_res_refl|]. apply le_res_bind; [|intros; apply IH].
  unfold compute_style, compute_shorthand. apply le_res_bind; [|intros; apply le_res_refl]. apply le_res_bind; [apply le_res_mapR, definition_le|intros; apply le_res_refl].
Qed.
Lemma block_le fuel ds st : le_res (compute_declaration_block fuel ds st) (compute_declaration_block (S fuel) ds st).
Proof.
  unfold compute_declaration_block. apply le_res_foldR. intros [vars s] d. unfold compute_declaration. destruct d as [v|p]; [apply le_res_refl|].
  apply le_res_bind; [apply values_le|intros; apply le_res_refl].
Qed.
Lemma wrap_le fuel d : forall t, le_res (wrap_time fuel d t) (wrap_time (S fuel) d t).
Proof.
  induction fuel as [|fuel IH]; intros t.
  - cbn [wrap_time]. destruct (fgt t d); [by intros H|apply le_res_refl].
  - change (wrap_time (S (S fuel)) d t) with (if fgt t d then wrap_time (S fuel) d (fsub t d) else Ok t).
    change (wrap_time (S fuel) d t) with (if fgt t d then wrap_time fuel d (fsub t d) else Ok t). destruct (fgt t d); [apply IH|apply le_res_refl].
Qed.
Lemma animator_le fuel time a : le_res (animator_update fuel time a) (animator_update (S fuel) time a).
Proof. unfold animator_update. cbv zeta. destruct (flt _ f0); [apply le_res_refl|]. apply le_res_bind; [apply wrap_le|intros; apply le_res_refl]. Qed.
Lemma animators_le fuel css time vars st : le_res (play_animators fuel css time vars st) (play_animators (S fuel) css time vars st).
Proof.
  unfold play_animators. apply le_res_foldR. intros [acc s] a. destruct (css_animations css !! a_name a) as [an|]; [|apply le_res_refl].
  apply le_res_bind.
  - unfold compute_animation_tracks. apply le_res_bind; [|intros [??]; apply le_res_refl]. apply le_res_foldR. intros [animated kfs] kf. apply le_res_bind; [|intros; apply le_res_refl].
    unfold keyframe_style. apply le_res_foldR. intros s' d. destruct d; [apply le_res_refl|apply values_le].
  - intros tracks. apply le_res_bind; [|intros [??]; apply le_res_refl]. unfold animator_play. apply le_res_bind; [apply animator_le|intros [??]; apply le_res_refl].
Qed.
Lemma transitions_le fuel time l s : le_res (play_transitions fuel time l s) (play_transitions (S fuel) time l s).
Proof.
  unfold play_transitions. apply le_res_foldR. intros [acc s'] tn. apply le_res_bind; [|intros [??]; apply le_res_refl].
  unfold transition_play. destruct (t_key tn); [|apply le_res_refl]. apply le_res_bind; [apply animator_le|intros [??]; apply le_res_refl].
Qed.
Lemma cascade_le fuel debug css order time sizes vars n t pe l e :
  le_res (cascade_apply_styles fuel debug css order time sizes vars n t pe l e) (cascade_apply_styles (S fuel) debug css order time sizes vars n t pe l e).
Proof.
  unfold cascade_apply_styles. cbv zeta. apply le_res_bind.
  - unfold cascade_rules. apply le_res_foldR. intros st [s|s]; [apply block_le|]. apply le_res_bind; [apply le_res_refl|]. intros b. destruct b; [apply block_le|apply le_res_refl].
  - intros [vars1 s1]. apply le_res_bind; [apply block_le|]. intros [vars2 s2]. apply le_res_bind; [apply animators_le|]. intros [an s3].
    apply le_res_bind; [apply transitions_le|]. intros [tr s4]. apply le_res_refl.
Qed.
Lemma styles_le fuel debug css order time : forall depth n sizes vars t,
  le_res (apply_styles fuel debug css order time depth n sizes vars t) (apply_styles (S fuel) debug css order time depth n sizes vars t).
Proof.
  induction depth as [|depth IH]; intros n sizes vars t; cbn [apply_styles]; [apply le_res_refl|].
  apply le_res_bind; [apply le_res_refl|]. intros p. apply le_res_bind; [apply le_res_refl|]. intros pe. apply le_res_bind; [apply le_res_refl|]. intros l.
  apply le_res_bind; [apply le_res_refl|]. intros e. destruct (e_text e); [apply le_res_refl|]. apply le_res_bind; [apply cascade_le|]. intros [[l1 e1] vars1].
  apply le_res_bind; [apply le_res_refl|]. intros t1. destruct (_ || _); [apply le_res_refl|]. apply le_res_bind; [apply le_res_refl|]. intros cs.
  apply le_res_foldR. intros; apply IH.
Qed.
Lemma update_le X fuel v i x : le_res (update X fuel v i x) (update X (S fuel) v i x).
Proof.
  unfold update. apply le_res_bind; [|intros [[m t] ids]; apply le_res_refl]. unfold prepare. cbv zeta.
  apply le_res_bind; [apply le_res_refl|]. intros [m rs]. apply le_res_bind; [apply le_res_refl|]. intros [t ids]. apply le_res_bind; [apply le_res_refl|]. intros t1.
  apply le_res_bind; [apply styles_le|]. intros t2. apply le_res_refl.
Qed.
Lemma updates_le X fuel : forall hist v, le_res (updates X fuel v hist) (updates X (S fuel) v hist).
Proof.
  induction hist as [|[i x] hist IH]; intros v; cbn [updates]; [apply le_res_refl|]. apply le_res_bind; [apply update_le|]. intros [v1 o].
  apply le_res_bind; [apply IH|]. intros [v2 os]. apply le_res_refl.
Qed.
Lemma le_all {A} (f : nat -> res A) : (forall fuel, le_res (f fuel) (f (S fuel))) -> forall fuel fuel', fuel <= fuel' -> f fuel <> Hang -> f fuel' = f fuel.
Proof.
  intros H fuel fuel' Hle Hf. induction Hle as [|m Hle IH]; [done|]. rewrite (H m); [exact IH|]. by rewrite IH.
Qed.
Lemma document_le X doc css fuel fuel' : fuel <= fuel' -> from_document X fuel doc css <> Hang -> from_document X fuel' doc css = from_document X fuel doc css.
Proof.
  intros Hle. unfold from_document. destruct (scan_document _ _) as [templates body].
  intros Hh. assert (Hr : render (x_translate X) (x_read_inline_css X) templates fuel body renderer_new <> Hang) by (intros E; rewrite E in Hh; by apply Hh).
  by rewrite (render_fuel _ _ _ _ _ _ _ Hle Hr).
Qed.
(** What is returned under some bound is returned under all larger ones; so there
    is one outcome, or none under any bound. *)
Lemma le_one {A} (f : nat -> res A) : (forall fuel fuel', fuel <= fuel' -> f fuel <> Hang -> f fuel' = f fuel) ->
  forall m n, f m <> Hang -> f n <> Hang -> f m = f n.
Proof. intros H m n Hm Hn. destruct (Nat.le_ge_cases m n) as [L|L]; [symmetry|]; by apply H. Qed.
Lemma le_ends {A} (f : nat -> res A) : (forall fuel fuel', fuel <= fuel' -> f fuel <> Hang -> f fuel' = f fuel) -> forall n, f n <> Hang -> ends f.
Proof. intros H n Hn. exists n, (f n). split; [done|]. intros fuel Hle. by apply H. Qed.
Lemma le_never {A} (f : nat -> res A) : (forall fuel fuel', fuel <= fuel' -> f fuel <> Hang -> f fuel' = f fuel) -> ~ ends f -> never_ends f.
Proof. intros H Hn fuel. destruct (f fuel) eqn:E; try done; destruct Hn; apply (le_ends f H fuel); by rewrite E. Qed.
