(** * Transformers: lemmas for PropPipe.v. *)
From Coq Require Import ZArith Reals Lia Lra.
From stdpp Require Import gmap.
From RecordUpdate Require Import RecordUpdate.
From Verif Require Import Str StrFacts F32 Res ResFacts Json JsonFacts PropKey Html Css Element Tree ViewModel Render Update Matching
  Cascade Initial Animation Apply Styling Events View SpecText SpecRead SpecTime Transform SpecPipe SpecBind SpecReact SpecLive SpecTree LiveUpdate LiveFacts
  BindProps LiveView LiveSlots LiveValues LiveHistory LiveData TimeFacts ReadFacts.
Close Scope R_scope.

(** ** Registering. *)
Definition with_transformers (tr : gmap string Transformer) (X : Externals) : Externals :=
  mkExternals (x_fmt_f64 X) (x_translate X) (x_read_inline_css X) (x_order X) (x_layout X) tr (x_debug X).
Definition with_own (tr : gmap string Transformer) (v : View) : View := v <| v_transformers := tr |>.
Lemma load_with tr X fuel doc css v : from_document X fuel doc css = Ok v -> from_document (with_transformers tr X) fuel doc css = Ok (with_own tr v).
Proof.
  unfold from_document. cbn [with_transformers x_fmt_f64 x_translate x_read_inline_css x_order x_layout x_transformers x_debug].
  destruct (scan_document (h_children doc) ∅) as [templates body]. intros H.
  apply bindR_Ok in H as ([[r root] b] & Hr & H). rewrite Hr. cbn [bindR].
  apply bindR_Ok in H as (ds & Hd & H). rewrite Hd. cbn [bindR].
  apply bindR_Ok in H as (t & Ht & H). rewrite Ht. cbn [bindR].
  apply bindR_Ok in H as ([t' ids] & Hi & H). rewrite Hi. cbn [bindR]. injection H as <-. reflexivity.
Qed.
Definition register_all (regs : list (string * (json -> res json))) (v : View) : View := foldl (fun v r => pipe (fst r) (snd r) v) v regs.
Lemma register_own regs : forall v, exists tr, register_all regs v = with_own tr v /\
  forall name, tr !! name = in_force (v_transformers v !! name) name (map (fun r => Register (fst r) (snd r)) regs).
Proof.
  induction regs as [|[n f] regs IH]; intros v; cbn [register_all foldl map in_force].
  - exists (v_transformers v). split; [by destruct v|done].
  - destruct (IH (pipe n f v)) as (tr & H1 & H2). unfold register_all in H1. cbn [fst snd]. exists tr. split; [rewrite H1; by destruct v|].
    intros name. rewrite H2. unfold pipe, set. cbn [v_transformers]. destruct (String.eqb_spec name n) as [->|Hn]; f_equal.
    + by rewrite (lookup_insert (v_transformers v) n f).
    + by rewrite (lookup_insert_ne (v_transformers v) n name f) by congruence.
Qed.

Lemma registered_text X fuel doc css v0 regs sh hist i x v os pos b n k w name f :
  from_document X fuel doc css = Ok v0 -> v_model v0 = initial_model sh -> wf_shape sh = true ->
  Forall (fun e => fits sh (snd e) = true) (hist ++ [(i, x)]) -> json_wf x = true ->
  updates X fuel (register_all regs v0) (hist ++ [(i, x)]) = Ok (v, os) ->
  In (pointer_string pos, b) (flat (v_bindings v0)) -> bd_params b = BText n k -> bd_pipe b = [name] ->
  in_force (x_transformers X !! name) name (map (fun r => Register (fst r) (snd r)) regs) = Some f ->
  shape_at sh pos = Some SLeaf -> value_at (project sh x) pos = Some w -> w <> JNull ->
  exists w0 w', json_eq w0 w = true /\ f w0 = Ok w' /\ text_span (v_tree v) n k = Some (eval_string (x_fmt_f64 X) w').
Proof.
  intros H0 Hm Hw Hf Hx Hu Hin Hb Hp Hreg Hs Hv Hn. destruct (register_own regs v0) as (tr & Hr & Htr). rewrite Hr in Hu.
  pose proof (load_with tr _ _ _ _ _ H0) as H1.
  assert (Ht0 : v_transformers v0 = x_transformers X) by (by apply from_document_stages in H0 as (?&?&?&?&?&?&?&?&?&?&?&?&?&?&?&?&?&?&?&?&?&?&H0&_)).
  destruct (text_current (with_transformers tr X) fuel doc css (with_own tr v0) H1 sh Hm Hw hist i x v os Hf Hx Hu pos b Hin n k w Hb Hs Hv Hn) as (w0 & w' & He & Hpi & Hsh).
  exists w0, w'. split; [done|]. split; [|done]. rewrite Hp in Hpi. change (v_transformers (with_own tr v0)) with tr in Hpi.
  rewrite <- Ht0, <- Htr in Hreg. inversion Hpi as [|? ? ? ? K|? f' ? ? w1 ? K1 K2 K3]; subst; [congruence|]. inversion K3; subst. congruence.
Qed.

(** ** Sessions. *)
Record reached (X : Externals) (sh : shape) (v0 v : View) : Prop := {
  re_sound : sound v;
  re_shaped : shaped sh v;
  re_bind : v_bindings v = v_bindings v0;
  re_def : same_definitions (v_tree v0) (v_tree v)
}.
Lemma performs_reached X fuel sh v0 cs : forall v v', performs X fuel v cs v' -> reached X sh v0 v -> passes (fun x => fits sh x = true) cs ->
  reached X sh v0 v' /\ forall name, v_transformers v' !! name = in_force (v_transformers v !! name) name cs.
Proof.
  induction cs as [|c cs IH]; intros v v' H Hr Hp; inversion H; subst; [by split|..]; inversion Hp as [|? ? Hx Hp']; subst.
  - destruct Hr as [R1 R2 R3 R4]. destruct (update_keeps _ _ _ _ _ _ _ R1 H3) as (K1 & K2 & K3 & _).
    destruct (IH _ _ H5) as [I1 I2]; [|done|].
    { split; [by eapply update_sound|by eapply update_shaped|by rewrite K1|by eapply same_def_trans]. }
    split; [done|]. intros nm. rewrite I2, K2. done.
  - destruct (IH _ _ H4) as [I1 I2]; [|done|].
    { destruct Hr as [[R1a R1b R1c] R2 R3 R4]. split; [by split|exact R2|exact R3|exact R4]. }
    split; [done|]. intros nm. rewrite I2. cbn [in_force]. unfold pipe, set. cbn [v_transformers]. destruct (String.eqb_spec nm name) as [->|Hn]; f_equal.
    + by rewrite (lookup_insert (v_transformers v) name f).
    + by rewrite (lookup_insert_ne (v_transformers v) name nm f) by congruence.
Qed.

Lemma session_text X fuel doc css v0 sh cs v i x v' o pos b n k w :
  from_document X fuel doc css = Ok v0 -> v_model v0 = initial_model sh -> wf_shape sh = true ->
  performs X fuel v0 cs v -> passes (fun x => fits sh x = true) (cs ++ [Pass i x]) -> update X fuel v i x = Ok (v', o) ->
  In (pointer_string pos, b) (flat (v_bindings v0)) -> bd_params b = BText n k -> shape_at sh pos = Some SLeaf -> value_at (project sh x) pos = Some w ->
  (json_eq (old_value sh (v_model v) pos) w = false ->
     exists w', (forall name, v_transformers v !! name = in_force (x_transformers X !! name) name cs) /\
       piped (v_transformers v) (bd_pipe b) w w' /\ text_span (v_tree v') n k = Some (eval_string (x_fmt_f64 X) w')) /\
  (json_eq (old_value sh (v_model v) pos) w = true -> forall s, text_span (v_tree v) n k = Some s -> text_span (v_tree v') n k = Some s).
Proof.
  intros H0 Hm Hw Hp Hps Hu Hin Hb Hs Hv. apply Forall_app in Hps as [Hps1 Hps2]. inversion Hps2 as [|? ? Hx _]; subst. cbv beta iota in Hx.
  assert (Ht0 : v_transformers v0 = x_transformers X) by (by apply from_document_stages in H0 as (?&?&?&?&?&?&?&?&?&?&?&?&?&?&?&?&?&?&?&?&?&?&H0&_)).
  destruct (performs_reached X fuel sh v0 cs v0 v Hp) as [[R1 R2 R3 R4] Htr]; [|done|].
  { split; [by eapply from_document_sound|by eapply from_document_shaped|done|]. done. }
  rewrite Ht0 in Htr. pose proof (loaded_alone _ _ _ _ _ _ _ H0 Hin) as Hal. rewrite Hb in Hal. specialize (Hal I).
  assert (Hsrt : obj_sorted (v_bindings v0) = true) by (by destruct (loaded _ _ _ _ _ H0) as (?&?&?&?&?&Hso&_)).
  rewrite <- R3 in Hin, Hal, Hsrt. pose proof (alone_def _ _ _ _ _ R4 Hal) as Hal'.
  destruct (update_slot X fuel v i x v' o sh pos b R1 R2 Hx Hsrt Hu Hin Hal' ltac:(eauto)) as (U1 & U2 & _).
  assert (Hch : forall z, is_change sh (v_model v) x pos z <-> z = w /\ json_eq (old_value sh (v_model v) pos) w = false).
  { intros z. unfold is_change, value_change. rewrite Hs, Hv. split; [intros [[= <-] K]; done|intros [-> K]; done]. }
  split.
  - intros K. destruct (U1 w) as (w' & Hpi & Hsh); [by apply Hch|]. exists w'. split; [done|]. split; [done|].
    rewrite Hb in Hsh. unfold wanted in Hsh. rewrite Hb in Hsh. exact Hsh.
  - intros K s Hsp. assert (U := U2 ltac:(intros z Hz; apply Hch in Hz as [_ Hz]; congruence)). rewrite Hb in U. exact (U (WText s) Hsp).
Qed.

(** ** Durations on the page. *)
From Flocq Require Import IEEE754.BinarySingleNaN.
Lemma obj_get_map {A} (g : string * shape -> A) k fs s : obj_get k fs = Some s -> obj_get k (map (fun e => (fst e, g e)) fs) = Some (g (k, s)).
Proof. induction fs as [|[l t] fs IH]; [done|]. cbn [obj_get map fst]. destruct (String.eqb_spec k l) as [->|]; [by intros [= ->]|apply IH]. Qed.
Lemma field_wf x k : json_wf x = true -> json_wf (field x k) = true.
Proof.
  intros H. destruct x as [| | | | |o]; try done. cbn [field]. destruct (obj_get k o) as [y|] eqn:E; [|done]. cbn [json_wf] in H. apply andb_prop in H as [_ H].
  apply obj_get_In in E. rewrite forallb_forall in H. exact (H _ E).
Qed.
Lemma project_wf pos : forall sh x w, json_wf x = true -> shape_at sh pos = Some SLeaf -> value_at (project sh x) pos = Some w -> json_wf w = true.
Proof.
  induction pos as [|st pos IH]; intros sh x w Hx Hs Hv; cbn [shape_at value_at] in *.
  - injection Hs as ->. injection Hv as <-. done.
  - destruct st as [k|i]; destruct sh as [|z s|fs]; try done; cbn [project step_at] in Hv.
    + destruct (obj_get k fs) as [s1|] eqn:E; [|done]. rewrite (obj_get_map (fun e => project (snd e) (field x (fst e))) k fs s1 E) in Hv. cbn [fst snd] in Hv.
      eapply (IH s1 (field x k)); [by apply field_wf|done|done].
    + destruct (map (project s) (items x) !! i) as [y|] eqn:E; [|done]. apply list_lookup_fmap_Some in E as (y' & E & ->).
      eapply (IH s y'); [|done|done]. destruct x as [| | | |l|]; try done. cbn [items] in E. cbn [json_wf] in Hx. rewrite forallb_forall in Hx.
      apply Hx. apply elem_of_list_In. by eapply elem_of_list_lookup_2.
Qed.
Lemma json_eq_number w n r : num_wf n = true -> json_eq w (JNum n) = true -> number_is n r -> exists n', w = JNum n' /\ num_wf n' = true /\ number_is n' r.
Proof.
  intros Hw He Hr. destruct w as [| |n'| | |]; try done. exists n'. split; [done|]. cbn [json_eq] in He.
  destruct n' as [a|a|a], n as [b|b|b]; try done; cbn [num_eq] in He.
  - apply N.eqb_eq in He as ->. done.
  - apply Z.eqb_eq in He as ->. done.
  - cbn [num_wf number_is] in *. destruct Hr as [_ ->]. unfold f64_eq in He. unfold f64_finite in *.
    assert (Ha : is_finite a = true).
    { destruct a as [|s| |]; [done| |by destruct b|done]. exfalso. destruct b as [|s'| |]; try done; by destruct s. }
    split; [done|]. split; [done|]. rewrite (Beqb_correct 53 1024 a b Ha Hw) in He. destruct (Raux.Req_bool_spec (B2R a) (B2R b)) as [E|]; [by symmetry|done].
Qed.
Lemma page_duration X fuel doc css v0 sh hist i x v os pos b n k num r :
  from_document X fuel doc css = Ok v0 -> x_transformers X !! "duration" = Some duration -> v_model v0 = initial_model sh -> wf_shape sh = true ->
  Forall (fun e => fits sh (snd e) = true) (hist ++ [(i, x)]) -> json_wf x = true ->
  updates X fuel v0 (hist ++ [(i, x)]) = Ok (v, os) ->
  In (pointer_string pos, b) (flat (v_bindings v0)) -> bd_params b = BText n k -> bd_pipe b = ["duration"] ->
  shape_at sh pos = Some SLeaf -> value_at (project sh x) pos = Some (JNum num) -> number_is num r ->
  exists s, text_span (v_tree v) n k = Some s /\
    written_time s (nearest_whole (double r * IZR (10 ^ 9))) /\ neat_time s (nearest_whole (double r * IZR (10 ^ 9))).
Proof.
  intros H0 Htr Hm Hw Hf Hx Hu Hin Hb Hp Hs Hv Hr. pose proof (project_wf _ _ _ _ Hx Hs Hv) as Hnum. cbn [json_wf] in Hnum.
  destruct (registered_text X fuel doc css v0 [] sh hist i x v os pos b n k (JNum num) "duration" duration) as (w0 & w' & He & Hd & Ht); try done.
  destruct (json_eq_number _ _ _ Hnum He Hr) as (n' & -> & Hn' & Hr').
  destruct (Rle_lt_dec 0 r) as [K|K]; [|by rewrite (duration_negative n' r Hn' Hr' K) in Hd].
  destruct (Rle_lt_dec (IZR (2 ^ 64)) (double r)) as [K1|K1]; [by rewrite (duration_panics n' r Hn' Hr' (or_intror K1)) in Hd|].
  destruct (duration_shows n' r Hn' Hr' K K1) as (s & Hs' & Hwr & Hne). rewrite Hs' in Hd. injection Hd as <-. by exists s.
Qed.
