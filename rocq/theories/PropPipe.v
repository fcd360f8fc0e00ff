(** * Properties C72, C73: transformers.

    Vocabulary: SpecTime.v (times as texts), SpecText.v ([decimal]), SpecRead.v ([number_is]: the
    real number a JSON number stands for), SpecPipe.v (what an application does with a
    view), SpecReact.v ([piped]), SpecBind.v. *)
From Coq Require Import ZArith Reals.
From stdpp Require Import gmap.
From Verif Require Import Str F32 Res Json PropKey Html Css Element Tree ViewModel Render Update Matching
  Cascade Initial Animation Apply Styling Events View Transform SpecText SpecRead SpecTime SpecPipe SpecBind SpecReact SpecTree SpecLive
  TimeFacts PipeFacts Samples.
Close Scope R_scope.

(** C72.  The transformer [duration] turns a number of seconds into a text that
    writes exactly the nearest nanosecond, in the largest unit that fits, without superfluous digits... *)
Theorem C72_duration_writes_the_time_partial : forall n r, num_wf n = true -> number_is n r -> (0 <= r)%R -> (double r < IZR (2 ^ 64))%R ->
  exists s, duration (JNum n) = Ok (JStr s) /\
    written_time s (nearest_whole (double r * IZR (10 ^ 9))) /\ neat_time s (nearest_whole (double r * IZR (10 ^ 9))).
Proof. exact duration_shows. Qed.
Print Assumptions C72_duration_writes_the_time_partial.
(** ... so whole seconds are written as such ... *)
Theorem C72_whole_seconds : forall n, (0 < n <= 2 ^ 53)%N -> duration (JNum (NPos n)) = Ok (JStr (fmt_N n +:+ "s")).
Proof. exact whole_seconds. Qed.
Print Assumptions C72_whole_seconds.
(** ... different times have different texts ... *)
Theorem C72_text_is_one_time : forall s a b, written_time s a -> written_time s b -> a = b.
Proof. exact written_one. Qed.
Print Assumptions C72_text_is_one_time.
(** ... and what is not a number stays as it is. *)
Theorem C72_other_values_unchanged : forall v, (forall n, v <> JNum n) -> duration v = Ok v.
Proof. exact duration_other. Qed.
Print Assumptions C72_other_values_unchanged.

(** On the page: a text bound as [{ a | duration }] shows, after any fitting
    history, the time the last data give. *)
Theorem C72_page_shows_the_time_partial : forall X fuel doc css v0 sh hist i x v os pos b n k num r,
  from_document X fuel doc css = Ok v0 -> x_transformers X !! "duration" = Some duration -> v_model v0 = initial_model sh -> wf_shape sh = true ->
  Forall (fun e => fits sh (snd e) = true) (hist ++ [(i, x)]) -> json_wf x = true ->
  updates X fuel v0 (hist ++ [(i, x)]) = Ok (v, os) ->
  In (pointer_string pos, b) (flat (v_bindings v0)) -> bd_params b = BText n k -> bd_pipe b = ["duration"] ->
  shape_at sh pos = Some SLeaf -> value_at (project sh x) pos = Some (JNum num) -> number_is num r ->
  exists s, text_span (v_tree v) n k = Some s /\
    written_time s (nearest_whole (double r * IZR (10 ^ 9))) /\ neat_time s (nearest_whole (double r * IZR (10 ^ 9))).
Proof. exact page_duration. Qed.
Print Assumptions C72_page_shows_the_time_partial.

(** Missing, because false: negative numbers and numbers from 2^64 on. *)
Theorem C72_negative_panics_refuted : forall n r, num_wf n = true -> number_is n r -> (r < 0)%R -> duration (JNum n) = Panic.
Proof. exact duration_negative. Qed.
Print Assumptions C72_negative_panics_refuted.
Theorem C72_large_panics_refuted : forall n r, num_wf n = true -> number_is n r -> (IZR (2 ^ 64) <= double r)%R -> duration (JNum n) = Panic.
Proof. intros n r Hw Hr H. exact (duration_panics n r Hw Hr (or_intror H)). Qed.
Print Assumptions C72_large_panics_refuted.
(** ... and with them the update of the page: <p>{ a | duration }</p> *)
Definition timed : Externals :=
  mkExternals (fun _ => "float") (fun s => s) (fun _ => None) (fun s => map_to_list s)
    (fun _ _ => mkLayout vzero (f100, f100) (f100, f100)) default_transformers false.
Definition clock : Html := document [elem "p" [] [text [TSBinder (mkBinder ["a"] ["duration"]); TSString " left"]]].
Definition seconds (w : json) : Input * json := (frame [], JObj [("a", w)]).
Theorem C72_update_panics_refuted : run timed clock css_empty [seconds (JNum (NNeg (-1)))] = Panic.
Proof. vm_compute. reflexivity. Qed.
Print Assumptions C72_update_panics_refuted.

Definition quarter : f64 := Flocq.IEEE754.BinarySingleNaN.binary_normalize 53 1024 f64_prec f64_emax Flocq.IEEE754.BinarySingleNaN.mode_NE 1 (-2) false.
Definition tiny : f64 := Flocq.IEEE754.BinarySingleNaN.binary_normalize 53 1024 f64_prec f64_emax Flocq.IEEE754.BinarySingleNaN.mode_NE 43 (-22) false.
Example C72_ex :
  map duration [num_n 90; num_n 0; JNum (NFloat quarter); JNum (NFloat tiny); str "soon"; JNum (NPos 18446744073709550591)]
  = [Ok (str "90s"); Ok (str "0ns"); Ok (str "250ms"); Ok (str "10.252µs"); Ok (str "soon"); Ok (str "18446744073709549568s")].
Proof. vm_compute. reflexivity. Qed.
Example C72_page_ex :
  succeeds (run timed clock css_empty [seconds (num_n 5); seconds JNull; seconds (JNum (NFloat quarter))]) (fun r => node_text (fst r) 3 = Some ["250ms"; " left"]) /\
  succeeds (from_document timed 20 clock css_empty) (fun v0 => v_model v0 = initial_model (SRecord [("a", SLeaf)]) /\
    map (fun e => (fst e, slot_of (bd_params (snd e)), bd_pipe (snd e))) (flat (v_bindings v0)) = [("/a", SText 3 0, ["duration"])]).
Proof. split; witness. Qed.
Example C72_written_ex : written_time "10.252µs" 10252.
Proof.
  exists "10.252", 10252%Z, 3%nat, "µs", 1000%Z. split; [reflexivity|]. split; [|split; [do 2 right; left; reflexivity|reflexivity]].
  apply (decimal_point false "10" "252"); [repeat split; reflexivity..|discriminate].
Qed.

(** C73.  Whatever was registered before the first update: after any fitting
    history a text bound through a transformer shows what the transformer registered last
    under that name makes of the value. *)
Theorem C73_registered_transformer_applies_partial : forall X fuel doc css v0 regs sh hist i x v os pos b n k w name f,
  from_document X fuel doc css = Ok v0 -> v_model v0 = initial_model sh -> wf_shape sh = true ->
  Forall (fun e => fits sh (snd e) = true) (hist ++ [(i, x)]) -> json_wf x = true ->
  updates X fuel (foldl (fun v r => pipe (fst r) (snd r) v) v0 regs) (hist ++ [(i, x)]) = Ok (v, os) ->
  In (pointer_string pos, b) (flat (v_bindings v0)) -> bd_params b = BText n k -> bd_pipe b = [name] ->
  in_force (x_transformers X !! name) name (map (fun r => Register (fst r) (snd r)) regs) = Some f ->
  shape_at sh pos = Some SLeaf -> value_at (project sh x) pos = Some w -> w <> JNull ->
  exists w0 w', json_eq w0 w = true /\ f w0 = Ok w' /\ text_span (v_tree v) n k = Some (eval_string (x_fmt_f64 X) w').
Proof. exact registered_text. Qed.
Print Assumptions C73_registered_transformer_applies_partial.

(** Whenever transformers are registered, also between updates: an update that
    changes a value shows it through the transformers in force now, and one that does not leaves the text. *)
Theorem C73_changed_values_use_current_transformers : forall X fuel doc css v0 sh cs v i x v' o pos b n k w,
  from_document X fuel doc css = Ok v0 -> v_model v0 = initial_model sh -> wf_shape sh = true ->
  performs X fuel v0 cs v -> passes (fun x => fits sh x = true) (cs ++ [Pass i x]) -> update X fuel v i x = Ok (v', o) ->
  In (pointer_string pos, b) (flat (v_bindings v0)) -> bd_params b = BText n k -> shape_at sh pos = Some SLeaf -> value_at (project sh x) pos = Some w ->
  (json_eq (old_value sh (v_model v) pos) w = false ->
     exists w', (forall name, v_transformers v !! name = in_force (x_transformers X !! name) name cs) /\
       piped (v_transformers v) (bd_pipe b) w w' /\ text_span (v_tree v') n k = Some (eval_string (x_fmt_f64 X) w')) /\
  (json_eq (old_value sh (v_model v) pos) w = true -> forall s, text_span (v_tree v) n k = Some s -> text_span (v_tree v') n k = Some s).
Proof. exact session_text. Qed.
Print Assumptions C73_changed_values_use_current_transformers.

(** Missing, because false: that the page shows its data through the
    transformers in force.  A transformer registered after the data were passed is not used until the value changes. *)
Definition loud (v : json) : res json := match v with JStr s => Ok (JStr (s +:+ "!")) | _ => Ok v end.
Definition shout : Html := document [elem "p" [] [text [TSBinder (mkBinder ["a"] ["loud"])]]].
Definition say (s : string) : Input * json := (frame [], JObj [("a", str s)]).
Theorem C73_late_transformer_unused_refuted :
  succeeds (do! v <- from_document boxes 20 shout css_empty; do! (v, _) <- updates boxes 20 v [say "hi"]; updates boxes 20 (pipe "loud" loud v) [say "hi"])
    (fun r => node_text (fst r) 3 = Some ["hi"]).
Proof. witness. Qed.
Print Assumptions C73_late_transformer_unused_refuted.
Example C73_ex :
  succeeds (do! v <- from_document boxes 20 shout css_empty; updates boxes 20 (pipe "loud" loud (pipe "loud" duration v)) [say "hi"])
    (fun r => node_text (fst r) 3 = Some ["hi!"]) /\
  succeeds (do! v <- from_document boxes 20 shout css_empty; do! (v, _) <- updates boxes 20 v [say "hi"]; updates boxes 20 (pipe "loud" loud v) [say "ho"])
    (fun r => node_text (fst r) 3 = Some ["ho!"]) /\
  succeeds (from_document boxes 20 shout css_empty) (fun v0 => v_model v0 = initial_model (SRecord [("a", SLeaf)]) /\
    map (fun e => (fst e, slot_of (bd_params (snd e)), bd_pipe (snd e))) (flat (v_bindings v0)) = [("/a", SText 3 0, ["loud"])]).
Proof. split; [|split]; witness. Qed.
