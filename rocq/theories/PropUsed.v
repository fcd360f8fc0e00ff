(** * Property C85: only the data a template names matters.

    Vocabulary: SpecUsed.v ([agree], [agreeing], [plain_lists]), SpecBind.v (data and
    shapes). *)
From Coq Require Import Lia.
From stdpp Require Import gmap.
From RecordUpdate Require Import RecordUpdate.
From Verif Require Import Str F32 Res Json PropKey Html Css Element Tree ViewModel Render Update Matching
  Cascade Initial Animation Apply Styling Events View SpecBind SpecTree SpecLive BindProps SpecUsed UsedFacts Samples PropTree.

(** C85.  Two sessions with the same page and the same inputs, whose data agree
    wherever the template looks, are the same: the same pages, messages and reports
    after every update, and the same success or failure. *)
Theorem C85_other_fields_do_not_matter : forall X fuel fuel' doc css v0 sh h h',
  from_document X fuel doc css = Ok v0 -> v_model v0 = initial_model sh -> wf_shape sh = true -> plain_lists sh v0 ->
  Forall (fun e => fits sh (snd e) = true) h -> Forall (fun e => fits sh (snd e) = true) h' -> agreeing sh h h' ->
  updates X fuel' v0 h = updates X fuel' v0 h'.
Proof.
  intros X fuel fuel' doc css v0 sh h h' H0 Hm Hw Hp Hf Hf' Ha.
  exact (updates_agree X fuel' sh h h' v0 (from_document_shaped _ _ _ _ _ _ H0 Hm Hw) Hp Hf Hf' Ha).
Qed.
Print Assumptions C85_other_fields_do_not_matter.

(** C85.  In particular an application may always pass more than the template takes:
    a record with another field anywhere gives the same page. *)
Theorem C85_more_is_harmless : forall X fuel fuel' doc css v0 fs h i m k w v os,
  from_document X fuel doc css = Ok v0 -> v_model v0 = initial_model (SRecord fs) -> wf_shape (SRecord fs) = true ->
  plain_lists (SRecord fs) v0 -> ~ In k (map fst fs) ->
  Forall (fun e => fits (SRecord fs) (snd e) = true) (h ++ [(i, JObj m)]) ->
  updates X fuel' v0 (h ++ [(i, JObj m)]) = Ok (v, os) -> updates X fuel' v0 (h ++ [(i, JObj (obj_insert k w m))]) = Ok (v, os).
Proof.
  intros X fuel fuel' doc css v0 fs h i m k w v os H0 Hm Hw Hp Hk Hf H. rewrite <- H. symmetry.
  assert (Hfd : forall l s, In (l, s) fs -> field (JObj (obj_insert k w m)) l = field (JObj m) l).
  { intros l s Hl. cbn [field]. rewrite JsonFacts.obj_get_insert_ne; [done|]. intros ->. apply Hk. apply in_map_iff. by exists (k, s). }
  apply Forall_app in Hf as [Hf1 Hf2].
  eapply C85_other_fields_do_not_matter; [exact H0|exact Hm|exact Hw|exact Hp|by apply Forall_app| |].
  - apply Forall_app. split; [exact Hf1|]. apply list.Forall_cons in Hf2 as [Hf2 _]. constructor; [|constructor]. cbn [snd fits] in *.
    apply forallb_forall. intros [l s] Hl. rewrite forallb_forall in Hf2. cbn [fst snd]. rewrite (Hfd l s Hl). exact (Hf2 _ Hl).
  - apply Forall2_app.
    + clear. induction h as [|[j x] h IH]; constructor; [|exact IH]. split; [done|]. apply agree_refl.
    + constructor; [|constructor]. split; [done|]. cbn [snd]. constructor; [done|]. intros l s Hl. rewrite (Hfd l s Hl). apply agree_refl.
Qed.
Print Assumptions C85_more_is_harmless.

(** The condition on lists is needed: a transformer is given the items as they are.
    <ul><li *row="3 {rows | wanted}">x</li></ul>, where [wanted] keeps the items
    whose field "wanted" is true. *)
Definition wanted (v : json) : res json :=
  match v with JArr l => Ok (JArr (List.filter (fun x => eval_boolean (field x "wanted")) l)) | _ => Ok v end.
Definition wanted_world : Externals :=
  mkExternals (fun _ => "float") (fun s => s) (fun _ => None) (fun s => map_to_list s) (fun _ _ => layout_zero) {["wanted" := wanted]} false.
Definition wanted_page : Html :=
  document [elem "ul" [] [elem "li" [EBRepeat "row" 3 (mkBinder ["rows"] ["wanted"])] [text [TSBinder (get ["row"; "name"])]]]].
Definition wanted_shape : shape := SRecord [("rows", SList 3 (SRecord [("name", SLeaf)]))].
Definition wanted_data (b : bool) : json := JObj [("rows", JArr [JObj [("name", str "a"); ("wanted", JBool b)]])].
Theorem C85_piped_list_refuted :
  agree wanted_shape (wanted_data true) (wanted_data false) /\
  match run wanted_world wanted_page css_empty [(frame [], wanted_data true)], run wanted_world wanted_page css_empty [(frame [], wanted_data false)] with
  | Ok (v, _), Ok (v', _) => (List.length (attached (v_tree v) 2), List.length (attached (v_tree v') 2))
  | _, _ => (0, 0)
  end = (1, 0).
Proof.
  split; [|vm_compute; reflexivity].
  constructor; [done|]. intros k s [[= <- <-]|[]]. constructor. cbn. constructor; [|constructor].
  constructor; [done|]. intros k s [[= <- <-]|[]]. constructor.
Qed.
Print Assumptions C85_piped_list_refuted.

(** The hypotheses are met by the page with a list, given items with prices. *)
Definition priced (name : string) (price : N) : json := JObj [("name", str name); ("price", num_n price)].
Definition shop (l : list (string * N)) : json :=
  JObj [("items", JArr (map (fun e => priced (fst e) (snd e)) l)); ("time", num_n (N.of_nat (List.length l))); ("title", str "shop")].
Definition list_shape : shape := SRecord [("items", SList 3 (SRecord [("name", SLeaf)])); ("title", SLeaf)].
Lemma unpiped sh v : forallb (fun e => forallb (fun b => match bd_pipe b with [] => true | _ => false end) (snd e)) (v_bindings v) = true -> plain_lists sh v.
Proof.
  intros H p n s bs b _ Hb Hin. rewrite forallb_forall in H. specialize (H _ (JsonFacts.obj_get_In _ _ _ Hb)). cbn [snd] in H.
  rewrite forallb_forall in H. specialize (H b Hin). by destruct (bd_pipe b).
Qed.
Lemma shop_agrees : agree list_shape (shop [("pear", 3%N); ("fig", 5%N)]) (list_data "shop" ["pear"; "fig"]).
Proof.
  constructor; [done|]. intros k s [H|[H|[]]]; injection H as <- <-; [|constructor].
  constructor. cbn. repeat constructor; try done; cbn; intros k s [H|[]]; injection H as <- <-; constructor.
Qed.
Example C85_meets : exists v0, from_document world 20 list_page css_empty = Ok v0 /\ v_model v0 = initial_model list_shape /\
  wf_shape list_shape = true /\ plain_lists list_shape v0 /\
  fits list_shape (shop [("pear", 3%N); ("fig", 5%N)]) = true /\
  agree list_shape (shop [("pear", 3%N); ("fig", 5%N)]) (list_data "shop" ["pear"; "fig"]).
Proof.
  assert (H : succeeds (from_document world 20 list_page css_empty) (fun v => v_model v = initial_model list_shape /\
    forallb (fun e => forallb (fun b => match bd_pipe b with [] => true | _ => false end) (snd e)) (v_bindings v) = true)) by witness.
  assert (Hf : fits list_shape (shop [("pear", 3%N); ("fig", 5%N)]) = true) by (vm_compute; reflexivity).
  destruct H as (v0 & H0 & Hm & Hb). exists v0. split; [exact H0|]. split; [exact Hm|]. split; [exact eq_refl|].
  split; [exact (unpiped _ v0 Hb)|]. split; [exact Hf|exact shop_agrees].
Qed.
