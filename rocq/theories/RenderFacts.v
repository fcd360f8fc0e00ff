(** * Rendering builds what the template means. *)
From Coq Require Import ZArith Lia.
From stdpp Require Import gmap.
From RecordUpdate Require Import RecordUpdate.
From Verif Require Import Str StrFacts F32 Res ResFacts Json JsonFacts PropKey Html Css Element Tree ViewModel Render SpecRender SpecTree.

(** ** Outcomes against optional results *)
Definition agree {A B} (m : res A) (o : option B) (P : A -> B -> Prop) : Prop :=
  match m, o with
  | Ok a, Some b => P a b
  | Ok _, None => False
  | _, Some _ => False
  | _, None => True
  end.

Lemma agree_bind {A B A' B'} (m : res A) (o : option B) P (f : A -> res A') (g : B -> option B') Q :
  agree m o P -> (forall a b, P a b -> agree (f a) (g b) Q) -> agree (bindR m f) (o ≫= g) Q.
Proof. destruct m, o; simpl; try done; auto. Qed.
Lemma agree_left {A A' B'} (m : res A) a (f : A -> res A') (o : option B') Q :
  m = Ok a -> agree (f a) o Q -> agree (bindR m f) o Q.
Proof. by intros ->. Qed.
Lemma agree_ret {A B} (a : A) (b : B) (P : A -> B -> Prop) : P a b -> agree (Ok a) (Some b) P.
Proof. done. Qed.
Lemma agree_mono {A B} (m : res A) (o : option B) (P Q : A -> B -> Prop) :
  agree m o P -> (forall a b, P a b -> Q a b) -> agree m o Q.
Proof. destruct m, o; simpl; try done; auto. Qed.

Lemma agree_fold {A B S} (step : S -> A -> res S) (f : A -> option B) (Inv : list B -> S -> Prop) l :
  (forall dn s a, a ∈ l -> Inv dn s -> agree (step s a) (f a) (fun s' b => Inv (dn ++ [b]) s')) ->
  forall dn s, Inv dn s -> agree (foldR step s l) (mapM f l) (fun s' bs => Inv (dn ++ bs) s').
Proof.
  induction l as [|a l IH]; intros Hs dn s Hi.
  - cbn. by rewrite app_nil_r.
  - cbn [foldR]. change (mapM f (a :: l)) with (b ← f a; k ← mapM f l; mret (b :: k)). eapply agree_bind; [apply Hs; [left|exact Hi]|].
    intros s' b Hi'. cbn beta.
    assert (H : agree (foldR step s' l) (mapM f l) (fun s'' bs => Inv ((dn ++ [b]) ++ bs) s'')).
    { apply IH; [|done]. intros. apply Hs; [by right|done]. }
    destruct (foldR step s' l), (mapM f l); simpl in *; try done. by rewrite <- app_assoc in H.
Qed.

(** ** The bindings map as a list of entries *)

Lemma push_flat p b bs : obj_sorted bs = true -> flat (push_binding p b bs) ≡ₚ flat bs ++ [(p, b)].
Proof.
  unfold push_binding. induction bs as [|[k l] bs IH]; intros Hs; [done|].
  apply obj_sorted_cons in Hs as [Hs Hf]. cbn [obj_get obj_insert].
  destruct (str_compare p k) eqn:E.
  - apply str_compare_eq in E as ->. rewrite String.eqb_refl. unfold flat. cbn [flat_map fst snd]. rewrite map_app.
    cbn. rewrite <- !app_assoc. cbn. apply Permutation_app_head. rewrite Permutation_app_comm. done.
  - assert (Hne : p <> k) by (intros ->; by rewrite str_compare_refl in E).
    rewrite (proj2 (String.eqb_neq p k)) by done.
    assert (obj_get p bs = None) as ->.
    { apply obj_get_None. intros Hin. apply in_map_iff in Hin as ([k' l'] & Heq & Hin). cbn in Heq. subst k'.
      rewrite List.Forall_forall in Hf. specialize (Hf _ Hin). cbn in Hf.
      assert (str_lt p p = true) by (eapply str_lt_trans; [|exact Hf]; unfold str_lt; by rewrite E).
      apply str_lt_neq in H. done. }
    unfold flat. cbn [flat_map fst snd map app]. apply Permutation_cons_append.
  - assert (Hne : p <> k) by (intros ->; by rewrite str_compare_refl in E).
    rewrite (proj2 (String.eqb_neq p k)) by done. unfold flat in *. cbn [flat_map]. rewrite IH by done. by rewrite app_assoc.
Qed.

Lemma push_sorted p b bs : obj_sorted bs = true -> obj_sorted (push_binding p b bs) = true.
Proof. apply obj_insert_sorted. Qed.

(** ** What a rendering step adds to bindings and schema *)
Definition adv (r r' : Renderer) (new : list (string * Binding)) (qs : list string) : Prop :=
  (obj_sorted (r_bindings r) = true ->
     obj_sorted (r_bindings r') = true /\ flat (r_bindings r') ≡ₚ flat (r_bindings r) ++ new) /\
  exists ps, ps ≡ₚ qs /\ r_schema r' = foldl define_value (r_schema r) ps.

Lemma adv_refl r : adv r r [] [].
Proof. split; [intros; by rewrite app_nil_r|]. by exists []. Qed.
Lemma adv_trans r1 r2 r3 n1 n2 q1 q2 n q : adv r1 r2 n1 q1 -> adv r2 r3 n2 q2 -> n ≡ₚ n1 ++ n2 -> q ≡ₚ q1 ++ q2 -> adv r1 r3 n q.
Proof.
  intros [A1 (p1 & P1 & S1)] [A2 (p2 & P2 & S2)] Hn Hq. split.
  - intros Hs. destruct (A1 Hs) as [Hs2 E2]. destruct (A2 Hs2) as [Hs3 E3]. split; [done|]. rewrite E3, E2, Hn. by rewrite app_assoc.
  - exists (p1 ++ p2). split; [by rewrite Hq, P1, P2|]. by rewrite foldl_app, S2, S1.
Qed.
Lemma adv_perm r r' n n' q q' : adv r r' n q -> n' ≡ₚ n -> q' ≡ₚ q -> adv r r' n' q'.
Proof.
  intros [A (p & P & S)] Hn Hq. split.
  - intros Hs. rewrite Hn. auto.
  - exists p. by rewrite Hq.
Qed.
(** [adv] looks at bindings and schema only *)
Lemma adv_ext r1 r1' r2 r2' n q : adv r1 r2 n q -> r_bindings r1' = r_bindings r1 -> r_schema r1' = r_schema r1 ->
  r_bindings r2' = r_bindings r2 -> r_schema r2' = r_schema r2 -> adv r1' r2' n q.
Proof. unfold adv. by intros H -> -> -> ->. Qed.

(** the rest of the state is untouched *)
Definition quiet (r r' : Renderer) : Prop :=
  r_tree r' = r_tree r /\ r_locals r' = r_locals r /\ r_static_id r' = r_static_id r.
Lemma quiet_refl r : quiet r r. Proof. done. Qed.
Lemma quiet_trans a b c : quiet a b -> quiet b c -> quiet a c.
Proof. unfold quiet. intros (-> & -> & ->) (-> & -> & ->). done. Qed.

Lemma slashed_join h t : "/" +:+ join "/" (h :: t) = slashed (h :: t).
Proof.
  revert h; induction t as [|h' t IH]; intros h; [cbn; by rewrite str_app_nil|].
  change (join "/" (h :: h' :: t)) with (h +:+ "/" +:+ join "/" (h' :: t)). rewrite IH. done.
Qed.
Lemma to_json_pointer_resolve E b : to_json_pointer E b = resolve E b.
Proof.
  unfold to_json_pointer, resolve. destruct (b_path b) as [|h [|h' t]]; [done|..].
  - cbn [slashed foldr]. by rewrite str_app_nil.
  - by rewrite slashed_join.
Qed.

Lemma r_field_agree b r : agree (r_field b r) (resolve (r_locals r) b)
  (fun '(r', p) q => p = q /\ quiet r r' /\ adv r r' [] [p]).
Proof.
  unfold r_field, schema_field. rewrite to_json_pointer_resolve. destruct (resolve _ b) as [p|]; [|done]. cbn.
  split; [done|]. split; [done|]. split; [intros; by rewrite app_nil_r|]. by exists [p].
Qed.

Lemma r_bind_agree b params r : agree (r_bind b params r) (resolve (r_locals r) b)
  (fun r' p => quiet r r' /\ adv r r' [(p, mkBinding params (b_pipe b))] [p]).
Proof.
  unfold r_bind, r_field, schema_field. rewrite to_json_pointer_resolve. destruct (resolve _ b) as [p|]; [|done]. cbn.
  split; [done|]. split; [|by exists [p]]. intros Hs. cbn. split; [by apply push_sorted|]. by apply push_flat.
Qed.

Lemma render_spans_agree tr mk : forall spans i r,
  agree (render_spans tr mk i spans r) (mapM (resolve_span tr (r_locals r)) spans)
  (fun '(r', l) rs => l = map span_shown rs /\ quiet r r' /\ adv r r' (span_bindings mk i rs) (span_paths rs)).
Proof.
  induction spans as [|[s|b] spans IH]; intros i r; cbn [render_spans].
  - cbn. split; [done|]. split; [done|]. apply adv_refl.
  - change (mapM _ (TSString s :: spans)) with (k ← mapM (resolve_span tr (r_locals r)) spans; mret (RStr (tr s) :: k)).
    eapply agree_bind; [apply IH|]. intros [r' l] rs (-> & Hq & Ha). cbn. done.
  - change (mapM _ (TSBinder b :: spans)) with
      (y ← (p ← resolve (r_locals r) b; Some (RGet p (b_pipe b) (binder_to_string b)));
       k ← mapM (resolve_span tr (r_locals r)) spans; mret (y :: k)).
    destruct (resolve (r_locals r) b) as [p|] eqn:Ep.
    + pose proof (r_bind_agree b (mk i) r) as Hb. rewrite Ep in Hb. destruct (r_bind b (mk i) r) as [r1| | |] eqn:Eb; try done.
      destruct Hb as [Hq Ha]. cbn [bindR mbind option_bind].
      destruct Hq as (Q1 & Q2 & Q3). rewrite <- Q2.
      eapply agree_bind; [apply IH|]. intros [r' l] rs (-> & Hq' & Ha'). cbn. split; [done|].
      split; [by eapply quiet_trans|]. eapply adv_trans; [exact Ha|exact Ha'|done..].
    + pose proof (r_bind_agree b (mk i) r) as Hb. rewrite Ep in Hb. by destruct (r_bind b (mk i) r).
Qed.

Lemma render_args_agree : forall args r,
  agree (render_args args r) (mapM (resolve_arg (r_locals r)) args)
  (fun '(r', l) rs => l = map handler_of rs /\ quiet r r' /\ adv r r' [] (arg_paths rs)).
Proof.
  induction args as [|[k| |b] args IH]; intros r; cbn [render_args].
  - cbn. split; [done|]. split; [done|]. apply adv_refl.
  - change (mapM _ (CAKeyword k :: args)) with (y ← mapM (resolve_arg (r_locals r)) args; mret (RKeyword k :: y)).
    eapply agree_bind; [apply IH|]. intros [r' l] rs (-> & Hq & Ha). cbn. done.
  - change (mapM _ (CAEvent :: args)) with (y ← mapM (resolve_arg (r_locals r)) args; mret (REvent :: y)).
    eapply agree_bind; [apply IH|]. intros [r' l] rs (-> & Hq & Ha). cbn. done.
  - change (mapM _ (CABinder b :: args)) with
      (y ← (p ← resolve (r_locals r) b; Some (RValue p (b_pipe b)));
       k ← mapM (resolve_arg (r_locals r)) args; mret (y :: k)).
    pose proof (r_field_agree b r) as Hb. destruct (resolve (r_locals r) b) as [p|] eqn:Ep.
    + destruct (r_field b r) as [[r1 p']| | |] eqn:Eb; try done.
      destruct Hb as (-> & Hq & Ha). cbn [bindR mbind option_bind].
      destruct Hq as (Q1 & Q2 & Q3). rewrite <- Q2.
      eapply agree_bind; [apply IH|]. intros [r' l] rs (-> & Hq' & Ha'). cbn. split; [done|].
      split; [by eapply quiet_trans|]. eapply adv_trans; [exact Ha|exact Ha'|done..].
    + by destruct (r_field b r) as [[r1 p']| | |].
Qed.

(** ** One element's own bindings *)
Section binding.
  Context (read : string -> option (list Declaration)).

  Definition own_inv (n : NodeId) (r : Renderer) (e : Element) (dn : list (option rbind)) (st : Renderer * Element) : Prop :=
    r_tree (fst st) = r_tree r /\ r_locals (fst st) = r_locals r /\
    r_static_id (fst st) = add_ids (r_static_id r) (own_ids n (omap id dn)) /\
    snd st = foldl (apply_rbind read) e (omap id dn) /\
    adv r (fst st) (flat_map (bind_bindings n) (omap id dn)) (flat_map bind_paths (omap id dn)).

  Lemma own_inv_some n r e dn r1 e1 r2 e2 b : own_inv n r e dn (r1, e1) ->
    r_tree r2 = r_tree r1 -> r_locals r2 = r_locals r1 ->
    r_static_id r2 = add_ids (r_static_id r1) (own_ids n [b]) -> e2 = apply_rbind read e1 b ->
    adv r1 r2 (bind_bindings n b) (bind_paths b) -> own_inv n r e (dn ++ [Some b]) (r2, e2).
  Proof.
    intros (T & L & S & E & A) T2 L2 S2 E2 A2. cbn [fst snd] in *. unfold own_inv. cbn [fst snd].
    rewrite T2, L2, T, L. do 2 (split; [done|]). rewrite omap_app. cbn [omap list_omap id].
    split; [|split].
    - rewrite S2, S. unfold own_ids, add_ids. rewrite omap_app, foldl_app. done.
    - by rewrite foldl_app, E2, E.
    - rewrite !flat_map_app. cbn. rewrite !app_nil_r. by eapply adv_trans.
  Qed.

  Lemma render_binding_agree n r e dn st b : own_inv n r e dn st ->
    agree (render_binding read n st b) (resolve_binding (r_locals r) b) (fun st' x => own_inv n r e (dn ++ [x]) st').
  Proof.
    intros Hi. destruct st as [r1 e1]. pose proof Hi as (T & L & S & E & A). cbn [fst snd] in *.
    destruct b as [key value|name b|key b|key text|name count b|event args|visible b]; cbn [render_binding resolve_binding].
    - cbn. eapply own_inv_some; [exact Hi|..]; cbn.
      + by destruct (String.eqb key "id").
      + by destruct (String.eqb key "id").
      + by destruct (String.eqb key "id").
      + done.
      + destruct (String.eqb key "id"); [eapply (adv_ext r1 _ r1); [apply adv_refl|done..]|apply adv_refl].
    - cbn. unfold own_inv. cbn [fst snd]. rewrite omap_app. cbn. rewrite app_nil_r. exact Hi.
    - rewrite <- L. eapply agree_bind; [apply r_bind_agree|]. intros r' p [(Q1 & Q2 & Q3) Ha]. cbn.
      eapply own_inv_some; [exact Hi|..]; done.
    - destruct (as_simple_text text) as [value|].
      + cbn. eapply own_inv_some; [exact Hi|..]; try done. apply adv_refl.
      + rewrite <- L. eapply agree_bind; [apply render_spans_agree|]. intros [r' l] rs (-> & (Q1 & Q2 & Q3) & Ha). cbn.
        eapply own_inv_some; [exact Hi|..]; done.
    - cbn. unfold own_inv. cbn [fst snd]. rewrite omap_app. cbn. rewrite app_nil_r. exact Hi.
    - rewrite <- L. eapply agree_bind; [apply render_args_agree|]. intros [r' l] rs (-> & (Q1 & Q2 & Q3) & Ha). cbn.
      eapply own_inv_some; [exact Hi|..]; done.
    - cbn. unfold own_inv. cbn [fst snd]. rewrite omap_app. cbn. rewrite app_nil_r. exact Hi.
  Qed.

  Lemma render_bindings_agree n r e l :
    agree (foldR (render_binding read n) (r, e) l) (resolve_bindings (r_locals r) l)
      (fun '(r', e') binds => r_tree r' = r_tree r /\ r_locals r' = r_locals r /\
         r_static_id r' = add_ids (r_static_id r) (own_ids n binds) /\
         e' = foldl (apply_rbind read) e binds /\
         adv r r' (flat_map (bind_bindings n) binds) (flat_map bind_paths binds)).
  Proof.
    unfold resolve_bindings.
    pose proof (agree_fold (render_binding read n) (resolve_binding (r_locals r)) (own_inv n r e) l) as H.
    specialize (H (fun dn s a _ Hi => render_binding_agree n r e dn s a Hi) [] (r, e)).
    assert (Hi : own_inv n r e [] (r, e)) by (unfold own_inv; cbn; do 4 (split; [done|]); apply adv_refl).
    specialize (H Hi). destruct (foldR _ _ _) as [[r' e']| | |], (mapM _ _) as [bs|]; simpl in *; done.
  Qed.

  Lemma static_attr_spec key binds : forall e v, e_attrs e !! key = v ->
    e_attrs (foldl (apply_rbind read) e binds) !! key =
    foldl (fun v b => match b with
                    | RStatic k x | RPlain k x => if String.eqb k key then Some x else v
                    | RAttr k spans =>
                        if String.eqb k key
                        then Some (join "" (map (fun s => match s with RStr s => s | RGet _ _ s => s end) spans))
                        else v
                    | _ => v
                    end) v binds.
  Proof.
    induction binds as [|b binds IH]; intros e v Hv; [done|]. cbn [foldl]. apply IH.
    destruct b as [k x|k x|k p q|k spans|ev args]; cbn [apply_rbind]; try exact Hv.
    - destruct (String.eqb_spec k key) as [->|Hne]; cbn; [by rewrite lookup_insert|].
      rewrite lookup_insert_ne by done. destruct (String.eqb k "style"); [destruct (read x)|]; done.
    - destruct (String.eqb_spec k key) as [->|Hne]; cbn; [by rewrite lookup_insert|]. by rewrite lookup_insert_ne.
    - destruct (String.eqb_spec k key) as [->|Hne]; cbn; [by rewrite lookup_insert|]. by rewrite lookup_insert_ne.
  Qed.

  Lemma apply_rbinds_keep binds : forall e, e_node (foldl (apply_rbind read) e binds) = e_node e /\
    e_tag (foldl (apply_rbind read) e binds) = e_tag e /\ e_text (foldl (apply_rbind read) e binds) = e_text e.
  Proof.
    induction binds as [|b binds IH]; intros e; [done|]. cbn [foldl]. destruct (IH (apply_rbind read e b)) as (-> & -> & ->).
    destruct b; cbn; try done. destruct (String.eqb key "style"); [destruct (read value)|]; done.
  Qed.
End binding.

(** ** Local names *)
Definition restored (E : gmap string string) (over : gmap string (option string)) : gmap string string :=
  map_fold restore_one E over.

Lemma restored_lookup E over k : restored E over !! k = match over !! k with Some v => v | None => E !! k end.
Proof.
  unfold restored. revert k.
  apply (map_fold_ind (fun (r : gmap string string) (m : gmap string (option string)) => forall k, r !! k = match m !! k with Some v => v | None => E !! k end)).
  - intros k. by rewrite lookup_empty.
  - intros i x m r Hi IH k. unfold restore_one. destruct (decide (i = k)) as [->|Hne].
    + rewrite lookup_insert. destruct x; [by rewrite lookup_insert|by rewrite lookup_delete].
    + rewrite (lookup_insert_ne m) by done. destruct x; [rewrite lookup_insert_ne by done|rewrite lookup_delete_ne by done]; apply IH.
Qed.

(** [over] remembers how to get from [E'] back to [E] *)
Definition remembers (E E' : gmap string string) (over : gmap string (option string)) : Prop := restored E' over = E.

Lemma remembers_alias E E' over name p : remembers E E' over -> over !! name = None ->
  remembers E (<[name := p]> E') (<[name := E' !! name]> over).
Proof.
  unfold remembers. intros <- Hn. apply map_eq. intros k. rewrite !restored_lookup.
  destruct (decide (name = k)) as [->|Hne].
  - rewrite lookup_insert, Hn. done.
  - by rewrite !lookup_insert_ne.
Qed.

Lemma bind_alias_agree : forall l r over E, remembers E (r_locals r) over ->
  NoDup (map fst l) -> (forall name, In name (map fst l) -> over !! name = None) ->
  agree (foldR bind_alias (r, over) l) (resolve_aliases (r_locals r) l)
    (fun '(r', over') '(E', ps) => r_locals r' = E' /\ remembers E E' over' /\
       r_tree r' = r_tree r /\ r_static_id r' = r_static_id r /\ adv r r' [] ps).
Proof.
  induction l as [|[name b] l IH]; intros r over E Hr Hn Hf.
  - cbn. do 4 (split; [done|]). apply adv_refl.
  - cbn [foldR bind_alias resolve_aliases]. pose proof (r_field_agree b r) as Hb.
    destruct (resolve (r_locals r) b) as [p|]; [|by destruct (r_field b r) as [[? ?]| | |]].
    destruct (r_field b r) as [[r1 p1]| | |]; try done. destruct Hb as (-> & (Q1 & Q2 & Q3) & Ha).
    cbn [bindR mbind option_bind]. rewrite <- Q2.
    inversion Hn as [|? ? Hni Hn']; subst.
    set (r2 := r1 <| r_locals ::= <[name := p]> |>).
    change (<[name := p]> (r_locals r1)) with (r_locals r2).
    assert (H : agree (foldR bind_alias (r2, <[name := r_locals r1 !! name]> over) l) (resolve_aliases (r_locals r2) l)
      (fun '(r', over') '(E', ps) => r_locals r' = E' /\ remembers E E' over' /\
       r_tree r' = r_tree r2 /\ r_static_id r' = r_static_id r2 /\ adv r2 r' [] ps)).
    { apply IH; [|done|].
      - apply remembers_alias; [by rewrite Q2|]. apply Hf. by left.
      - intros x Hx. rewrite lookup_insert_ne; [|intros <-; apply Hni; by apply elem_of_list_In]. apply Hf. by right. }
    destruct (foldR _ _ _) as [[r' over']| | |], (resolve_aliases _ _) as [[E' ps]|]; simpl in *; try done.
    destruct H as (H1 & H2 & H3 & H4 & H5). split; [done|]. split; [done|]. rewrite H3, H4. do 2 (split; [done|]).
    assert (H6 : adv r1 r' [] ps) by (eapply (adv_ext r2); [exact H5|done..]).
    eapply (adv_trans r r1 r'); [exact Ha|exact H6|done..].
Qed.
