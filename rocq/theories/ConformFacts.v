(** * Binding data that fits the template (C02, C03, C04). *)
From Coq Require Import ZArith Lia.
From stdpp Require Import gmap.
From RecordUpdate Require Import RecordUpdate.
From Verif Require Import Str StrFacts F32 Res ResFacts Json JsonFacts PropKey Html Css Element ViewModel BindFacts SpecBind.

(** ** Shapes *)
Definition shape_ind' (P : shape -> Prop) (Hl : P SLeaf) (Ha : forall n s, P s -> P (SList n s))
  (Hr : forall fs, Forall (fun e : string * shape => P (snd e)) fs -> P (SRecord fs)) : forall sh, P sh :=
  fix F (sh : shape) : P sh :=
    match sh return P sh with
    | SLeaf => Hl
    | SList n s => Ha n s (F s)
    | SRecord fs => Hr fs ((fix G (fs : list (string * shape)) : Forall (fun e => P (snd e)) fs :=
                              match fs with
                              | [] => List.Forall_nil _
                              | e :: fs' => List.Forall_cons _ e fs' (F (snd e)) (G fs')
                              end) fs)
    end.

Lemma fits_null sh : fits sh JNull = true.
Proof. by destruct sh. Qed.

Lemma fits_leaf v : fits SLeaf v = true -> scalar v = true. Proof. done. Qed.

Lemma model_of_fields fs o : model_of (SRecord fs) (JObj o) = true <->
  Forall2 (fun (e : string * shape) (d : string * json) => fst e = fst d /\ model_of (snd e) (snd d) = true) fs o.
Proof.
  revert o; induction fs as [|[k s] fs IH]; intros [|[l w] o]; simpl.
  - split; [constructor|done].
  - split; [done|intros H; inversion H].
  - split; [done|intros H; inversion H].
  - simpl in IH. rewrite andb_true_iff, IH, andb_true_iff, String.eqb_eq. split.
    + intros [[-> ?] ?]. by constructor.
    + intros H. inversion H as [|? ? ? ? [? ?]]; subst. done.
Qed.

Lemma initial_model_of sh : model_of sh (initial_model sh) = true.
Proof.
  induction sh as [|n s IH|fs IH] using shape_ind'; [done| |].
  - cbn [initial_model model_of]. apply List.forallb_forall. intros x Hx. by apply repeat_spec in Hx as ->.
  - cbn [initial_model]. apply model_of_fields.
    induction IH as [|[k s] fs Hs Hf IHf]; simpl; constructor; [done|exact IHf].
Qed.

Lemma project_model_of sh v : fits sh v = true -> model_of sh (project sh v) = true.
Proof.
  revert v; induction sh as [|n s IH|fs IH] using shape_ind'; intros v H; [done| |].
  - cbn [project model_of]. apply List.forallb_forall. intros x Hx.
    apply in_map_iff in Hx as (y & <- & Hy). apply IH.
    destruct v; simpl in *; try done. rewrite List.forallb_forall in H. auto.
  - cbn [project]. apply model_of_fields.
    assert (Hf : Forall (fun e => fits (snd e) (field v (fst e)) = true) fs).
    { apply List.Forall_forall. intros e He. destruct v; simpl in *; try done; [apply fits_null|].
      rewrite List.forallb_forall in H. by apply H. }
    clear H. induction IH as [|[k s] fs Hs HF IHf]; [constructor|].
    inversion Hf; subst. constructor; [|by apply IHf]. split; [done|]. by apply Hs.
Qed.

(** ** The defaults computed at load time *)
Fixpoint defaults_ok (D : gmap string json) (ap : string) (sh : shape) : Prop :=
  match sh with
  | SLeaf => True
  | SList _ s => D !! ap = Some (initial_model s) /\ defaults_ok D ap s
  | SRecord fs =>
      (fix go (fs : list (string * shape)) : Prop :=
         match fs with
         | [] => True
         | (k, s) :: fs => defaults_ok D (ap +:+ "/" +:+ k) s /\ go fs
         end) fs
  end.

Lemma defaults_ok_record D ap fs : defaults_ok D ap (SRecord fs) <->
  Forall (fun e : string * shape => defaults_ok D (ap +:+ "/" +:+ fst e) (snd e)) fs.
Proof.
  induction fs as [|[k s] fs IH]; [split; [constructor|done]|].
  change (defaults_ok D ap (SRecord ((k, s) :: fs))) with
    (defaults_ok D (ap +:+ "/" +:+ k) s /\ defaults_ok D ap (SRecord fs)). rewrite IH.
  split; [intros [? ?]; by constructor|intros H; by inversion H].
Qed.

(** [below ap q]: [q] is a strict extension of the path [ap] *)
Definition below (ap q : string) : Prop := exists r, q = ap +:+ "/" +:+ r.

Lemma below_irrefl ap : ~ below ap ap.
Proof.
  intros [r H]. assert (String.length ap = String.length (ap +:+ "/" +:+ r)) by (by rewrite <- H).
  rewrite str_app_length in H0. simpl in H0. lia.
Qed.

Definition touches (ap : string) (sh : shape) (q : string) : Prop :=
  below ap q \/ (is_list sh = true /\ q = ap).

Lemma touches_below ap k s q : touches (ap +:+ "/" +:+ k) s q -> below ap q.
Proof.
  intros [[r ->]|[_ ->]].
  - exists (k +:+ "/" +:+ r). by rewrite !str_app_assoc.
  - by exists k.
Qed.

Lemma touches_disjoint ap k k' s s' q : no_slash k = true -> no_slash k' = true ->
  touches (ap +:+ "/" +:+ k) s q -> touches (ap +:+ "/" +:+ k') s' q -> k = k'.
Proof.
  intros Hk Hk' H H'.
  assert (Hx : exists x, slash_or_end x /\ q = ap +:+ "/" +:+ k +:+ x).
  { destruct H as [[r ->]|[_ ->]]; [exists ("/" +:+ r)|exists ""].
    - split; [right; by exists r|]. by rewrite !str_app_assoc.
    - split; [by left|]. by rewrite str_app_nil. }
  assert (Hy : exists x, slash_or_end x /\ q = ap +:+ "/" +:+ k' +:+ x).
  { destruct H' as [[r ->]|[_ ->]]; [exists ("/" +:+ r)|exists ""].
    - split; [right; by exists r|]. by rewrite !str_app_assoc.
    - split; [by left|]. by rewrite str_app_nil. }
  destruct Hx as (x & Hx & ->), Hy as (y & Hy & He).
  apply str_app_inj, str_app_inj in He.
  by destruct (no_slash_split _ _ _ _ Hk Hk' Hx Hy He).
Qed.

Lemma defaults_ok_ext D D' ap sh :
  (forall q, touches ap sh q -> D' !! q = D !! q) -> defaults_ok D ap sh -> defaults_ok D' ap sh.
Proof.
  revert ap; induction sh as [|n s IH|fs IH] using shape_ind'; intros ap He H; [done| |].
  - destruct H as [H1 H2]. split.
    + rewrite He; [done|]. by right.
    + apply IH; [|done]. intros q [Hb|[_ ->]]; apply He; [by left|by right].
  - apply defaults_ok_record. apply defaults_ok_record in H.
    induction IH as [|[k s] fs Hs Hf IHf]; [constructor|].
    inversion H; subst. constructor.
    + apply Hs; [|done]. intros q Hq. apply He. left. by eapply touches_below.
    + apply IHf; [|done]. intros q [Hb|[Hl _]]; [|done]. apply He. by left.
Qed.

Lemma memorize_ok sh : wf_shape sh = true -> forall ap (D0 : gmap string json), exists D : gmap string json,
  memorize_array_default ap (initial_model sh) D0 = Ok D /\
  defaults_ok D ap sh /\ forall q, ~ touches ap sh q -> D !! q = D0 !! q.
Proof.
  induction sh as [|n s IH|fs IH] using shape_ind'; intros Hw ap D0.
  - by exists D0.
  - cbn [wf_shape] in Hw. apply andb_prop in Hw as [Hw Hs]. apply andb_prop in Hw as [Hn Hl].
    destruct n as [|n]; [done|]. cbn [initial_model repeat memorize_array_default].
    destruct (IH Hs ap (<[ap := initial_model s]> D0)) as (D & HD & Hok & Hext).
    exists D. split; [done|]. split.
    + split; [|done]. rewrite Hext; [by rewrite lookup_insert|].
      intros [Hb|[Hx _]]; [by apply below_irrefl in Hb|]. by rewrite Hx in Hl.
    + intros q Hq. rewrite Hext.
      * rewrite lookup_insert_ne; [done|]. intros ->. apply Hq. by right.
      * intros [Hb|[_ ->]]; apply Hq; [by left|by right].
  - cbn [wf_shape] in Hw. apply andb_prop in Hw as [Hw Hws]. apply andb_prop in Hw as [Hsort Hns].
    apply obj_sorted_NoDup in Hsort.
    cbn [initial_model memorize_array_default].
    setoid_rewrite defaults_ok_record.
    revert D0. induction IH as [|[k s] fs Hs Hf IHf]; intros D0.
    + exists D0. simpl. split; [done|]. split; [constructor|done].
    + simpl in Hws, Hns, Hsort. apply andb_prop in Hws as [Hws1 Hws2]. apply andb_prop in Hns as [Hns1 Hns2].
      inversion Hsort as [|? ? Hni Hnd]; subst.
      destruct (Hs Hws1 (ap +:+ "/" +:+ k) D0) as (D1 & HD1 & Hok1 & Hext1).
      destruct (IHf Hnd Hns2 Hws2 D1) as (D & HD & Hok & Hext).
      exists D. cbn [map fst snd] in HD1 |- *. rewrite HD1. cbn [bindR]. split; [exact HD|].
      assert (Hkeys : forall q, touches (ap +:+ "/" +:+ k) s q -> ~ (exists e, In e fs /\ touches (ap +:+ "/" +:+ fst e) (snd e) q)).
      { intros q Hq (e & Hin & He). apply Hni. apply elem_of_list_In.
        rewrite (touches_disjoint _ _ _ _ _ _ Hns1 (proj1 (List.forallb_forall _ _) Hns2 _ Hin) Hq He).
        by apply in_map. }
      (* a stronger frame: only positions below some remaining field change *)
      assert (Hframe : forall q, ~ (exists e, In e fs /\ touches (ap +:+ "/" +:+ fst e) (snd e) q) -> D !! q = D1 !! q).
      { clear - HD Hf Hws2. revert D1 HD. induction Hf as [|[k' s'] fs' Hs' Hf' IHf']; intros D1 HD q Hq.
        - simpl in HD. by injection HD as <-.
        - simpl in Hws2. apply andb_prop in Hws2 as [Hw1 Hw2]. cbn [map fst snd] in HD.
          destruct (Hs' Hw1 (ap +:+ "/" +:+ k') D1) as (D2 & HD2 & _ & Hext2).
          cbn [map fst snd] in HD2. rewrite HD2 in HD. cbn [bindR] in HD.
          rewrite (IHf' Hw2 D2 HD); [|intros (e & Hin & He); apply Hq; exists e; split; [by right|done]].
          apply Hext2. intros Ht. apply Hq. exists (k', s'). split; [by left|done]. }
      split; [constructor|].
      * eapply defaults_ok_ext; [|exact Hok1]. intros q Hq. apply Hframe. by apply Hkeys.
      * exact Hok.
      * intros q Hq. rewrite Hframe.
        -- apply Hext1. intros Ht. apply Hq. left. by eapply touches_below.
        -- intros (e & _ & He). apply Hq. left. by eapply touches_below.
Qed.

(** ** The changes an update makes *)
Definition change : Type := position_ * json.
Definition under (s : step) (l : list change) : list change := map (fun e => (s :: fst e, snd e)) l.

Section changes.
  (** loop over items: [old] items first, the initial item when they run out *)
  Context (item : json -> json -> list change) (d : json).
  Fixpoint item_changes (old next : list json) (i : nat) : list change :=
    match next with
    | [] => []
    | v :: next' =>
        match old with
        | [] => under (Index i) (item d v) ++ item_changes [] next' (S i)
        | o :: old' => under (Index i) (item o v) ++ item_changes old' next' (S i)
        end
    end.
End changes.

Fixpoint changes (sh : shape) (old v : json) : list change :=
  match sh with
  | SLeaf => if json_eq old v then [] else [([], v)]
  | SList n s =>
      (if Nat.eqb (List.length (items old)) (List.length (items v)) then [] else [([], JArr (items v))])
      ++ item_changes (changes s) (initial_model s) (items old) (items v) 0
  | SRecord fs =>
      let inner := flat_map (fun e => under (Key (fst e)) (changes (snd e) (field old (fst e)) (field v (fst e)))) fs in
      match inner with
      | [] => []
      | _ => inner ++ [([], match v with JNull => JNull | _ => JObj [] end)]
      end
  end.

(** the stored model after the update *)
Section merge.
  Context (item : json -> json -> json) (d : json).
  Fixpoint item_merge (old next : list json) : list json :=
    match next with
    | [] => []
    | v :: next' =>
        match old with
        | [] => item d v :: item_merge [] next'
        | o :: old' => item o v :: item_merge old' next'
        end
    end.
End merge.
Fixpoint merge (sh : shape) (old v : json) : json :=
  match sh with
  | SLeaf => if json_eq old v then old else v
  | SList n s => JArr (item_merge (merge s) (initial_model s) (items old) (items v))
  | SRecord fs => JObj (map (fun e => (fst e, merge (snd e) (field old (fst e)) (field v (fst e)))) fs)
  end.

Section bind.
  Context (fmt : f64 -> string) (bs : Bindings) (tr : Transformers) (df : Defaults).
  Notation react := (react fmt bs tr).
  Notation bind_value := (bind_value fmt bs tr df).
  Notation bind_fields := (bind_fields fmt bs tr df).
  Notation bind_elems := (bind_elems fmt bs tr df).
  Notation resize_array := (resize_array fmt bs tr df).

  (** the reactions to a list of changes, below the pointer [path] *)
  Fixpoint notify (path : string) (l : list change) : res (list Reaction) :=
    match l with
    | [] => Ok []
    | (p, v) :: l => do! a <- react (path +:+ pointer_string p) v; do! b <- notify path l; Ok (a ++ b)
    end.

  Lemma notify_app path l l' :
    notify path (l ++ l') = (do! a <- notify path l; do! b <- notify path l'; Ok (a ++ b)).
  Proof.
    induction l as [|[p v] l IH]; simpl; [by destruct (notify path l')|].
    destruct (react _ v); simpl; try done. rewrite IH.
    destruct (notify path l); simpl; try done. destruct (notify path l'); simpl; try done.
    by rewrite (assoc_L (++)).
  Qed.

  Lemma notify_under path s l : notify path (under s l) = notify (path +:+ "/" +:+ step_string s) l.
  Proof.
    induction l as [|[p v] l IH]; simpl; [done|]. rewrite IH. by rewrite !str_app_assoc.
  Qed.

  Definition changed (l : list change) : bool := match l with [] => false | _ => true end.

  Lemma changed_app l l' : changed (l ++ l') = changed l || changed l'.
  Proof. by destruct l. Qed.
  Lemma changed_under s l : changed (under s l) = changed l.
  Proof. by destruct l. Qed.

  Definition outcome (m : json) (l : list change) (path : string) : res bind_out :=
    do! rs <- notify path l; Ok (m, changed l, rs).

  Definition good (sh : shape) : Prop := wf_shape sh = true -> forall m v path ap,
    defaults_ok df ap sh -> model_of sh m = true -> fits sh v = true -> 
    bind_value m v path ap = outcome (merge sh m v) (changes sh m v) path.

  Lemma leaf_good : good SLeaf.
  Proof.
    intros _ m v path ap _ Hm Hv. cbn in Hm, Hv. rewrite bind_value_eq.
    assert (He : bind_leaf fmt bs tr m v path = outcome (merge SLeaf m v) (changes SLeaf m v) path).
    { unfold outcome, bind_leaf. cbn [changes merge]. destruct (json_eq m v); cbn [notify bindR changed]; [done|].
      rewrite str_app_nil. destruct (react path v); cbn [bindR]; try done. by rewrite app_nil_r. }
    destruct m, v; done.
  Qed.

  Lemma elems_good s path ap : good s -> wf_shape s = true -> defaults_ok df ap s ->
    forall next cur i,
    forallb (model_of s) cur = true -> forallb (fits s) next = true ->
    bind_elems path ap (resize (List.length next) (initial_model s) cur) next i =
    (do! rs <- notify path (item_changes (changes s) (initial_model s) cur next i);
     Ok (item_merge (merge s) (initial_model s) cur next,
         changed (item_changes (changes s) (initial_model s) cur next i), rs)).
  Proof.
    intros Hg Hw Hd. induction next as [|v next IH]; intros cur i Hm Hf; [done|].
    cbn [forallb] in Hf. apply andb_prop in Hf as [Hf1 Hf2].
    assert (Hstep : forall o cur', model_of s o = true -> forallb (model_of s) cur' = true ->
      (do! (d', ch, rs) <- bind_value o v (path +:+ "/" +:+ fmt_nat i) ap;
       do! (l, ch', rs') <- bind_elems path ap (resize (List.length next) (initial_model s) cur') next (S i);
       Ok (d' :: l, ch || ch', rs ++ rs')) =
      (do! rs <- notify path (under (Index i) (changes s o v) ++ item_changes (changes s) (initial_model s) cur' next (S i));
       Ok (merge s o v :: item_merge (merge s) (initial_model s) cur' next,
           changed (under (Index i) (changes s o v) ++ item_changes (changes s) (initial_model s) cur' next (S i)), rs))).
    { intros o cur' Ho Hc. rewrite (Hg Hw o v _ _ Hd Ho Hf1), (IH cur' (S i) Hc Hf2).
      unfold outcome. rewrite notify_app, notify_under, changed_app, changed_under.
      cbn [step_string].
      destruct (notify (path +:+ "/" +:+ fmt_nat i) (changes s o v)); cbn [bindR]; try done.
      by destruct (notify path (item_changes (changes s) (initial_model s) cur' next (S i))). }
    destruct cur as [|o cur].
    - cbn [item_changes item_merge]. rewrite <- (Hstep (initial_model s) []); [|apply initial_model_of|done].
      unfold resize at 1. cbn [List.length take repeat app Nat.sub BindFacts.bind_elems].
      unfold resize. rewrite take_nil, Nat.sub_0_r. reflexivity.
    - cbn [forallb] in Hm. apply andb_prop in Hm as [Hm1 Hm2].
      cbn [item_changes item_merge]. rewrite <- (Hstep o cur Hm1 Hm2).
      unfold resize. cbn [List.length take Nat.sub]. reflexivity.
  Qed.

  Lemma resize_same {A} (d : A) l n : List.length l = n -> resize n d l = l.
  Proof. intros <-. unfold resize. rewrite Nat.sub_diag. rewrite take_ge by lia. apply app_nil_r. Qed.

  Lemma list_good n s : good s -> good (SList n s).
  Proof.
    intros Hg Hw m v path ap [Hd Hds] Hm Hv. pose proof Hw as Hw0.
    cbn [wf_shape] in Hw. apply andb_prop in Hw as [Hw Hs].
    cbn [model_of] in Hm. destruct m as [| | | |cur|]; try done.
    cbn [fits] in Hv.
    assert (Hcl : forall next, v = JArr next \/ (v = JNull /\ next = []) -> forallb (fits s) next = true ->
      bind_array fmt bs tr df path ap cur next = outcome (merge (SList n s) (JArr cur) v) (changes (SList n s) (JArr cur) v) path).
    { intros next Hnext Hf. assert (Hi : items v = next) by (by destruct Hnext as [->|[-> ->]]).
      unfold outcome. cbn [merge changes]. rewrite Hi. cbn [items].
      rewrite notify_app, changed_app.
      unfold bind_array. unfold BindFacts.resize_array.
      destruct (Nat.eqb_spec (List.length cur) (List.length next)) as [He|He].
      - cbn [bindR notify changed].
        rewrite <- (resize_same (initial_model s) cur _ He) at 1.
        rewrite (elems_good s path ap Hg Hs Hds next cur 0 Hm Hf).
        destruct (notify path _); cbn [bindR]; done.
      - rewrite Hd. cbn [notify]. cbn [pointer_string]. rewrite str_app_nil.
        destruct (react path (JArr next)); cbn [bindR]; try done. rewrite app_nil_r.
        rewrite (elems_good s path ap Hg Hs Hds next cur 0 Hm Hf).
        destruct (notify path _); cbn [bindR]; done. }
    rewrite bind_value_eq. destruct v as [| | | |next|]; try done.
    - rewrite <- (Hcl []); [|by right|done]. unfold bind_array, BindFacts.resize_array.
      destruct cur as [|c cur]; [done|]. cbn [List.length Nat.eqb]. rewrite Hd.
      destruct (react path (JArr [])); cbn [bindR]; try done.
      cbn. by rewrite app_nil_r.
    - apply Hcl; [by left|done].
  Qed.

  Lemma field_of_field sm k : field_of sm k = field (JObj sm) k.
  Proof. done. Qed.

  Lemma record_good fs : Forall (fun e : string * shape => good (snd e)) fs -> good (SRecord fs).
  Proof.
    intros IH Hw m v path ap Hd Hm Hv.
    cbn [wf_shape] in Hw. apply andb_prop in Hw as [Hw Hws]. apply andb_prop in Hw as [Hsort Hns].
    apply obj_sorted_NoDup in Hsort. apply defaults_ok_record in Hd.
    destruct m as [| | | | |o]; try done. pose proof (proj1 (model_of_fields _ _) Hm) as Hf2.
    set (inner := flat_map (fun e => under (Key (fst e)) (changes (snd e) (field (JObj o) (fst e)) (field v (fst e)))) fs).
    assert (Hfields : bind_fields (field v) path ap o =
      (do! rs <- notify path inner;
       Ok (map (fun e => (fst e, merge (snd e) (field (JObj o) (fst e)) (field v (fst e)))) fs, changed inner, rs))).
    { assert (Hfits : Forall (fun e => fits (snd e) (field v (fst e)) = true) fs).
      { apply List.Forall_forall. intros e He. cbn [fits] in Hv. destruct v; try done; [apply fits_null|].
        rewrite List.forallb_forall in Hv. by apply Hv. }
      assert (Hget : forall k d, In (k, d) o -> field (JObj o) k = d).
      { intros k d Hin. cbn [field]. rewrite (obj_get_NoDup k d o); [done| |done].
        assert (Hk : map fst o = map fst fs). { clear - Hf2. induction Hf2 as [|[? ?] [? ?] ? ? [? ?]]; simpl in *; [done|congruence]. }
        by rewrite Hk. }
      subst inner. revert Hget. generalize (field (JObj o)). intros old Hget.
      clear Hm Hv Hsort Hns. induction Hf2 as [|[k s] [k' d] fs o [Hk Hmo] Hf2 IHf]; [done|].
      simpl in Hk. subst k'. inversion IH; inversion Hd; inversion Hfits; subst. simpl in Hws. apply andb_prop in Hws as [Hw1 Hw2].
      cbn [fst snd] in *. cbn [BindFacts.bind_fields flat_map map fst snd].
      rewrite (Hget k d) by (by left).
      match goal with Hg : good s |- _ => rewrite (Hg Hw1 d (field v k) (path +:+ "/" +:+ k) (ap +:+ "/" +:+ k)) by done end.
      rewrite IHf; [|done..|intros; apply Hget; by right].
      unfold outcome. rewrite notify_app, notify_under, changed_app, changed_under. cbn [step_string].
      destruct (notify (path +:+ "/" +:+ k) (changes s d (field v k))); cbn [bindR]; try done.
      by destruct (notify path _). }
    assert (Hobj : bind_object fmt bs tr df (field v) (match v with JNull => JNull | _ => JObj [] end) path ap o
      = outcome (merge (SRecord fs) (JObj o) v) (changes (SRecord fs) (JObj o) v) path).
    { unfold bind_object. rewrite Hfields. unfold outcome. cbn [merge changes]. fold inner.
      destruct inner as [|c l]; [done|]. rewrite notify_app.
      destruct (notify path (c :: l)); cbn [bindR]; try done.
      cbn [changed notify pointer_string]. rewrite str_app_nil.
      destruct (react path _); cbn [bindR]; try done. rewrite app_nil_r. by destruct v. }
    rewrite bind_value_eq. cbn [fits] in Hv. destruct v; try done; exact Hobj.
  Qed.

  Theorem bind_conform sh : good sh.
  Proof.
    induction sh as [|n s IH|fs IH] using shape_ind'; [apply leaf_good|by apply list_good|by apply record_good].
  Qed.
End bind.
