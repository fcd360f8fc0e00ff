(** * Documents: what is rendered, and inline styles at load time. *)
From Coq Require Import ZArith Lia.
From stdpp Require Import gmap.
From RecordUpdate Require Import RecordUpdate.
From Verif Require Import Str StrFacts F32 Res ResFacts Json PropKey Html Css Element Tree ViewModel Render Update Matching
  Cascade Initial Animation Apply Styling Events View
  SpecLive SpecLog SpecView SpecRender SpecTree SpecEvents FrameFacts EventFacts EventFrame
  RenderTree RenderNode RenderProps RenderAny RenderMore LiveFacts LiveUpdate LiveView LiveHistory LiveOrder
  SpecSelect SelectFacts SelectLive SelectFresh SpecStyle SpecPage SpecDocument StyleView.

(** ** Scanning *)
Lemma template_id_last h : (exists id, template_id h = Some id /\ has_id h id) \/ (template_id h = None /\ forall v, EBNone "id" v ∉ h_bindings h).
Proof.
  unfold template_id, has_id. generalize (h_bindings h). intros l. induction l as [|b l IH] using rev_ind.
  - right. split; [done|]. intros v H. by apply elem_of_nil in H.
  - rewrite foldl_app. cbn [foldl]. set (f := foldl _ None l) in *.
    assert (Hother : (forall v, b <> EBNone "id" v) -> (exists id, f = Some id /\ exists a c, l ++ [b] = a ++ EBNone "id" id :: c /\ forall v, EBNone "id" v ∉ c) \/ (f = None /\ forall v, EBNone "id" v ∉ l ++ [b])).
    { intros Hb. destruct IH as [(id & -> & a & c & -> & Hc)|[-> Hn]].
      - left. exists id. split; [done|]. exists a, (c ++ [b]). rewrite <- app_assoc. split; [done|]. intros v Hv. apply elem_of_app in Hv as [Hv|Hv]; [by apply (Hc v)|].
        apply elem_of_list_singleton in Hv. by apply (Hb v).
      - right. split; [done|]. intros v Hv. apply elem_of_app in Hv as [Hv|Hv]; [by apply (Hn v)|]. apply elem_of_list_singleton in Hv. by apply (Hb v). }
    destruct b as [k v|k b|k b|k s|k n b|k l'|v b]; try (apply Hother; done).
    destruct (String.eqb_spec k "id") as [->|Hne]; [|apply Hother; intros w [= ? ?]; congruence].
    left. exists v. split; [done|]. exists l, []. split; [done|]. intros w Hw. by apply elem_of_nil in Hw.
Qed.
Lemma has_id_fun h id id' : has_id h id -> has_id h id' -> id = id'.
Proof.
  intros (a & b & H & Hn) (a' & b' & H' & Hn'). rewrite H in H'. clear H. revert a' H'. induction a as [|x a IH]; intros [|y a'] H'; cbn in H'.
  - by injection H'.
  - injection H' as _ H'. exfalso. apply (Hn id'). rewrite H'. apply elem_of_app. right. apply elem_of_list_here.
  - injection H' as _ H'. exfalso. apply (Hn' id). rewrite <- H'. apply elem_of_app. right. apply elem_of_list_here.
  - injection H' as -> H'. by eapply IH.
Qed.
Lemma hash_inj a b : "#" +:+ a = "#" +:+ b -> a = b.
Proof. intros H. cbn in H. by injection H. Qed.
Lemma scan_templates l : forall ts templates body, scan_document l ts = (templates, body) ->
  exists before, split_at_body l before body /\
    forall name h, templates !! name = Some h <-> (exists id, name = "#" +:+ id /\ template_in before id h) \/
      ((forall id h', name = "#" +:+ id -> ~ template_in before id h') /\ ts !! name = Some h).
Proof.
  induction l as [|c l IH]; intros ts templates body H; cbn [scan_document] in H.
  - injection H as <- <-. exists []. split; [split; [intros c Hc; by apply elem_of_nil in Hc|by right]|].
    assert (Hno : forall id h, ~ template_in [] id h) by (intros id h (a & c & b & H & _); by destruct a).
    intros name h. split; [intros Hx; right; split; [intros; apply Hno|done]|]. intros [(id & _ & Hx)|[_ Hx]]; [by apply Hno in Hx|done].
  - assert (Hskip : h_tag c <> "body" -> (forall id h, ~ is_template c id h) -> scan_document l ts = (templates, body) ->
      exists before, split_at_body (c :: l) before body /\ forall name h, templates !! name = Some h <-> (exists id, name = "#" +:+ id /\ template_in before id h) \/
      ((forall id h', name = "#" +:+ id -> ~ template_in before id h') /\ ts !! name = Some h)).
    { intros Hb Hc H'. destruct (IH _ _ _ H') as (before & (S1 & S2) & S3). exists (c :: before). split.
      - split; [intros c' Hc'; apply elem_of_cons in Hc' as [->|Hc']; [done|by apply S1]|]. destruct S2 as [(after & -> & Ht)|[-> ->]]; [left; by exists after|by right].
      - assert (Hi : forall id h, template_in (c :: before) id h <-> template_in before id h).
        { intros id h. split.
          - intros (a & c' & b & E & Ht & Hl). destruct a as [|x a]; injection E as -> ->; [by apply Hc in Ht|]. by exists a, c', b.
          - intros (a & c' & b & -> & Ht & Hl). by exists (c :: a), c', b. }
        intros name h. rewrite S3. split.
        + intros [(id & -> & Hx)|[Hx1 Hx2]]; [left; exists id; split; [done|by apply Hi]|right; split; [|done]]. intros id h' E. rewrite Hi. by apply Hx1.
        + intros [(id & -> & Hx)|[Hx1 Hx2]]; [left; exists id; split; [done|by apply Hi]|right; split; [|done]]. intros id h' E. rewrite <- Hi. by apply Hx1. }
    destruct (String.eqb_spec (h_tag c) "template") as [Ht|Ht].
    + assert (Hb : h_tag c <> "body") by (rewrite Ht; done).
      assert (Hno : (forall id h, ~ is_template c id h) -> scan_document l ts = (templates, body) -> _) by (intros Hn Hs; exact (Hskip Hb Hn Hs)).
      destruct (template_id_last c) as [(id & E & Hid)|[E Hn]]; rewrite E in H.
      2:{ apply Hno; [|exact H]. intros id h (_ & (a & b & Hab & _) & _). apply (Hn id). rewrite Hab. apply elem_of_app. right. apply elem_of_list_here. }
      destruct (h_children c) as [|k [|k' ks]] eqn:Hk.
      1,3: apply Hno; [|exact H]; intros id' h (_ & _ & Hch); congruence.
      assert (Hc : is_template c id k) by done.
      destruct (IH _ _ _ H) as (before & (S1 & S2) & S3). exists (c :: before). split.
      { split; [intros c' Hc'; apply elem_of_cons in Hc' as [->|Hc']; [done|by apply S1]|]. destruct S2 as [(after & -> & Htb)|[-> ->]]; [left; by exists after|by right]. }
      assert (Hdec : (exists h, template_in before id h) \/ forall c' h', c' ∈ before -> ~ is_template c' id h').
      { clear - before. induction before as [|d before IHb]; [right; intros c' h' Hc'; by apply elem_of_nil in Hc'|].
        destruct IHb as [(h & a & c' & b & -> & Hx)|IHb]; [left; exists h, (d :: a), c', b; done|].
        destruct (template_id_last d) as [(id' & _ & Hid)|[_ Hn]].
        - destruct (decide (id' = id)) as [->|Hne]; [destruct (String.eqb_spec (h_tag d) "template") as [Ht|Ht]; [destruct (h_children d) as [|k [|k' ks]] eqn:Hk|]|].
          3:{ right. intros c' h' Hc' (T1 & T2 & T3). apply elem_of_cons in Hc' as [->|Hc']; [congruence|by apply (IHb c' h' Hc')]. }
          1:{ right. intros c' h' Hc' (T1 & T2 & T3). apply elem_of_cons in Hc' as [->|Hc']; [congruence|by apply (IHb c' h' Hc')]. }
          1:{ left. exists k, [], d, before. split; [done|]. split; [done|]. exact IHb. }
          1:{ right. intros c' h' Hc' (T1 & T2 & T3). apply elem_of_cons in Hc' as [->|Hc']; [congruence|by apply (IHb c' h' Hc')]. }
          right. intros c' h' Hc' (T1 & T2 & T3). apply elem_of_cons in Hc' as [->|Hc']; [apply Hne; by eapply has_id_fun|by apply (IHb c' h' Hc')].
        - right. intros c' h' Hc' (T1 & T2 & T3). apply elem_of_cons in Hc' as [->|Hc']; [|by apply (IHb c' h' Hc')].
          destruct T2 as (a & b & Hab & _). apply (Hn id). rewrite Hab. apply elem_of_app. right. apply elem_of_list_here. }
      assert (Hi : forall id' h, template_in (c :: before) id' h <-> template_in before id' h \/ (id' = id /\ h = k /\ forall c' h', c' ∈ before -> ~ is_template c' id h')).
      { intros id' h. split.
        - intros (a & c' & b & Ec & Hx & Hl). destruct a as [|x a]; injection Ec as -> ->; [|left; by exists a, c', b].
          right. destruct Hx as (_ & T2 & T3). assert (id' = id) as -> by (by eapply has_id_fun). split; [done|]. split; [congruence|exact Hl].
        - intros [(a & c' & b & -> & Hx & Hl)|(-> & -> & Hl)]; [by exists (c :: a), c', b|]. by exists [], c, before. }
      intros name h. rewrite S3. split.
      * intros [(id' & -> & Hx)|[Hx1 Hx2]]; [left; exists id'; split; [done|]; apply Hi; by left|].
        destruct (decide (name = "#" +:+ id)) as [->|Hne].
        -- assert (Eh : Some h = Some k) by (etransitivity; [symmetry; exact Hx2|exact (lookup_insert ts ("#" +:+ id) k)]). injection Eh as ->. left. exists id. split; [done|]. apply Hi. right. split; [done|]. split; [done|].
           destruct Hdec as [(h & Hh)|Hd]; [exfalso; by apply (Hx1 id h)|done].
        -- right. split; [|etransitivity; [symmetry; exact (lookup_insert_ne ts ("#" +:+ id) name k ltac:(congruence))|exact Hx2]].
           intros id' h' En Hin. apply Hi in Hin as [Hin|(-> & _)]; [by apply (Hx1 id' h')|done].
      * intros [(id' & -> & Hx)|[Hx1 Hx2]].
        -- apply Hi in Hx as [Hx|(-> & -> & Hl)]; [left; by exists id'|]. right. split; [|exact (lookup_insert ts ("#" +:+ id) k)].
           intros id' h' En. apply hash_inj in En as <-. intros (a & c' & b & Eb & Hx & _). apply (Hl c' h'); [|done]. rewrite Eb. apply elem_of_app. right. apply elem_of_list_here.
        -- right. split; [intros id' h' En Hin; apply (Hx1 id' h' En); apply Hi; by left|].
           etransitivity; [|exact Hx2]. apply (lookup_insert_ne ts ("#" +:+ id) name k). intros <-.
           destruct Hdec as [(h' & Hh)|Hd]; [apply (Hx1 id h' eq_refl); apply Hi; by left|]. apply (Hx1 id k eq_refl). apply Hi. by right.
    + destruct (String.eqb_spec (h_tag c) "body") as [Hb|Hb].
      * injection H as <- <-. exists []. split; [split; [intros c' Hc'; by apply elem_of_nil in Hc'|left; by exists l]|].
        assert (Hno : forall id h, ~ template_in [] id h) by (intros id h (a & c' & b & H & _); by destruct a).
        intros name h. split; [intros Hx; right; split; [intros; apply Hno|done]|]. intros [(id & _ & Hx)|[_ Hx]]; [by apply Hno in Hx|done].
      * apply Hskip; [done| |exact H]. intros id h (T & _). done.
Qed.
Theorem document_scanned doc templates body : scan_document (h_children doc) ∅ = (templates, body) -> document_templates doc templates body.
Proof.
  intros H. destruct (scan_templates _ _ _ _ H) as (before & Hs & Ht). exists before. split; [done|]. intros name h. rewrite Ht. split; [|by left].
  intros [Hx|[_ Hx]]; [done|]. exfalso. assert (E : Some h = None) by (etransitivity; [symmetry; exact Hx|exact (lookup_empty name)]). discriminate E.
Qed.

Lemma split_fun l : forall before body before' body', split_at_body l before body -> split_at_body l before' body' -> before' = before /\ body' = body.
Proof.
  induction l as [|c l IH]; intros before body before' body' [A1 A2] [B1 B2].
  - destruct A2 as [(after & E & _)|[<- ->]]; [by destruct before|]. destruct B2 as [(after & E & _)|[<- ->]]; [by destruct before'|]. done.
  - destruct (String.eqb_spec (h_tag c) "body") as [Hc|Hc].
    + assert (Hb : forall b0 bd, (forall c', c' ∈ b0 -> h_tag c' <> "body") -> (exists after, c :: l = b0 ++ bd :: after /\ h_tag bd = "body") \/ (c :: l = b0 /\ bd = mkHtml "" [] None []) -> b0 = [] /\ bd = c).
      { intros b0 bd H1 [(after & E & _)|[<- _]].
        - destruct b0 as [|x b0]; injection E as -> _; [done|]. exfalso. apply (H1 x); [apply elem_of_list_here|done].
        - exfalso. apply (H1 c); [apply elem_of_list_here|done]. }
      destruct (Hb _ _ A1 A2) as [-> ->]. by apply Hb.
    + assert (Hb : forall b0 bd, split_at_body (c :: l) b0 bd -> exists b1, b0 = c :: b1 /\ split_at_body l b1 bd).
      { intros b0 bd [H1 [(after & E & Ht)|[<- ->]]].
        - destruct b0 as [|x b0]; injection E as -> ->; [done|]. exists b0. split; [done|]. split; [intros c' Hin; apply H1; by right|left; by exists after].
        - exists l. split; [done|]. split; [intros c' Hin; apply H1; by right|by right]. }
      destruct (Hb _ _ (conj A1 A2)) as (b1 & -> & H1). destruct (Hb _ _ (conj B1 B2)) as (b2 & -> & H2). destruct (IH _ _ _ _ H1 H2) as [-> ->]. done.
Qed.
Lemma document_fun doc templates body templates' body' : document_templates doc templates body -> document_templates doc templates' body' -> templates' = templates /\ body' = body.
Proof.
  intros (before & Hs & Ht) (before' & Hs' & Ht'). destruct (split_fun _ _ _ _ _ Hs Hs') as [-> ->]. split; [|done].
  apply map_eq. intros name. apply option_eq. intros h. by rewrite Ht, Ht'.
Qed.

(** ** What is loaded *)
Lemma carries_at read t r n : (exists rules, get_ctx t n = Some (elem_of read n r <| e_styles := rules |>)) ->
  (forall i m k, SpecRender.place (S n) (kids_of r) !! i = Some m -> kids_of r !! i = Some k -> carries read t m k) -> carries read t n r.
Proof.
  intros He Hk. destruct r as [spans|src|tag binds kids marks]; cbn [carries]; (split; [exact He|]); [done..|]. cbn [kids_of] in Hk. clear He. revert Hk.
  generalize (S n). induction kids as [|k kids IH]; intros m Hk; [done|]. split; [by apply (Hk 0)|]. apply IH. intros i m' k' H1 H2. by apply (Hk (S i)).
Qed.
Lemma stands_carries read t0 t rn : forall par n, stands read t0 par n rn -> 
  (forall m e, n <= m < n + rsize rn -> get_ctx t0 m = Some e -> exists rules, get_ctx t m = Some (e <| e_styles := rules |>)) -> carries read t n rn.
Proof.
  induction rn as [spans|src|tag binds kids marks IH] using rnode_ind'; intros par n Hs He; apply carries_at; try done.
  1-3: apply He; [cbn; try (rewrite rsize_elem); lia|]; apply stands_root in Hs; unfold get_ctx; rewrite Hs; done.
  cbn [kids_of]. intros i m k Hm Hk. pose proof Hs as Hs'. rewrite stands_eq in Hs'. destruct Hs' as [_ Hall]. cbn [kids_of] in Hall.
  rewrite List.Forall_forall in IH. apply (IH k ltac:(apply elem_of_list_In; by eapply elem_of_list_lookup_2) (Some n) m); [exact (stand_all_lookup _ _ _ _ _ _ _ _ Hall Hm Hk)|].
  intros m' e Hr. apply He. rewrite rsize_elem.
  assert (Hge : S n <= m) by (eapply (place_ge (S n) kids); apply elem_of_list_In; by eapply elem_of_list_lookup_2).
  assert (Hbound : m + rsize k <= S n + rsizes kids); [|lia].
  clear - Hm Hk. revert Hm Hk. generalize (S n). revert i. induction kids as [|k0 l IH]; intros i a; [done|].
  destruct i as [|i]; cbn; [intros [= <-] [= <-]; lia|]. intros H1 H2. specialize (IH _ _ H1 H2). lia.
Qed.
Lemma hide_all ric l : forall t ids t' ids', live t 0 -> Forall (reaction_ok t) l -> (forall r, In r l -> exists q c, r = RReattach q c false) ->
  update_trees ric (t, ids) l = Ok (t', ids') ->
  (forall n, get_ctx t' n = get_ctx t n) /\ (forall q c, c ∈ attached t' q <-> c ∈ attached t q /\ ~ In (RReattach q c false) l).
Proof.
  induction l as [|r l IH]; intros t ids t' ids' Hl Hok Hr H.
  - injection H as <- <-. split; [done|]. intros q c. split; [intros Hc; split; [done|intros []]|by intros []].
  - inversion Hok as [|? ? Hr0 Hok']; subst. unfold update_trees in H. cbn [foldR] in H. apply bindR_Ok in H as ([t1 ids1] & H1 & H).
    destruct (update_tree_ok ric t ids 0 r Hl Hr0) as (t2 & H2 & Hl1 & Hs1 & He). rewrite H1 in H2. injection H2 as -> ->.
    destruct (IH _ _ _ _ Hl1 ltac:(eapply Forall_impl; [|exact Hok']; intros r' Hr'; by eapply reaction_ok_def) ltac:(intros r' Hin; apply Hr; by right) H) as [I1 I2].
    destruct (Hr r ltac:(by left)) as (q0 & c0 & ->). destruct Hr0 as (e & Hge & Hc & Htag). cbn [update_tree] in H1. apply bindR_Ok in H1 as (t3 & H1 & E). injection E as ->.
    destruct (reattach_ok t 0 q0 c0 e false Hl Hge Hc Htag) as (t4 & R1 & _ & _ & R2 & R3 & _). rewrite H1 in R1. injection R1 as <-.
    split; [intros n; by rewrite I1|]. intros q c. rewrite I2, R3. destruct (decide (q = q0 /\ c = c0)) as [[-> ->]|Hne].
    + split; [by intros [? _]|]. intros [_ Hn]. exfalso. apply Hn. by left.
    + split; intros [A B]; (split; [done|]); intros Hin; apply B; [|by right]. destruct Hin as [E|Hin]; [|done]. exfalso. apply Hne. by injection E as -> ->.
Qed.
Theorem loaded_page X fuel doc css v0 templates body : from_document X fuel doc css = Ok v0 -> document_templates doc templates body -> clean templates body ->
  exists rn, SpecRender.meaning (x_translate X) templates fuel ∅ body = Some rn /\ flat (v_bindings v0) ≡ₚ bindings_of 1 rn /\
    v_root v0 = 0 /\ v_body v0 = 1 /\ attached (v_tree v0) 0 = [1] /\ carries (x_read_inline_css X) (v_tree v0) 1 rn /\
    forall q c, q <> 0 -> (c ∈ attached (v_tree v0) q <-> c ∈ defined (v_tree v0) q /\ ~ conditional (v_bindings v0) q c).
Proof.
  intros H0 Hdoc Hcl. pose proof (from_document_sound _ _ _ _ _ H0) as Hso. unfold from_document in H0. destruct (scan_document _ _) as [templates' body'] eqn:Hscan.
  apply document_scanned in Hscan. destruct (document_fun _ _ _ _ _ Hdoc Hscan) as [-> ->].
  apply bindR_Ok in H0 as ([[r root] b] & Hr & H). apply bindR_Ok in H as (d & Hd & H). apply bindR_Ok in H as (t & Ht & H).
  apply bindR_Ok in H as ([t' ids] & Ha & H). injection H as <-. cbn [v_bindings v_tree v_ids v_css v_body v_root] in *.
  pose proof (render_agree (x_read_inline_css X) (x_translate X) templates fuel body Hcl) as Hag. rewrite Hr in Hag.
  destruct (SpecRender.meaning _ _ _ _ _) as [rn|] eqn:Hm; [|done]. destruct Hag as (-> & -> & Hre & _ & _ & Hso' & Hfl & _).
  pose proof (render_any _ _ _ _ _ _ _ _ Hr) as (rn' & ps & Hmk & _ & _ & Hre' & _ & _ & Hfl' & _).
  pose proof (stylesheet_shown _ _ _ _ _ _ Ht) as Hsh. destruct (rendered_live _ _ _ Hmk Hre') as (Hl & Hat & H1).
  pose proof (shown_live _ _ _ Hsh Hl) as Hlt.
  assert (Hok : Forall (reaction_ok t) (default_reactions (r_bindings r))).
  { apply default_reactions_ok. intros p b Hb. eapply binding_ok_def; [by apply shown_def|]. eapply stands_bindings_ok; [apply (re_stands _ _ _ Hre')|done|].
    apply elem_of_list_In. rewrite <- Hfl'. by apply elem_of_list_In. }
  destruct (hide_all (x_read_inline_css X) _ t (r_static_id r) t' ids Hlt Hok) as [A1 A2]; [|exact Ha|].
  { intros x Hx. apply default_reactions_in in Hx as (p & b & q & c & v & _ & _ & ->). by exists q, c. }
  assert (Hroot : forall c, ~ In (RReattach 0 c false) (default_reactions (r_bindings r))).
  { intros c Hin. rewrite List.Forall_forall in Hok. apply Hok in Hin as (e & He & Hc & _). 
    destruct (live_root _ _ Hlt) as [Hd0 _]. unfold defined in Hd0. rewrite He in Hd0. rewrite Hd0 in Hc. by apply elem_of_nil in Hc. }
  assert (Hctx : forall m e, 1 <= m < 1 + rsize rn -> get_ctx (r_tree r) m = Some e -> exists rules, get_ctx t' m = Some (e <| e_styles := rules |>)).
  { intros m e Hr1 Hg. assert (Hlt1 : 1 < t_next (r_tree r)) by (rewrite (re_next _ _ _ Hre); pose proof (rsize_pos rn); lia).
    destruct (calculate_spec _ _ _ _ _ Hl _ _ _ Hlt1 Ht (shown_refl _)) as (C1 & _ & _). rewrite A1, (C1 m), Hg; [|eapply rendered_under; [exact Hmk|exact Hre'|lia|rewrite (re_next _ _ _ Hre); lia]].
    cbn [fmap option_fmap option_map]. eexists. reflexivity. }
  exists rn. do 4 (split; [done|]). split; [|split].
  - assert (Hin : forall c, c ∈ attached t' 0 <-> c = 1).
    { intros c. rewrite A2, (shown_attached _ _ _ Hsh), H1, elem_of_list_singleton. split; [by intros [-> _]|]. intros ->. split; [done|apply Hroot]. }
    pose proof (so_live _ Hso) as Hl'. cbn [v_tree v_root] in Hl'. pose proof (proj1 (live_once _ _ Hl' 0)) as Hnd.
    destruct (attached t' 0) as [|a [|b l]] eqn:E.
    + exfalso. apply (elem_of_nil 1). by apply Hin.
    + f_equal. apply Hin. apply elem_of_list_here.
    + exfalso. apply list.NoDup_cons in Hnd as [Hnd _]. apply Hnd. rewrite (proj1 (Hin a) ltac:(apply elem_of_list_here)), <- (proj1 (Hin b) ltac:(apply elem_of_list_further, elem_of_list_here)). apply elem_of_list_here.
  - eapply stands_carries; [exact (re_stands _ _ _ Hre)|exact Hctx].
  - intros q c Hq. rewrite A2. rewrite (shown_attached _ _ _ Hsh), (Hat q Hq).
    assert (Hdef : defined t' q = defined (r_tree r) q).
    { unfold defined. rewrite A1. pose proof (same_def_defined _ _ q (shown_def _ _ Hsh)) as Hd'. unfold defined in Hd'. done. }
    rewrite Hdef. split; intros [B1 B2]; (split; [done|]).
    + intros (p & b & vis & Hin & Hb). apply B2. apply default_reactions_in. by exists p, b, q, c, vis.
    + intros Hin. apply B2. apply default_reactions_in in Hin as (p & b & q' & c' & vis & Hin & Hb & E). injection E as <- <-. by exists p, b, vis.
Qed.

(** ** Inline styles at load time (C55) *)
Section all_binds.
  Context (P : rbind -> Prop).
  Fixpoint all_binds (r : rnode) : Prop :=
    match r with
    | RElem _ binds kids _ => (forall b, In b binds -> P b) /\ (fix go (l : list rnode) : Prop := match l with [] => True | k :: l => all_binds k /\ go l end) kids
    | _ => True
    end.
  Lemma all_binds_elem tag binds kids marks : all_binds (RElem tag binds kids marks) <-> (forall b, In b binds -> P b) /\ forall k, In k kids -> all_binds k.
  Proof.
    cbn. apply and_iff_compat_l. induction kids as [|k l IH]; [split; [intros _ k []|done]|]. rewrite IH. split.
    - intros [H1 H2] k' [<-|Hin]; [done|by apply H2].
    - intros H. split; [apply H; by left|]. intros k' Hin. apply H. by right.
  Qed.
End all_binds.
Lemma kid_bindings_at l : forall m i c k, SpecRender.place m l !! i = Some c -> l !! i = Some k -> forall x, In x (bindings_of c k) -> In x (kid_bindings m l).
Proof.
  induction l as [|k0 l IH]; intros m i c k; [done|]. destruct i as [|i]; cbn.
  - intros [= <-] [= <-] x Hx. apply in_app_iff. by left.
  - intros H1 H2 x Hx. apply in_app_iff. right. by eapply IH.
Qed.
Lemma find_node read t rn : forall par n m, stands read t par n rn -> n <= m < n + rsize rn -> exists par' rk,
  stands read t par' m rk /\ (forall P, all_binds P rn -> all_binds P rk) /\ (forall x, In x (bindings_of m rk) -> In x (bindings_of n rn)).
Proof.
  induction rn as [spans|src|tag binds kids marks IH] using rnode_ind'; intros par n m Hs Hm.
  1,2: cbn in Hm; assert (m = n) as -> by lia; eauto.
  destruct (decide (m = n)) as [->|Hne]; [eauto|]. rewrite rsize_elem in Hm. destruct (place_cover kids (S n) m) as (i & c & k & Hc & Hk & Hr); [lia|].
  pose proof Hs as Hs'. rewrite stands_eq in Hs'. destruct Hs' as [_ Hall]. cbn [kids_of] in Hall. pose proof (stand_all_lookup _ _ _ _ _ _ _ _ Hall Hc Hk) as Hsc.
  assert (Hin : In k kids) by (apply elem_of_list_In; by eapply elem_of_list_lookup_2).
  rewrite List.Forall_forall in IH. destruct (IH k Hin (Some n) c m Hsc Hr) as (par' & rk & H1 & H2 & H3). exists par', rk. split; [done|]. split.
  - intros P HP. apply H2. apply all_binds_elem in HP as [_ HP]. by apply HP.
  - intros x Hx. rewrite bindings_of_elem, !in_app_iff. right. right. eapply kid_bindings_at; [exact Hc|exact Hk|by apply H3].
Qed.
(** an attribute style="@..." holds a value of the data *)
Definition bound_style (b : rbind) : Prop :=
  match b with
  | RPlain k _ => k <> "style"
  | RAttr k spans => k = "style" -> exists p q s, In (RGet p q s) spans
  | _ => True
  end.
Lemma resolve_span_binder tr E text spans b : mapM (resolve_span tr E) text = Some spans -> TSBinder b ∈ text -> exists p q s, In (RGet p q s) spans.
Proof.
  intros H Hb. apply mapM_Some in H. apply elem_of_list_lookup in Hb as [i Hi]. destruct (Forall2_lookup_l _ _ _ _ _ H Hi) as (s & Hs & E'). cbn in E'.
  apply bind_Some in E' as (p & _ & [= <-]). do 3 eexists. apply elem_of_list_In. by eapply elem_of_list_lookup_2.
Qed.
Lemma resolve_bound E h binds : style_bound h -> resolve_bindings E (h_bindings h) = Some binds -> forall b, In b binds -> bound_style b.
Proof.
  intros Hs H b Hb. unfold resolve_bindings in H. apply bind_Some in H as (l & H & [= <-]). apply elem_of_list_In, elem_of_list_omap in Hb as (ob & Hob & Eb). cbn in Eb. subst ob.
  apply mapM_Some in H. apply elem_of_list_lookup in Hob as [i Hi]. destruct (Forall2_lookup_r _ _ _ _ _ H Hi) as (eb & Heb & Er). apply elem_of_list_lookup_2 in Heb.
  destruct eb as [k v|x b0|k b0|k text|x n0 b0|ev args|x b0]; cbn [resolve_binding] in Er; try done.
  - injection Er as <-. done.
  - apply bind_Some in Er as (p & _ & [= <-]). done.
  - destruct (as_simple_text text) as [v|] eqn:Est.
    + injection Er as <-. cbn. intros ->. destruct (Hs _ Heb) as [b1 Hb1]. destruct text as [|[s|b2] [|? ?]]; try done. apply elem_of_list_singleton in Hb1. done.
    + apply bind_Some in Er as (spans & Hsp & [= <-]). cbn. intros ->. destruct (Hs _ Heb) as [b1 Hb1]. by eapply resolve_span_binder.
  - apply bind_Some in Er as (args' & _ & [= <-]). done.
Qed.
Lemma gather_kids l : forall k kids marks, gather k l = (kids, marks) -> kids = List.concat (map fst l).
Proof.
  induction l as [|[ks ms] l IH]; intros k kids marks H; cbn in H; [by injection H as <- <-|]. destruct (gather _ l) as [kids' marks'] eqn:E. injection H as <- <-. cbn. by rewrite (IH _ _ _ E).
Qed.
Lemma linked_body_styles templates h c c' : styles_bound templates h -> In c (h_children h) -> linked templates c = Some c' -> styles_bound templates c'.
Proof.
  intros [_ H] Hc Hl. split; [apply H; by eapply inside_child|]. intros d Hd. apply H. by eapply inside_below.
Qed.
Lemma meaning_bound translate templates fuel : forall E h rn, styles_bound templates h -> SpecRender.meaning translate templates fuel E h = Some rn -> all_binds bound_style rn.
Proof.
  induction fuel as [|fuel IH]; intros E h rn Hs H; [done|]. cbn [SpecRender.meaning] in H. destruct (h_text h); [apply bind_Some in H as (spans & _ & [= <-]); done|].
  apply bind_Some in H as (binds & Hb & H). pose proof (resolve_bound _ _ _ (proj1 Hs) Hb) as Hbs.
  destruct (String.eqb _ _); [injection H as <-; apply all_binds_elem; split; [done|]; intros k [<-|[]]; done|].
  destruct (existsb _ _); [injection H as <-; apply all_binds_elem; split; [done|intros k []]|].
  apply bind_Some in H as (groups & Hg & H). destruct (gather 0 groups) as [kids marks] eqn:Eg. injection H as <-. apply all_binds_elem. split; [done|].
  rewrite (gather_kids _ _ _ _ Eg). intros k Hk. apply in_concat in Hk as (ks & Hks & Hk). apply in_map_iff in Hks as ([ks' ms] & <- & Hin). cbn [fst] in Hk.
  apply mapM_Some in Hg. apply elem_of_list_In, elem_of_list_lookup in Hin as [i Hi]. destruct (Forall2_lookup_r _ _ _ _ _ Hg Hi) as (c & Hci & Hc).
  assert (Hch : In c (h_children h)) by (apply elem_of_list_In; by eapply elem_of_list_lookup_2).
  apply bind_Some in Hc as (c' & Hl & Hc). pose proof (linked_body_styles _ _ _ _ Hs Hch Hl) as Hsc.
  apply bind_Some in Hc as ([E' names] & _ & Hc). destruct (as_visibility c') as [[vis b]|].
  - apply bind_Some in Hc as (p & _ & Hc). apply bind_Some in Hc as (k0 & Hk0 & [= <- <-]). destruct Hk as [<-|[]]. by eapply IH.
  - destruct (as_repeat c') as [[[name count] b]|].
    + apply bind_Some in Hc as (p & _ & Hc). apply bind_Some in Hc as (ks & Hks & [= <- <-]). apply mapM_Some in Hks.
      apply elem_of_list_In, elem_of_list_lookup in Hk as [j Hj]. destruct (Forall2_lookup_r _ _ _ _ _ Hks Hj) as (a & _ & Ha). by eapply IH.
    + apply bind_Some in Hc as (k0 & Hk0 & [= <- <-]). destruct Hk as [<-|[]]. by eapply IH.
Qed.
Lemma span_bound (mk : nat -> BindingParams) spans : forall i, (exists p q s, In (RGet p q s) spans) -> exists p b j, In (p, b) (span_bindings mk i spans) /\ bd_params b = mk j.
Proof.
  induction spans as [|[s|p q s] spans IH]; intros i (p' & q' & s' & Hin); [done|..]; cbn [span_bindings].
  - destruct Hin as [E|Hin]; [done|]. apply IH. eauto.
  - exists p, (mkBinding (mk i) q), i. split; [by left|done].
Qed.
Lemma loaded_follows X fuel doc css v0 templates body n : from_document X fuel doc css = Ok v0 -> document_templates doc templates body -> clean templates body ->
  styles_bound templates body -> (forall p b, In (p, b) (flat (v_bindings v0)) -> forall i, bd_params b <> BAttribute n "style" i) ->
  follows (x_read_inline_css X) n (v_tree v0).
Proof.
  intros H0 Hdoc Hcl Hsb Hno. destruct (loaded_page _ _ _ _ _ _ _ H0 Hdoc Hcl) as (rn & Hm & Hfl & _).
  pose proof (meaning_bound _ _ _ _ _ _ Hsb Hm) as Hab.
  unfold from_document in H0. destruct (scan_document _ _) as [templates' body'] eqn:Hscan.
  apply document_scanned in Hscan. destruct (document_fun _ _ _ _ _ Hdoc Hscan) as [-> ->].
  apply bindR_Ok in H0 as ([[r root] b] & Hr & H). apply bindR_Ok in H as (d & Hd & H). apply bindR_Ok in H as (t & Ht & H).
  apply bindR_Ok in H as ([t' ids] & Ha & H). injection H as <-. cbn [v_bindings v_tree v_ids v_css v_body v_root] in *.
  pose proof (render_agree (x_read_inline_css X) (x_translate X) templates fuel body Hcl) as Hag. rewrite Hr, Hm in Hag. destruct Hag as (-> & -> & Hre & _).
  pose proof (render_any _ _ _ _ _ _ _ _ Hr) as (rn' & ps & Hmk & _ & _ & Hre' & _ & _ & Hfl' & _).
  pose proof (stylesheet_shown _ _ _ _ _ _ Ht) as Hsh. destruct (rendered_live _ _ _ Hmk Hre') as (Hl & Hat & H1).
  pose proof (shown_live _ _ _ Hsh Hl) as Hlt.
  assert (Hok : Forall (reaction_ok t) (default_reactions (r_bindings r))).
  { apply default_reactions_ok. intros p b Hb. eapply binding_ok_def; [by apply shown_def|]. eapply stands_bindings_ok; [apply (re_stands _ _ _ Hre')|done|].
    apply elem_of_list_In. rewrite <- Hfl'. by apply elem_of_list_In. }
  eapply (trees_keep (x_read_inline_css X) (follows (x_read_inline_css X) n)); [|exact Hlt|exact Hok|exact Ha|].
  { intros x Hx. apply keeps_follows. intros fl ->. apply default_reactions_in in Hx as (p & b & q & c & v & _ & _ & E). discriminate E. }
  intros s ds Hs Hds. unfold attr in Hs. rewrite bind_Some in Hs. destruct Hs as (e & He & Hs).
  assert (Hlt1 : 1 < t_next (r_tree r)) by (rewrite (re_next _ _ _ Hre); pose proof (rsize_pos rn); lia).
  pose proof (live_lt _ _ _ _ Hlt He) as Hn. destruct (decide (n = 0)) as [->|Hn0].
  { assert (Hsh0 := shown_ctx _ _ 0 Hsh). rewrite He in Hsh0. unfold get_ctx in Hsh0. rewrite (re_root _ _ _ Hre) in Hsh0. 
    injection Hsh0 as _ _ _ _ E _ _ _. rewrite <- E in Hs. exfalso. assert (X0 : Some s = None) by (etransitivity; [symmetry; exact Hs|exact (lookup_empty "style")]). discriminate X0. }
  assert (Hn' : n < t_next (r_tree r)) by (destruct Hsh as [-> _]; done).
  destruct (calculate_spec _ _ _ _ _ Hl _ _ _ Hlt1 Ht (shown_refl _)) as (C1 & _ & _). 
  destruct (find_node _ _ _ _ _ n (re_stands _ _ _ Hre)) as (par' & rk & Hrk & Hall & Hsub); [rewrite (re_next _ _ _ Hre) in Hn'; lia|].
  rewrite (C1 n) in He by (by eapply rendered_under). apply stands_root in Hrk. unfold get_ctx in He. rewrite Hrk in He. cbn [fmap option_fmap option_map mbind option_bind n_ctx] in He.
  unfold inline. rewrite (C1 n) by (by eapply rendered_under). unfold get_ctx. rewrite Hrk. cbn [fmap option_fmap option_map mbind option_bind n_ctx]. f_equal.
  injection He as <-. rewrite rules_inline. change (e_attrs (elem_of (x_read_inline_css X) n rk) !! "style" = Some s) in Hs. apply Hall in Hab.
  destruct rk as [spans|src|tag binds kids marks].
  1,2: exfalso; assert (X0 : Some s = None) by (etransitivity; [symmetry; exact Hs|exact (lookup_empty "style")]); discriminate X0.
  apply all_binds_elem in Hab as [Hab _]. unfold elem_of in *. cbn [e_attrs e_style set] in *. revert Hs Hds. apply rbinds_follow.
  - intros b Hb. pose proof (Hab _ Hb) as Hbs. destruct b as [k v|k v|k p q|k spans|ev args]; try done. cbn in Hbs. intros ->. specialize (Hbs eq_refl).
    destruct (span_bound (BAttribute n "style") spans 0 Hbs) as (p & bd & j & Hin & Ej). eapply (Hno p bd); [|exact Ej].
    apply elem_of_list_In. rewrite Hfl. apply elem_of_list_In. apply Hsub. rewrite bindings_of_elem, in_app_iff. left. apply in_flat_map. by exists (RAttr "style" spans).
  - intros s' ds' Hs'. exfalso. assert (X0 : Some s' = None) by (etransitivity; [symmetry; exact Hs'|exact (lookup_empty "style")]). discriminate X0.
Qed.
(** C55: the inline style is the meaning of the attribute *)
Theorem style_follows X fuel doc css v0 templates body hist v log n : from_document X fuel doc css = Ok v0 -> document_templates doc templates body -> clean templates body ->
  styles_bound templates body -> reacted X fuel v0 hist v log ->
  (forall p b, In (p, b) (flat (v_bindings v0)) -> bd_params b <> BTag n "style") ->
  ((forall p b i, In (p, b) (flat (v_bindings v0)) -> bd_params b <> BAttribute n "style" i) \/ (exists i x, In (RBind n "style" i x) log)) ->
  follows (x_read_inline_css X) n (v_tree v).
Proof.
  intros H0 Hdoc Hcl Hsb Hre Hno [Hna|Hlog]; [|by eapply follows_reacted].
  pose proof (loaded_follows _ _ _ _ _ _ _ n H0 Hdoc Hcl Hsb) as Hf. destruct (reacted_updates _ _ _ _ _ _ Hre) as [os Hos].
  eapply follows_history; [exact H0|exact Hos|exact Hno|]. apply Hf. intros p b Hin i. by eapply Hna.
Qed.
