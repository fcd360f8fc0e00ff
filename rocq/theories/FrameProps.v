(** * Key frames (C36). *)
From stdpp Require Import gmap.
From RecordUpdate Require Import RecordUpdate.
From Coq Require Import ZArith Reals Lia Lra Sorted.
From Flocq Require Import Core.Core IEEE754.BinarySingleNaN.
From Verif Require Import Str F32 Res ResFacts PropKey Css Element Cascade Initial Animation FloatFacts AnimFloat AnimationFacts SpecAnim AnimProps.
Close Scope R_scope.

(** ** Sorted maps *)
Section zmap.
  Context {A : Type}.
  Implicit Types m : list (Z * A).
  Lemma z_get_insert k k' v m : z_get k (z_insert k' v m) = if Z.eqb k k' then Some v else z_get k m.
  Proof.
    induction m as [|[j w] m IH]; cbn [z_insert z_get]; [done|]. destruct (Z.ltb_spec k' j) as [L|L]; cbn [z_get]; [done|].
    destruct (Z.eqb_spec k' j) as [->|N]; cbn [z_get]; [by destruct (Z.eqb k j)|]. rewrite IH. destruct (Z.eqb_spec k j) as [->|]; [|done]. by destruct (Z.eqb_spec j k') as [->|].
  Qed.
  Definition sorted (m : list (Z * A)) : Prop := StronglySorted Z.lt (map fst m).
  Lemma keys_insert k v m j : In j (map fst (z_insert k v m)) -> j = k \/ In j (map fst m).
  Proof.
    induction m as [|[i w] m IH]; cbn [z_insert map fst In]; [intuition|]. destruct (Z.ltb k i); cbn [map fst In]; [intuition|].
    destruct (Z.eqb_spec k i) as [->|]; cbn [map fst In]; intuition.
  Qed.
  Lemma sorted_insert k v m : sorted m -> sorted (z_insert k v m).
  Proof.
    unfold sorted. induction m as [|[i w] m IH]; cbn [z_insert map fst]; intros H; [by repeat constructor|].
    apply StronglySorted_inv in H as [H1 H2]. destruct (Z.ltb_spec k i) as [L|L]; cbn [map fst].
    - constructor; [by constructor|]. constructor; [done|]. eapply Forall_impl; [|exact H2]. cbn. lia.
    - destruct (Z.eqb_spec k i) as [->|N]; cbn [map fst]; [by constructor|]. constructor; [by apply IH|].
      apply List.Forall_forall. intros j Hj. apply keys_insert in Hj as [->|Hj]; [lia|]. rewrite List.Forall_forall in H2. by apply H2.
  Qed.
  Lemma z_get_none k m : ~ In k (map fst m) -> z_get k m = None.
  Proof. induction m as [|[i w] m IH]; cbn; [done|]. intros H. destruct (Z.eqb_spec k i) as [->|]; [tauto|]. apply IH. tauto. Qed.
  Lemma z_get_key k m v : z_get k m = Some v -> In k (map fst m).
  Proof. induction m as [|[i w] m IH]; cbn; [done|]. destruct (Z.eqb_spec k i) as [->|]; [auto|]. intros H. right. by apply IH. Qed.
  Lemma z_get_some k m : In k (map fst m) -> exists v, z_get k m = Some v.
  Proof. induction m as [|[i w] m IH]; cbn; [done|]. destruct (Z.eqb_spec k i) as [->|N]; [eauto|]. intros [E|H]; [congruence|]. by apply IH. Qed.
End zmap.
Lemma omap_keys {A B} (f : A -> option B) (m : list (Z * A)) j : In j (map fst (omap (fun '(k, s) => match f s with Some v => Some (k, v) | None => None end) m)) -> In j (map fst m).
Proof. induction m as [|[i w] m IH]; cbn; [done|]. destruct (f w); cbn; tauto. Qed.
Lemma omap_sorted {A B} (f : A -> option B) (m : list (Z * A)) : sorted m -> sorted (omap (fun '(k, s) => match f s with Some v => Some (k, v) | None => None end) m).
Proof.
  unfold sorted. induction m as [|[i w] m IH]; cbn [omap list_omap map fst]; [done|]. intros H. apply StronglySorted_inv in H as [H1 H2].
  destruct (f w) as [v|]; cbn [map fst]; [|by apply IH]. constructor; [by apply IH|]. apply List.Forall_forall. intros j Hj. apply omap_keys in Hj. rewrite List.Forall_forall in H2. by apply H2.
Qed.
Lemma omap_get {A B} (f : A -> option B) (m : list (Z * A)) k : sorted m ->
  z_get k (omap (fun '(k, s) => match f s with Some v => Some (k, v) | None => None end) m) = z_get k m ≫= f.
Proof.
  unfold sorted. induction m as [|[i w] m IH]; cbn [omap list_omap map fst z_get]; [done|]. intros H. apply StronglySorted_inv in H as [H1 H2].
  destruct (Z.eqb_spec k i) as [->|N].
  - cbn [mbind option_bind]. destruct (f w) as [v|] eqn:E; cbn [z_get].
    + by rewrite Z.eqb_refl.
    + apply z_get_none. intros Hi. apply omap_keys in Hi. rewrite List.Forall_forall in H2. apply H2 in Hi. lia.
  - destruct (f w) as [v|]; cbn [z_get]; [|by apply IH]. destruct (Z.eqb_spec k i); [done|]. by apply IH.
Qed.

(** ** Neighbours *)
Lemma neighbours_spec t ks : StronglySorted Z.lt ks -> forall a0 b0 lo hi, (lo = a0 \/ In lo ks) -> (lo <= t)%Z -> In hi ks -> (t <= hi)%Z -> (forall k, In k ks -> (a0 < k)%Z) -> (a0 <= t)%Z ->
  exists a b, neighbours t ks a0 b0 = (a, b) /\ (a = a0 \/ In a ks) /\ In b ks /\ (a <= t <= b)%Z /\ (lo <= a)%Z /\ (forall k, In k ks -> (a < k < b)%Z -> False) /\ (In t ks -> a = t /\ b = t) /\ (a < t -> t < b \/ In t ks)%Z.
Proof.
  induction 1 as [|s ks Hs IH Hf]; intros a0 b0 lo hi Hlo Hlt Hhi Hle Hk Ha; [done|]. cbn [neighbours]. rewrite List.Forall_forall in Hf.
  destruct (Z.leb_spec t s) as [Hts|Hts].
  - eexists _, s. split; [reflexivity|]. destruct (Z.leb_spec s t) as [E|E].
    + assert (s = t) by lia. subst s. split; [right; left; done|]. split; [left; done|]. split; [lia|]. split; [|split; [intros; lia|split; [done|lia]]].
      lia.
    + split; [by left|]. split; [left; done|]. split; [lia|]. split.
      * destruct Hlo as [->|[->|Hin]]; [lia|lia|]. apply Hf in Hin. lia.
      * split; [intros k [<-|Hin] Hb; [lia|apply Hf in Hin; lia]|]. split; [intros [<-|Hin]; [lia|apply Hf in Hin; lia]|]. intros _. left. lia.
  - destruct (Z.leb_spec s t) as [E|E]; [|lia]. assert (Hhi' : In hi ks) by (destruct Hhi as [->|?]; [lia|done]).
    destruct (IH s b0 (Z.max lo s) hi) as (a & b & En & Ia & Ib & R & L & G & X & Y).
    + destruct Hlo as [->|[->|Hin]]; [left; specialize (Hk s ltac:(left; done)); lia|left; lia|right; pose proof (Hf _ Hin); by replace (Z.max lo s) with lo by lia].
    + lia.
    + done.
    + done.
    + intros k Hin. by apply Hf.
    + lia.
    + exists a, b. split; [exact En|]. split; [right; destruct Ia as [->|Ia]; [left; done|right; done]|]. split; [right; done|]. split; [exact R|]. split; [lia|].
      split; [intros k [<-|Hin] Hb; [|by apply (G k)]; lia|]. split; [intros [<-|Hin]; [lia|by apply X]|]. intros Hat. destruct (Y Hat) as [|Hin]; [by left|right; right; done].
Qed.
Lemma track_shows d (fr : list (Z * ComputedValue)) t (s : ComputedStyle) : sorted fr -> In 0%Z (map fst fr) -> In 100%Z (map fst fr) -> Forall (fun k => (0 <= k)%Z) (map fst fr) -> (0 <= t <= 100)%Z ->
  exists v, play_track (mkTrack d fr) t s = Ok (<[d := v]> s) /\ shows_frame (fun k => z_get k fr) t v.
Proof.
  unfold sorted. intros Hs H0 H100 Hn Ht. unfold play_track. cbn [tr_frames tr_descriptor]. rewrite List.Forall_forall in Hn.
  (* the first frame is 0: continue from there *)
  destruct fr as [|[k0 v0] fr]; [done|]. assert (k0 = 0%Z).
  { cbn [map fst] in *. destruct H0 as [H0|H0]; [done|]. apply StronglySorted_inv in Hs as [_ Hf]. rewrite List.Forall_forall in Hf. apply Hf in H0. pose proof (Hn k0 ltac:(left; done)) as Q. cbn [fst] in H0. lia. }
  subst k0. set (full := (0%Z, v0) :: fr) in *.
  destruct (neighbours_spec t (map fst fr)) with (a0 := 0%Z) (b0 := 0%Z) (lo := 0%Z) (hi := 100%Z) as (a & b & En & Ia & Ib & R & _ & G & X & Y); try lia.
  { by apply StronglySorted_inv in Hs as [Hs _]. }
  { cbn [map fst full] in H100. destruct H100 as [H100|H100]; [lia|done]. }
  { intros k Hk. apply StronglySorted_inv in Hs as [_ Hf]. rewrite List.Forall_forall in Hf. by apply Hf. }
  unfold full at 1. cbn [map fst neighbours]. destruct (Z.leb_spec 0 t) as [_|]; [|lia]. destruct (Z.leb_spec t 0) as [Z0|Z0].
  - assert (t = 0%Z) by lia. subst t. cbn [Z.ltb Z.compare]. cbn [full z_get Z.eqb]. unfold unwrap. cbn [bindR]. exists v0. split; [done|]. constructor. done.
  - rewrite En. assert (Ia' : In a (map fst full)) by (cbn [full map fst]; destruct Ia as [->|Ia]; [left|right]; done). assert (Ib' : In b (map fst full)) by (right; done).
    destruct (z_get_some _ _ Ia') as (va & Ea). destruct (z_get_some _ _ Ib') as (vb & Eb). rewrite Ea, Eb. unfold unwrap. cbn [bindR].
    destruct (Z.ltb_spec a b) as [L|L].
    + eexists. split; [reflexivity|]. assert (At : (a < t)%Z). { destruct (Z.eq_dec a t) as [Eat|]; [|lia]. exfalso. destruct Ia as [Ea0|Ia]; [lia|]. rewrite Eat in Ia. apply X in Ia as [_ Eb2]. lia. }
      assert (Nt : ~ In t (map fst fr)) by (intros Hin; apply X in Hin as [E1 E2]; lia).
      assert (Tb : (t < b)%Z) by (destruct (Y At) as [|?]; [done|tauto]). apply shows_between; [lia|done|done|]. intros k Hk. apply z_get_none. cbn [full map fst]. intros [<-|Hin]; [destruct Ia as [->|Ia]; [lia|]|by apply (G k)].
      apply StronglySorted_inv in Hs as [_ Hf]. rewrite List.Forall_forall in Hf. apply Hf in Ia. cbn [fst] in Ia. lia.
    + exists va. split; [done|]. assert (a = t) by lia. subst a. by constructor.
Qed.

(** ** Tracks *)
Lemma fill_frame_at (ds : list Descriptor) (style fr : ComputedStyle) (d : Descriptor) : fill_frame ds style fr !! d =
  match fr !! d with Some x => Some x | None => if decide (d ∈ ds) then Some (default (initial (fst d)) (style !! d)) else None end.
Proof.
  change (foldl (fill1 style) fr ds !! d = match fr !! d with Some x => Some x | None => if decide (d ∈ ds) then Some (default (initial (fst d)) (style !! d)) else None end).
  revert fr. induction ds as [|d1 ds IH]; intros fr; cbn [foldl].
  - destruct (fr !! d); [done|]. destruct (decide (d ∈ [])) as [H|]; [|done]. by apply elem_of_nil in H.
  - rewrite IH, fill1_at. destruct (fr !! d); [done|]. destruct (decide (d1 = d)) as [->|N].
    + rewrite decide_True by apply elem_of_list_here. by destruct (style !! d).
    + destruct (decide (d ∈ ds)) as [H|H]; [rewrite decide_True by (by apply elem_of_list_further); done|]. rewrite decide_False; [done|].
      rewrite elem_of_cons. intros [->|]; done.
Qed.
Definition nonneg_keys {A} (m : list (Z * A)) : Prop := Forall (fun k => (0 <= k)%Z) (map fst m).
Lemma nonneg_insert {A} k (v : A) m : (0 <= k)%Z -> nonneg_keys m -> nonneg_keys (z_insert k v m).
Proof. unfold nonneg_keys. rewrite !List.Forall_forall. intros Hk H j Hj. apply keys_insert in Hj as [->|Hj]; [done|by apply H]. Qed.
Lemma fill_step_get (ds : list Descriptor) (style : ComputedStyle) step kfs k (d : Descriptor) : sorted kfs -> z_get k (fill_step ds style step kfs) ≫= (fun s : ComputedStyle => s !! d) =
  match z_get k kfs ≫= (fun s : ComputedStyle => s !! d) with Some v => Some v | None => if Z.eqb k step && bool_decide (d ∈ ds) then Some (default (initial (fst d)) (style !! d)) else None end.
Proof.
  intros Hs. unfold fill_step. rewrite z_get_insert. destruct (Z.eqb_spec k step) as [->|N]; cbn [andb].
  - cbn [mbind option_bind]. rewrite fill_frame_at. assert (E : (match z_get step kfs with Some f => f | None => ∅ end : ComputedStyle) !! d = z_get step kfs ≫= (fun s : ComputedStyle => s !! d)).
    { destruct (z_get step kfs); [done|]. exact (lookup_empty d). }
    rewrite E. destruct (z_get step kfs ≫= _); [done|]. destruct (decide (d ∈ ds)) as [H|H]; [by rewrite bool_decide_eq_true_2|by rewrite bool_decide_eq_false_2].
  - by destruct (z_get k kfs ≫= _).
Qed.
Lemma last_stop_snoc stops k s step : last_stop (stops ++ [(k, s)]) step = if Z.eqb k step then Some s else last_stop stops step.
Proof. unfold last_stop. by rewrite foldl_app. Qed.
Lemma collect fuel vars l : Forall (fun kf => (0 <= kf_step kf)%Z) l -> forall animated kfs,
  foldR (fun '(animated, kfs) kf => do! s <- keyframe_style fuel vars (kf_declaration kf); Ok (animated ∪ dom s, z_insert (kf_step kf) s kfs))
        ((∅ : gset Descriptor), ([] : list (Z * ComputedStyle))) l = Ok (animated, kfs) ->
  exists stops, Forall2 (fun kf '(step, s) => kf_step kf = step /\ keyframe_style fuel vars (kf_declaration kf) = Ok s) l stops /\
    sorted kfs /\ nonneg_keys kfs /\ (forall step, z_get step kfs = last_stop stops step) /\ (forall d : Descriptor, d ∈ animated <-> exists st s, In (st, s) stops /\ is_Some ((s : ComputedStyle) !! d)).
Proof.
  induction l as [|kf l IH] using rev_ind; intros Hk animated kfs H; [cbn [foldR] in H; injection H as <- <-|].
  - exists []. split; [constructor|]. split; [constructor|]. split; [constructor|]. split; [done|]. intros d. split; [by intros Hd%not_elem_of_empty|by intros (st & s & [] & _)].
  - rewrite foldR_app in H. apply bindR_Ok in H as ([an1 k1] & H1 & H). apply list.Forall_app in Hk as [Hk Hk1]. apply list.Forall_cons in Hk1 as [Hk1 _].
    destruct (IH Hk _ _ H1) as (stops & F & S & N & G & D). cbn [foldR] in H. apply bindR_Ok in H as ([an2 k2] & H2 & H). injection H as <- <-.
    apply bindR_Ok in H2 as (s & Hs & H2). injection H2 as <- <-. exists (stops ++ [(kf_step kf, s)]). split; [apply Forall2_app; [done|]; by constructor|].
    split; [by apply sorted_insert|]. split; [by apply nonneg_insert|]. split.
    + intros step. rewrite z_get_insert, last_stop_snoc, Z.eqb_sym. destruct (Z.eqb (kf_step kf) step); [done|]. apply G.
    + intros d. rewrite elem_of_union, D. split.
      * intros [(st & s' & Hi & Hd)|Hd]; [exists st, s'; split; [apply in_or_app; by left|done]|]. exists (kf_step kf), s. split; [apply in_or_app; right; left; done|]. exact (proj1 (elem_of_dom s d) Hd).
      * intros (st & s' & Hi & Hd). apply in_app_or in Hi as [Hi|[[= <- <-]|[]]]; [left; eauto|]. right. exact (proj2 (elem_of_dom s d) Hd).
Qed.
(** every track holds the frames given for its property *)
Theorem tracks_frames fuel vars an style trs : Forall (fun kf => (0 <= kf_step kf)%Z) (an_keyframes an) -> compute_animation_tracks fuel vars an style = Ok trs ->
  exists stops, stops_of fuel vars an stops /\ NoDup (map tr_descriptor trs) /\
  (forall d : Descriptor, d ∈ map tr_descriptor trs <-> exists st s, In (st, s) stops /\ is_Some ((s : ComputedStyle) !! d)) /\
  forall tr, tr ∈ trs -> sorted (tr_frames tr) /\ nonneg_keys (tr_frames tr) /\ forall step, z_get step (tr_frames tr) = frame_given stops style (tr_descriptor tr) step.
Proof.
  intros Hk H. unfold compute_animation_tracks in H. apply bindR_Ok in H as ([animated kfs] & Hf & H). injection H as <-.
  destruct (collect _ _ _ Hk _ _ Hf) as (stops & F & S & N & G & D). exists stops. split; [exact F|]. rewrite tracks_of_descriptors. split; [apply NoDup_elements|].
  split; [intros d; by rewrite elem_of_elements, D|]. intros tr Htr. unfold tracks_of in Htr. cbv zeta in Htr. apply elem_of_list_fmap in Htr as (d & -> & Hd). cbn [tr_frames tr_descriptor].
  set (k1 := fill_step (elements animated) style 0 kfs). assert (S1 : sorted k1) by by apply sorted_insert. set (k2 := fill_step (elements animated) style 100 k1). assert (S2 : sorted k2) by by apply sorted_insert.
  split; [by apply omap_sorted|]. split.
  - unfold nonneg_keys. rewrite List.Forall_forall. intros j Hj. apply omap_keys in Hj. assert (N2 : nonneg_keys k2) by (apply nonneg_insert; [lia|]; by apply nonneg_insert).
    unfold nonneg_keys in N2. rewrite List.Forall_forall in N2. by apply N2.
  - intros step. transitivity (z_get step k2 ≫= fun s : ComputedStyle => s !! d); [exact (omap_get (fun s : ComputedStyle => s !! d) k2 step S2)|].
    unfold k2. rewrite fill_step_get by done. unfold k1. rewrite fill_step_get by done. rewrite G. unfold frame_given. destruct (last_stop stops step ≫= _); [done|].
    rewrite !(bool_decide_eq_true_2 (d ∈ elements animated)) by done. rewrite !andb_true_r. destruct (Z.eqb step 0); [done|]. by destruct (Z.eqb step 100).
Qed.
Lemma play_tracks given t trs : NoDup (map tr_descriptor trs) -> (0 <= t <= 100)%Z ->
  (forall tr, tr ∈ trs -> sorted (tr_frames tr) /\ nonneg_keys (tr_frames tr) /\ is_Some (given (tr_descriptor tr) 0%Z) /\ is_Some (given (tr_descriptor tr) 100%Z) /\
    forall step, z_get step (tr_frames tr) = given (tr_descriptor tr) step) ->
  forall s, exists s', foldR (fun s track => play_track track t s) s trs = Ok s' /\
  (forall d : Descriptor, d ∈ map tr_descriptor trs -> exists v, (s' : ComputedStyle) !! d = Some v /\ shows_frame (given d) t v) /\
  (forall d : Descriptor, d ∉ map tr_descriptor trs -> (s' : ComputedStyle) !! d = s !! d).
Proof.
  intros Hnd Ht. induction trs as [|tr trs IH]; intros Hf s.
  - exists s. split; [done|]. split; [by intros d Hd%elem_of_nil|done].
  - cbn [map] in Hnd. apply list.NoDup_cons in Hnd as [Hni Hnd]. destruct (Hf tr ltac:(apply elem_of_list_here)) as (S & N & G0 & G100 & G).
    assert (H0 : In 0%Z (map fst (tr_frames tr))) by (destruct G0 as [v0 G0]; rewrite <- G in G0; by eapply z_get_key).
    assert (H1 : In 100%Z (map fst (tr_frames tr))) by (destruct G100 as [v1 G100]; rewrite <- G in G100; by eapply z_get_key).
    destruct (track_shows (tr_descriptor tr) (tr_frames tr) t s S H0 H1 N Ht) as (v & Ep & Sv). assert (Etr : mkTrack (tr_descriptor tr) (tr_frames tr) = tr) by by destruct tr. rewrite Etr in Ep.
    destruct (IH Hnd ltac:(intros x Hx; apply Hf; by apply elem_of_list_further) (<[tr_descriptor tr := v]> s)) as (s' & Ef & Hin & Hout).
    exists s'. cbn [foldR]. rewrite Ep. cbn [bindR]. split; [exact Ef|]. cbn [map]. split.
    + intros d Hd. apply elem_of_cons in Hd as [->|Hd]; [|by apply Hin]. exists v. rewrite Hout by done. split; [exact (lookup_insert s (tr_descriptor tr) v)|].
      destruct Sv as [v Hv|a b va vb Hab Ha Hb Hg]; [constructor; by rewrite <- G|]. apply shows_between; [done|by rewrite <- G|by rewrite <- G|]. intros k Hk. rewrite <- G. by apply Hg.
    + intros d Hd. rewrite elem_of_cons in Hd. rewrite Hout by tauto. apply (lookup_insert_ne s). intros E. apply Hd. left. by symmetry.
Qed.
(** ** The percent shown *)
Lemma u32_percent (x : f32) : is_finite x = true -> (0 <= B2R x <= 1)%R -> f32_as_u32 (fmul x f100) = percent x /\ (0 <= percent x <= 100)%Z.
Proof.
  intros Hx Hr. destruct (f32_int 100 ltac:(lia)) as [F100 E100]. fold f100 in *. assert (B : (0 <= rnd (B2R x * 100) <= 100)%R).
  { split; [rewrite <- rnd_0; apply rnd_le; lra|]. pose proof (int_format 100 ltac:(lia)) as I100. assert (rnd (B2R x * 100) <= rnd 100)%R by (apply rnd_le; lra). lra. }
  destruct (mul_real x f100 Hx F100) as [F E].
  { rewrite E100, Rabs_pos_eq by lra. apply Rle_lt_trans with (bpow radix2 7); [change (bpow radix2 7) with 128%R; lra|apply bpow_lt; lia]. }
  rewrite E100 in E. unfold percent, rnd32. assert (T : (0 <= Ztrunc (rnd (B2R x * 100)) <= 100)%Z).
  { pose proof (Ztrunc_le _ _ (proj1 B)) as B1. pose proof (Ztrunc_le _ _ (proj2 B)) as B2. rewrite (Ztrunc_IZR 0) in B1. rewrite (Ztrunc_IZR 100) in B2. lia. }
  split; [|exact T]. assert (Eu : f32_as_u32 (fmul x f100) = saturate 4294967295 (Btrunc (fmul x f100))) by (clear -F; destruct (fmul x f100) as [[]|[]| |]; done).
  rewrite Eu. assert (Et : Btrunc (fmul x f100) = Ztrunc (B2R (fmul x f100))). { apply eq_IZR. rewrite (Btrunc_correct 24 128 f32_emax (fmul x f100)). apply round_FIX_IZR. }
  rewrite Et, E. unfold saturate. lia.
Qed.

(** ** The claims *)
Theorem playing_shows fuel time vars an a a' x style trs : Forall (fun kf => (0 <= kf_step kf)%Z) (an_keyframes an) ->
  compute_animation_tracks fuel vars an style = Ok trs -> animator_update fuel time a = Ok (a', Some x) -> is_finite x = true -> (0 <= B2R x <= 1)%R ->
  exists stops s', stops_of fuel vars an stops /\ animator_play fuel time trs a style = Ok (a', s') /\
  (forall d : Descriptor, (exists st s, In (st, s) stops /\ is_Some ((s : ComputedStyle) !! d)) -> exists v, (s' : ComputedStyle) !! d = Some v /\ shows_frame (frame_given stops style d) (percent x) v) /\
  (forall d : Descriptor, ~ (exists st s, In (st, s) stops /\ is_Some ((s : ComputedStyle) !! d)) -> (s' : ComputedStyle) !! d = style !! d).
Proof.
  intros Hk Htr Hu Fx Rx. destruct (tracks_frames _ _ _ _ _ Hk Htr) as (stops & Hst & Hnd & Hd & Hf). destruct (u32_percent x Fx Rx) as [Ep Rp].
  destruct (play_tracks (frame_given stops style) (percent x) trs Hnd Rp) with (s := style) as (s' & Es & Hin & Hout).
  { intros tr Hi. destruct (Hf tr Hi) as (S & N & G). split; [exact S|]. split; [exact N|]. unfold frame_given at 1 2. split; [|split; [|exact G]].
    - destruct (last_stop stops 0 ≫= _); [eauto|]. cbn. eauto.
    - destruct (last_stop stops 100 ≫= _); [eauto|]. cbn. eauto. }
  exists stops, s'. split; [exact Hst|]. split.
  - unfold animator_play. rewrite Hu. cbn [bindR]. rewrite Ep, Es. done.
  - split; intros d D; [apply Hin; by apply Hd|]. apply Hout. by rewrite Hd.
Qed.
