(** * Placing the elements (C40). *)
From Coq Require Import ZArith Reals Lia Lra.
From stdpp Require Import gmap.
From RecordUpdate Require Import RecordUpdate.
From Flocq Require Import Core.Core IEEE754.BinarySingleNaN.
From Verif Require Import Str StrFacts F32 Res ResFacts Json PropKey Html Css Element Tree ViewModel Render Update Matching
  Cascade Initial Animation Apply Styling Events View
  SpecLive SpecLog SpecView SpecRender SpecTree SpecEvents FrameFacts EventFacts EventFrame
  RenderTree RenderNode RenderProps RenderAny RenderMore LiveFacts LiveUpdate LiveView LiveHistory LiveOrder
  SpecSelect SelectFacts SelectLive SelectFresh SpecStyle SpecShow SpecPage ApplyFacts ShowFacts CascadeFacts AnimationFacts StyleTrace StylePage StyleMore Samples PropSelect StyleSamples
  FloatFacts AnimFloat ValueFacts SpecPlace.
Close Scope R_scope.

Definition same_boxes (t t' : Tree) : Prop := forall n, laid_out t' n = laid_out t n.
Lemma placed_node t t' n o op c : t_nodes t' !! n = t_nodes t !! n -> placed t n o op c -> placed t' n o op c.
Proof. intros H (e & l & He & Hl & R). exists e, l. unfold get_ctx, laid_out in *. by rewrite H. Qed.
(** what holds below a placed element *)
Definition composed (t t' : Tree) (n : NodeId) : Prop :=
  forall p c ep, at_or_above t n p -> parent_of t c = Some p -> get_ctx t' p = Some ep -> placed t' c (content_origin ep) (e_opacity ep) (content_clip ep).

Lemma positions_trace depth : forall n loc op clip t t', live t 0 -> compute_final_positions depth n loc op clip t = Ok t' ->
  placed t' n loc op clip /\ composed t t' n /\ (forall m, ~ at_or_above t n m -> t_nodes t' !! m = t_nodes t !! m) /\ same_boxes t t'.
Proof.
  induction depth as [|depth IH]; intros n loc op clip t t' Hl H; [done|]. cbn [compute_final_positions] in H.
  apply bindR_Ok in H as (lay & Hlay & H). unfold final_layout, get_node in Hlay. apply bindR_Ok in Hlay as (x & Hx & Hlay). apply unwrap_Ok in Hx. injection Hlay as <-.
  apply bindR_Ok in H as (e & He & H). apply get_element_ctx in He. cbv zeta in H.
  set (e1 := place_element _ _ _ e) in H.
  assert (Hm : (match e_scrolling e1 with
    | Some s => (Some (mkLayout (vadd (lo_location (n_layout x)) loc) (lo_size (n_layout x)) (lo_content (n_layout x))), (fsub (fst (vadd (lo_location (n_layout x)) loc)) (sc_x s), fsub (snd (vadd (lo_location (n_layout x)) loc)) (sc_y s)))
    | None => (clip, vadd (lo_location (n_layout x)) loc) end) = (content_clip e1, content_origin e1)).
  { unfold content_clip, content_origin. destruct (e_scrolling e1); reflexivity. }
  cbn [lo_location] in H. rewrite Hm in H. clear Hm.
  apply bindR_Ok in H as (cs & Hcs & H). apply children_spec in Hcs.
  assert (Hs1 : same_content t (put_element n e1 t)) by (eapply put_element_same; [exact He|reflexivity]).
  rewrite (shown_attached _ _ _ (content_shown _ _ Hs1)) in Hcs. subst cs.
  assert (Hn1 : t_nodes (put_element n e1 t) !! n = Some (x <| n_ctx := Some e1 |>)) by (by apply put_nodes_eq).
  assert (Ho : forall m, n <> m -> t_nodes (put_element n e1 t) !! m = t_nodes t !! m) by (intros m Hm; by apply put_nodes_ne).
  assert (Hb1 : same_boxes t (put_element n e1 t)). { intros m. unfold laid_out. destruct (decide (n = m)) as [<-|Hm]; [by rewrite Hn1, Hx|by rewrite Ho]. }
  assert (Hfacts : get_ctx (put_element n e1 t) n = Some e1) by (unfold get_ctx; by rewrite Hn1).
  assert (Hplaced : placed (put_element n e1 t) n loc op clip).
  { exists e1, (n_layout x). split; [exact Hfacts|]. split; [by rewrite Hb1; unfold laid_out; rewrite Hx|]. repeat split; reflexivity. }
  clearbody e1. revert Hs1 Hn1 Ho Hb1 Hfacts Hplaced H. generalize (put_element n e1 t). intros t1 Hs1 Hn1 Ho Hb1 Hfacts Hplaced H.
  assert (Hab : forall u, same_content t u -> forall a b, at_or_above u a b <-> at_or_above t a b).
  { intros u Hu a b. split; [by apply above_content|]. apply above_content. by apply same_sym. }
  assert (Hfold : forall cs a, cs ⊆ attached t n -> NoDup cs -> same_content t a -> foldR (fun t c => compute_final_positions depth c (content_origin e1) (e_opacity e1) (content_clip e1) t) a cs = Ok t' ->
    (forall c, c ∈ cs -> placed t' c (content_origin e1) (e_opacity e1) (content_clip e1) /\ composed t t' c) /\
    (forall m, (forall c, c ∈ cs -> ~ at_or_above t c m) -> t_nodes t' !! m = t_nodes a !! m) /\ same_boxes a t').
  { clear H Hn1 Ho Hs1 Hb1 Hfacts Hplaced t1. induction cs as [|c cs IHc]; intros a Hin Hnd Ha H; cbn [foldR] in H.
    - injection H as <-. split; [intros c Hc; by apply elem_of_nil in Hc|]. split; [done|]. by intros m.
    - apply bindR_Ok in H as (b & Hb & H). apply list.NoDup_cons in Hnd as [Hnc Hnd].
      pose proof (shown_live _ _ _ (content_shown _ _ Ha) Hl) as Hla.
      destruct (IH _ _ _ _ _ _ Hla Hb) as (I1 & I2 & I3 & I4). pose proof (final_positions_same _ _ _ _ _ _ _ Hb) as Hab1.
      assert (Hdis : forall d m, d ∈ cs -> at_or_above t c m -> at_or_above t d m -> False).
      { intros d m Hd Hcm Hdm. apply Hnc. replace c with d; [done|]. eapply (above_disjoint _ _ n); [exact Hl|apply Hin; by apply elem_of_list_further|apply Hin; apply elem_of_list_here|exact Hdm|exact Hcm]. }
      destruct (IHc b) as (C1 & C2 & C3); [by intros d Hd; apply Hin, elem_of_list_further|done|by eapply same_trans|exact H|].
      split; [|split].
      + intros d Hd. apply elem_of_cons in Hd as [->|Hd]; [|by apply C1]. split.
        * eapply placed_node; [|exact I1]. apply C2. intros d Hd Hdm. eapply (Hdis d c); [done|reflexivity|done].
        * intros p k ep Hcp Hk Hep. assert (Hck : at_or_above t c k) by (eapply rtc_r; [exact Hcp|exact Hk]).
          eapply placed_node; [apply C2; intros d Hd Hdm; by apply (Hdis d k)|]. apply (I2 p k ep).
          -- by apply Hab.
          -- by rewrite (shown_parent _ _ _ (content_shown _ _ Ha)).
          -- unfold get_ctx in *. rewrite <- (C2 p); [exact Hep|]. intros d Hd Hdm. by apply (Hdis d p).
      + intros m Hm. rewrite C2 by (intros d Hd; apply Hm; by apply elem_of_list_further). apply I3. rewrite (Hab _ Ha). apply Hm, elem_of_list_here.
      + intros m. by rewrite C3, I4. }
  destruct (Hfold (attached t n) t1) as (F1 & F2 & F3); [done|exact (proj1 (live_once _ _ Hl n))|exact Hs1|exact H|].
  assert (Hself : forall c, c ∈ attached t n -> ~ at_or_above t c n).
  { intros c Hc Hm. apply (above_le _ _ _ _ Hl) in Hm. destruct (live_newer _ _ Hl n c ltac:(by left)). lia. }
  assert (Hnt : t_nodes t' !! n = t_nodes t1 !! n) by (apply F2; exact Hself).
  split; [|split; [|split]].
  - eapply placed_node; [exact Hnt|exact Hplaced].
  - intros p c ep Hp Hc Hep. apply (above_cases _ _ _ _ Hl) in Hp as [<-|Hp'].
    + assert (ep = e1) as ->. { unfold get_ctx in *. rewrite Hnt in Hep. congruence. } apply F1. by apply (live_parent _ _ Hl).
    + destruct Hp' as (d & Hd & Hdp). destruct (F1 d Hd) as [_ Fd]. by apply (Fd p c ep).
  - intros m Hm. rewrite F2.
    + apply Ho. intros <-. apply Hm. reflexivity.
    + intros c Hc Hcm. apply Hm. eapply rtc_l; [|exact Hcm]. by apply (live_parent _ _ Hl).
  - intros m. by rewrite F3, Hb1.
Qed.

(** ** The page after an update *)
Definition geometry (t : Tree) (body : NodeId) : Prop :=
  placed t body vzero f1 None /\
  forall p c ep, at_or_above t body p -> parent_of t c = Some p -> get_ctx t p = Some ep -> placed t c (content_origin ep) (e_opacity ep) (content_clip ep).
Lemma prepare_geometry X fuel v i x m t ids : sound v -> prepare X fuel v i x = Ok (m, t, ids) -> geometry t (v_body v) /\ live t 0.
Proof.
  intros Hs Hpr. destruct (prepare_live _ _ _ _ _ _ _ _ Hs Hpr) as [Hl _]. split; [|exact Hl].
  unfold prepare in Hpr. apply bindR_Ok in Hpr as ([m0 rs] & Hvb & Hpr). apply bindR_Ok in Hpr as ([ta ids0] & Hup & Hpr).
  apply bindR_Ok in Hpr as (t1 & H1 & Hpr). apply bindR_Ok in Hpr as (t2 & H2 & Hpr). apply bindR_Ok in Hpr as (t3 & H3 & Hpr). injection Hpr as <- <- <-.
  pose proof (final_positions_same _ _ _ _ _ _ _ H3) as Hsame. pose proof (shown_live _ _ _ (content_shown _ _ (same_sym _ _ Hsame)) Hl) as Hl2.
  destruct (positions_trace _ _ _ _ _ _ _ Hl2 H3) as (P1 & P2 & _ & _). split; [exact P1|].
  intros p c ep Hp Hc Hep. apply (P2 p c ep); [|rewrite <- (shown_parent _ _ _ (content_shown _ _ Hsame)); exact Hc|exact Hep].
  eapply above_content; [exact Hsame|exact Hp].
Qed.
Lemma placed_sbs t t' n o op c : same_but_state t t' -> placed t n o op c -> placed t' n o op c.
Proof.
  intros H (e & l & He & Hl & R). destruct (sbs_ctx _ _ _ _ H He) as (e' & He' & E). destruct H as [_ H]. specialize (H n). 
  assert (Q : forall {A} (f : Element -> A), (forall e, f (no_state e) = f e) -> f e' = f e). { intros A f Hf. rewrite <- (Hf e'), <- (Hf e). congruence. }
  exists e', l. split; [exact He'|]. split.
  - unfold laid_out in *. destruct (t_nodes t !! n) as [a|]; [|done]. destruct (t_nodes t' !! n) as [b|]; [|done]. cbn in *. apply (inj Some) in H. injection Hl as <-. f_equal.
    change (n_layout (node_no_state b) = n_layout (node_no_state a)). congruence.
  - rewrite (Q _ e_position), (Q _ e_size), (Q _ e_content_size), (Q _ e_opacity), (Q _ e_self_opacity), (Q _ e_clipping) by reflexivity. exact R.
Qed.
Lemma geometry_sbs t t' body : same_but_state t t' -> geometry t body -> geometry t' body.
Proof.
  intros H [G1 G2]. split; [by eapply placed_sbs|]. intros p c ep Hp Hc Hep. pose proof (sbs_sym _ _ H) as H'. destruct (sbs_ctx _ _ _ _ H' Hep) as (e & He & E).
  assert (Q : forall {A} (f : Element -> A), (forall e, f (no_state e) = f e) -> f ep = f e). { intros A f Hf. rewrite <- (Hf ep), <- (Hf e). congruence. }
  pose proof (sbs_same _ _ H) as Hs. eapply placed_sbs; [exact H|]. 
  rewrite (Q _ content_origin), (Q _ e_opacity), (Q _ content_clip) by reflexivity. apply (G2 p c e).
  - eapply above_content; [exact (same_sym _ _ Hs)|exact Hp] || (eapply above_content; [exact Hs|exact Hp]).
  - rewrite <- (shown_parent _ _ _ (content_shown _ _ Hs)). exact Hc.
  - exact He.
Qed.
Lemma update_geometry X fuel v i x v' o : sound v -> update X fuel v i x = Ok (v', o) -> geometry (v_tree v') (v_body v').
Proof.
  intros Hs Hu. unfold update in Hu. apply bindR_Ok in Hu as ([[m t] ids] & Hpr & Hu). apply bindR_Ok in Hu as ([[s t'] o'] & Ho' & [= <- <-]). apply handle_output_sbs in Ho'. cbn [fst snd] in Ho'.
  destruct (prepare_geometry _ _ _ _ _ _ _ _ Hs Hpr) as [G _]. exact (geometry_sbs _ _ _ Ho' G).
Qed.

(** ** Whole pixels *)
Lemma whole_add (a b : f32) x y : whole a x -> whole b y -> (Z.abs (x + y) <= 2 ^ 24)%Z -> whole (fadd a b) (x + y).
Proof.
  intros (Fa & Ea & _) (Fb & Eb & _) H.
  pose proof (Bplus_correct 24 128 f32_prec f32_emax mode_NE a b Fa Fb) as C. cbn [round_mode] in C. fold (rnd (B2R a + B2R b)) in C.
  rewrite Ea, Eb, <- plus_IZR, (int_format _ H) in C. rewrite Rlt_bool_true in C.
  - destruct C as (C1 & C2 & _). by split.
  - rewrite <- abs_IZR. eapply Rle_lt_trans; [apply (IZR_le _ _ H)|]. change (IZR (2 ^ 24)) with (bpow radix2 24). apply bpow_lt. lia.
Qed.
Lemma whole_sub (a b : f32) x y : whole a x -> whole b y -> (Z.abs (x - y) <= 2 ^ 24)%Z -> whole (fsub a b) (x - y).
Proof.
  intros (Fa & Ea & _) (Fb & Eb & _) H.
  pose proof (Bminus_correct 24 128 f32_prec f32_emax mode_NE a b Fa Fb) as C. cbn [round_mode] in C. fold (rnd (B2R a - B2R b)) in C.
  rewrite Ea, Eb, <- minus_IZR, (int_format _ H) in C. rewrite Rlt_bool_true in C.
  - destruct C as (C1 & C2 & _). by split.
  - rewrite <- abs_IZR. eapply Rle_lt_trans; [apply (IZR_le _ _ H)|]. change (IZR (2 ^ 24)) with (bpow radix2 24). apply bpow_lt. lia.
Qed.
Lemma whole_zero : whole f0 0. Proof. by split. Qed.
Lemma pixels_body_above t body n x y : pixels_at t body n x y -> at_or_above t body n.
Proof. intros H. induction H; [reflexivity|]. eapply rtc_r; [exact IHpixels_at|done]. Qed.
Lemma pixels_position t body : geometry t body -> forall n x y e, pixels_at t body n x y -> get_ctx t n = Some e -> whole (fst (e_position e)) x /\ whole (snd (e_position e)) y.
Proof.
  intros [G1 G2] n x y e H. revert e. induction H as [l x y Hl Hx Hy|p n ep l x y a b sx sy H IH Hp Hep Hl Ha Hb Hs B1 B2 B3 B4]; intros e He.
  - destruct G1 as (e' & l' & He' & Hl' & Pos & _). assert (e' = e) as -> by congruence. assert (l' = l) as -> by congruence. rewrite Pos. cbn [fst snd].
    change (fst vzero) with f0. change (snd vzero) with f0. split; [rewrite <- (Z.add_0_r x)|rewrite <- (Z.add_0_r y)]; (apply whole_add; [done|apply whole_zero|rewrite Z.add_0_r]).
    + exact (proj2 (proj2 Hx)).
    + exact (proj2 (proj2 Hy)).
  - destruct (IH ep Hep) as [Px Py]. destruct (G2 p n ep (pixels_body_above _ _ _ _ _ H) Hp Hep) as (e' & l' & He' & Hl' & Pos & _).
    assert (e' = e) as -> by congruence. assert (l' = l) as -> by congruence. rewrite Pos. cbn [fst snd].
    assert (O : whole (fst (content_origin ep)) (x - sx) /\ whole (snd (content_origin ep)) (y - sy)).
    { unfold content_origin. destruct (e_scrolling ep) as [s|].
      - destruct Hs as [S1 S2]. cbn [fst snd]. split; by apply whole_sub.
      - destruct Hs as [-> ->]. by rewrite !Z.sub_0_r. }
    destruct O as [O1 O2]. split; [rewrite Z.add_comm|rewrite (Z.add_comm _ b)]; apply whole_add; (done || by rewrite Z.add_comm).
Qed.

(** ** Clipping *)
Lemma geometry_ctx t body n : geometry t body -> at_or_above t body n -> is_Some (get_ctx t n).
Proof.
  intros [G1 G2]. apply (rtc_ind_r (fun n => is_Some (get_ctx t n)) body).
  - destruct G1 as (e & l & He & _). eauto.
  - intros p c Hp Hc [ep Hep]. destruct (G2 p c ep Hp Hc Hep) as (e & l & He & _). eauto.
Qed.

Lemma above_parent t m p n : parent_of t n = Some p -> above t m n <-> m = p \/ above t m p.
Proof.
  intros Hp. split; [by apply above_step|]. intros [->|H]; [by apply tc_once|]. eapply tc_r; [exact H|exact Hp].
Qed.
Lemma at_above t m n : at_or_above t m n <-> m = n \/ above t m n.
Proof. split; [intros H; apply rtc_tc in H as [->|H]; [by left|by right]|intros [->|H]; [reflexivity|by apply tc_rtc]]. Qed.

Lemma clip_nearest t body n e : live t 0 -> geometry t body -> at_or_above t body n -> get_ctx t n = Some e ->
  match e_clipping e with
  | Some b => exists m em, nearest_scrolling t body m n /\ get_ctx t m = Some em /\ b = box_of em
  | None => forall m, at_or_above t body m -> above t m n -> ~ scrolls t m
  end.
Proof.
  intros Hl [G1 G2] Hn. revert e. revert n Hn.
  apply (rtc_ind_r (fun n => forall e, get_ctx t n = Some e -> match e_clipping e with
    | Some b => exists m em, nearest_scrolling t body m n /\ get_ctx t m = Some em /\ b = box_of em
    | None => forall m, at_or_above t body m -> above t m n -> ~ scrolls t m end) body).
  - intros e He. destruct G1 as (e' & l & He' & _ & _ & _ & _ & _ & Hc). assert (e' = e) as -> by congruence. rewrite Hc.
    intros m Hm Hmb. apply (above_le _ _ _ _ Hl) in Hm. apply (above_lt _ _ _ Hl) in Hmb. lia.
  - intros p n Hp Hpn IH e He. destruct (geometry_ctx t body p (conj G1 G2) Hp) as [ep Hep]. specialize (IH ep Hep).
    destruct (G2 p n ep Hp Hpn Hep) as (e' & l & He' & _ & _ & _ & _ & _ & Hc). assert (e' = e) as -> by congruence. rewrite Hc. unfold content_clip.
    destruct (e_scrolling ep) as [s|] eqn:Hs.
    + exists p, ep. split; [|done]. split; [exact Hp|]. split; [by apply tc_once|]. split; [exists ep; rewrite Hs; eauto|].
      intros k Hk Hkn. apply (above_parent _ _ _ _ Hpn) in Hkn. apply (above_lt _ _ _ Hl) in Hk. destruct Hkn as [->|Hkn]; [lia|apply (above_lt _ _ _ Hl) in Hkn; lia].
    + assert (Hps : ~ scrolls t p). { intros (e2 & He2 & [s' Hs']). assert (e2 = ep) as -> by congruence. congruence. }
      destruct (e_clipping ep) as [b|].
      * destruct IH as (m & em & (N1 & N2 & N3 & N4) & Hem & Hb). exists m, em. split; [|done]. split; [done|]. split; [eapply tc_r; [exact N2|exact Hpn]|]. split; [done|].
        intros k Hk Hkn. apply (above_parent _ _ _ _ Hpn) in Hkn as [->|Hkn]; [exact Hps|by apply N4].
      * intros m Hm Hmn. apply (above_parent _ _ _ _ Hpn) in Hmn as [->|Hmn]; [exact Hps|by apply IH].
Qed.

(** ** Opacity *)
Lemma share_mul (a b : f32) : share_of_one a -> share_of_one b -> share_of_one (fmul a b) /\ (B2R (fmul a b) <= B2R a)%R /\ (B2R (fmul a b) <= B2R b)%R.
Proof.
  intros [Fa Ha] [Fb Hb]. assert (P : (0 <= B2R a * B2R b)%R) by (apply Rmult_le_pos; lra).
  assert (Q1 : (B2R a * B2R b <= B2R a)%R) by nra. assert (Q2 : (B2R a * B2R b <= B2R b)%R) by nra.
  assert (R1 : (rnd (B2R a * B2R b) <= B2R a)%R) by (apply rnd_le_fmt; [apply fmt|exact Q1]).
  assert (R2 : (rnd (B2R a * B2R b) <= B2R b)%R) by (apply rnd_le_fmt; [apply fmt|exact Q2]).
  assert (R0 : (0 <= rnd (B2R a * B2R b))%R) by (rewrite <- rnd_0; by apply rnd_le).
  destruct (fmul_real a b Fa Fb) as [F E]; [rewrite Rabs_pos_eq by exact R0; eapply Rle_lt_trans; [exact R1|]; eapply Rle_lt_trans; [exact (proj2 Ha)|]; apply (bpow_lt radix2 0 128); lia|].
  split; [split; [exact F|rewrite E; lra]|rewrite E; lra].
Qed.
Lemma opacity_shares t body : geometry t body -> (forall n a, at_or_above t body n -> own_opacity t n = Some a -> share_of_one a) ->
  forall n a, at_or_above t body n -> opacity t n = Some a -> share_of_one a.
Proof.
  intros G Hown n a Hn. revert a. revert n Hn. pose proof G as [G1 G2].
  assert (Hop : forall n a b, at_or_above t body n -> share_of_one a -> (exists e, get_ctx t n = Some e /\ e_opacity e = fmul a (e_self_opacity e)) -> opacity t n = Some b -> share_of_one b).
  { intros n a b Hn Ha (e & He & Ho) Hb. unfold opacity in Hb. rewrite He in Hb. cbn in Hb. injection Hb as <-. rewrite Ho.
    apply (share_mul a (e_self_opacity e) Ha). apply (Hown n); [exact Hn|]. unfold own_opacity. by rewrite He. }
  apply (rtc_ind_r (fun n => forall a, opacity t n = Some a -> share_of_one a) body).
  - intros a Ha. destruct G1 as (e & l & He & _ & _ & _ & _ & Ho & _). eapply (Hop body f1); [reflexivity| |eauto|exact Ha]. split; [done|]. change (B2R f1) with (B2R (f32_of_Z 1)). destruct (f32_int 1) as [_ ->]; [lia|lra].
  - intros p c Hp Hc IH a Ha. destruct (geometry_ctx t body p G Hp) as [ep Hep]. destruct (G2 p c ep Hp Hc Hep) as (e & l & He & _ & _ & _ & _ & Ho & _).
    eapply (Hop c (e_opacity ep)); [eapply rtc_r; [exact Hp|exact Hc]| |eauto|exact Ha]. apply IH. unfold opacity. by rewrite Hep.
Qed.
Lemma opacity_shrinks t body : geometry t body -> (forall n a, at_or_above t body n -> own_opacity t n = Some a -> share_of_one a) ->
  forall m n a b, at_or_above t body m -> at_or_above t m n -> opacity t m = Some a -> opacity t n = Some b -> (B2R b <= B2R a)%R.
Proof.
  intros G Hown m n a b Hm Hmn Ha. revert b. revert n Hmn. pose proof G as [G1 G2]. 
  assert (K : forall n, at_or_above t m n -> forall b, opacity t n = Some b -> (B2R b <= B2R a)%R); [|intros n Hn b; by apply K].
  apply (rtc_ind_r (fun n => forall b, opacity t n = Some b -> (B2R b <= B2R a)%R) m).
  - intros b Hb. assert (a = b) as -> by congruence. lra.
  - intros p c Hp Hc IH b Hb. assert (Hbp : at_or_above t body p) by (by etransitivity). destruct (geometry_ctx t body p G Hbp) as [ep Hep]. destruct (G2 p c ep Hbp Hc Hep) as (e & l & He & _ & _ & _ & _ & Ho & _).
    unfold opacity in Hb. rewrite He in Hb. cbn in Hb. injection Hb as <-. rewrite Ho. assert (Hpo : opacity t p = Some (e_opacity ep)) by (unfold opacity; by rewrite Hep).
    eapply Rle_trans; [|exact (IH _ Hpo)]. apply share_mul; [by apply (opacity_shares _ _ G Hown p)|]. apply (Hown c); [eapply rtc_r; [exact Hbp|exact Hc]|]. unfold own_opacity. by rewrite He.
Qed.
Lemma transparent_mul (a b : f32) : B2R a = 0%R -> is_finite a = true -> is_finite b = true -> B2R (fmul a b) = 0%R /\ is_finite (fmul a b) = true.
Proof.
  intros Ha Fa Fb. destruct (fmul_real a b Fa Fb) as [F E]; [rewrite Ha, Rmult_0_l, rnd_0, Rabs_R0; apply bpow_gt_0|]. split; [|exact F]. rewrite E, Ha, Rmult_0_l. apply rnd_0.
Qed.
Lemma transparent_below t body : geometry t body -> (forall n a, at_or_above t body n -> own_opacity t n = Some a -> is_finite a = true) ->
  forall m n a b, at_or_above t body m -> at_or_above t m n -> opacity t m = Some a -> is_finite a = true -> B2R a = 0%R -> opacity t n = Some b -> B2R b = 0%R.
Proof.
  intros G Hown m n a b Hm Hmn Ha Fa Za. pose proof G as [G1 G2]. 
  assert (K : forall n, at_or_above t m n -> forall b, opacity t n = Some b -> B2R b = 0%R /\ is_finite b = true); [|intros Hb; by apply (K n Hmn b)].
  clear n Hmn b. apply (rtc_ind_r (fun n => forall b, opacity t n = Some b -> B2R b = 0%R /\ is_finite b = true) m).
  - intros b Hb. assert (a = b) as -> by congruence. done.
  - intros p c Hp Hc IH b Hb. assert (Hbp : at_or_above t body p) by (by etransitivity). destruct (geometry_ctx t body p G Hbp) as [ep Hep]. destruct (G2 p c ep Hbp Hc Hep) as (e & l & He & _ & _ & _ & _ & Ho & _).
    unfold opacity in Hb. rewrite He in Hb. cbn in Hb. injection Hb as <-. rewrite Ho. assert (Hpo : opacity t p = Some (e_opacity ep)) by (unfold opacity; by rewrite Hep).
    destruct (IH _ Hpo). apply transparent_mul; [done|done|]. apply (Hown c); [eapply rtc_r; [exact Hbp|exact Hc]|]. unfold own_opacity. by rewrite He.
Qed.
