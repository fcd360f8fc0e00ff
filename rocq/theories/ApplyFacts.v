(** * Applying computed values: what each property touches, and that the order
      does not matter. *)
From Coq Require Import ZArith Lia.
From stdpp Require Import gmap.
From RecordUpdate Require Import RecordUpdate.
From Verif Require Import Str F32 Res PropKey Css Element Tree Matching Cascade Apply SpecStyle.

(** [dst] with the part [p] of [src] *)
Definition put (p : place) (src dst : LE) : LE :=
  let '(l1, e1) := src in
  let '(l, e) := dst in
  match p with
  | PlNone => (l, e)
  | PlOpacity => (l, e <| e_self_opacity := e_self_opacity e1 |>)
  | PlBackgrounds => (l, e <| e_backgrounds := e_backgrounds e1 |>)
  | PlColor => (l, e <| e_color := e_color e1 |>)
  | PlFont => (l, e <| e_font := e_font e1 |>)
  | PlPointerEvents => (l, e <| e_pointer_events := e_pointer_events e1 |>)
  | PlCursor => (l, e <| e_pointer := e_pointer e1 |>)
  | PlVisible => (l, e <| e_visible := e_visible e1 |>)
  | PlBorders => (l <| ts_border := ts_border l1 |>, e <| e_borders := e_borders e1 |>)
  | PlTransitions => (l, e <| e_transitions := e_transitions e1 |>)
  | PlAnimators => (l, e <| e_animators := e_animators e1 |>)
  | PlBoxSizing => (l <| ts_box_sizing := ts_box_sizing l1 |>, e)
  | PlMargin => (l <| ts_margin := ts_margin l1 |>, e)
  | PlPadding => (l <| ts_padding := ts_padding l1 |>, e)
  | PlDisplay => (l <| ts_display := ts_display l1 |>, e)
  | PlOverflowX => (l <| ts_overflow_x := ts_overflow_x l1 |>, e)
  | PlOverflowY => (l <| ts_overflow_y := ts_overflow_y l1 |>, e)
  | PlPosition => (l <| ts_position := ts_position l1 |>, e)
  | PlInset => (l <| ts_inset := ts_inset l1 |>, e)
  | PlSize => (l <| ts_size := ts_size l1 |>, e)
  | PlMinSize => (l <| ts_min_size := ts_min_size l1 |>, e)
  | PlMaxSize => (l <| ts_max_size := ts_max_size l1 |>, e)
  | PlAlignContent => (l <| ts_align_content := ts_align_content l1 |>, e)
  | PlAlignItems => (l <| ts_align_items := ts_align_items l1 |>, e)
  | PlAlignSelf => (l <| ts_align_self := ts_align_self l1 |>, e)
  | PlJustifyContent => (l <| ts_justify_content := ts_justify_content l1 |>, e)
  | PlJustifyItems => (l <| ts_justify_items := ts_justify_items l1 |>, e)
  | PlJustifySelf => (l <| ts_justify_self := ts_justify_self l1 |>, e)
  | PlFlexDirection => (l <| ts_flex_direction := ts_flex_direction l1 |>, e)
  | PlFlexWrap => (l <| ts_flex_wrap := ts_flex_wrap l1 |>, e)
  | PlFlexBasis => (l <| ts_flex_basis := ts_flex_basis l1 |>, e)
  | PlFlexGrow => (l <| ts_flex_grow := ts_flex_grow l1 |>, e)
  | PlFlexShrink => (l <| ts_flex_shrink := ts_flex_shrink l1 |>, e)
  | PlGap => (l <| ts_gap := ts_gap l1 |>, e)
  end.

(** reduce an [apply] on a concrete key to the choice of its value *)
Ltac acts :=
  cbn [apply place_of];
  lazymatch goal with
  | |- context [assign ?o _ _] => generalize o; intros [?a|]; cbn [assign]
  | |- context [String.eqb ?k ?s] => destruct (String.eqb k s)
  | |- _ => idtac
  end.

(** a property changes its own part only *)
Lemma apply_within sizes key i v st : apply sizes key i v st = put (place_of key) (apply sizes key i v st) st.
Proof.
  destruct st as [l e]. destruct key; try reflexivity; try (acts; destruct l, e; reflexivity).
  - destruct v; cbn [apply]; try (destruct e; reflexivity). destruct (String.eqb _ _); destruct e; reflexivity.
Qed.
(** and looks at its own part only *)
Lemma apply_put sizes key i v p src st : p <> place_of key -> apply sizes key i v (put p src st) = put p src (apply sizes key i v st).
Proof.
  intros H. destruct src as [l1 e1], st as [l e].
  destruct key; try reflexivity; try (acts; destruct p; try reflexivity; exfalso; apply H; reflexivity).
  destruct v; cbn [apply]; try reflexivity; [destruct (String.eqb _ _)|]; destruct p; try reflexivity; exfalso; apply H; reflexivity.
Qed.
Lemma put_put p p' x y z : p <> p' -> put p (put p' x y) z = put p y z.
Proof.
  intros H. destruct x as [l1 e1], y as [l2 e2], z as [l3 e3]. destruct p, p'; try reflexivity; exfalso; apply H; reflexivity.
Qed.
Lemma apply_none sizes key i v st : place_of key = PlNone -> apply sizes key i v st = st.
Proof. destruct key; try reflexivity; discriminate. Qed.

Lemma commute_places sizes k i v k' i' v' st : place_of k <> place_of k' ->
  apply sizes k i v (apply sizes k' i' v' st) = apply sizes k' i' v' (apply sizes k i v st).
Proof.
  intros H. set (A := apply sizes k i v). set (B := apply sizes k' i' v').
  assert (HA : A (B st) = put (place_of k') (B st) (A st)).
  { unfold A, B. rewrite (apply_within sizes k' i' v' st) at 1. apply apply_put. congruence. }
  assert (HB : B (A st) = put (place_of k) (A st) (B st)).
  { unfold A, B. rewrite (apply_within sizes k i v st) at 1. apply apply_put. congruence. }
  rewrite HB. unfold A at 1. rewrite (apply_within sizes k i v (B st)). change (apply sizes k i v (B st)) with (A (B st)). rewrite HA.
  by apply put_put.
Qed.

(** ** Growing vectors *)
Lemma ensure_len_spec {A} n (d : A) l : ensure_len n d l = l ++ replicate (S n - List.length l) d.
Proof.
  unfold ensure_len. destruct (Nat.leb_spec (List.length l) n).
  - unfold Res.resize. rewrite firstn_all2 by lia. f_equal. induction (S n - List.length l) as [|k IH]; [done|]. cbn. by rewrite IH.
  - replace (S n - List.length l) with 0 by lia. by rewrite app_nil_r.
Qed.
Lemma ensure_len_length {A} n (d : A) l : List.length (ensure_len n d l) = Nat.max (S n) (List.length l).
Proof. rewrite ensure_len_spec, app_length, replicate_length. lia. Qed.
Lemma ensure_len_comm {A} n m (d : A) l : ensure_len n d (ensure_len m d l) = ensure_len (Nat.max n m) d l.
Proof.
  rewrite (ensure_len_spec n), ensure_len_length, !ensure_len_spec, <- app_assoc, <- replicate_add. do 2 f_equal. lia.
Qed.
Lemma ensure_alter {A} n m (d : A) f l : m < List.length l -> ensure_len n d (alter f m l) = alter f m (ensure_len n d l).
Proof.
  intros H. rewrite !ensure_len_spec, alter_length. by rewrite alter_app_l.
Qed.
Lemma ensure_same {A} n (d : A) l : n < List.length l -> ensure_len n d l = l.
Proof. intros H. rewrite ensure_len_spec. replace (S n - List.length l) with 0 by lia. by rewrite app_nil_r. Qed.
Lemma update_comm {A} n m (d : A) f g l : (n = m -> forall x, f (g x) = g (f x)) ->
  update_at n d f (update_at m d g l) = update_at m d g (update_at n d f l).
Proof.
  intros H. unfold update_at. rewrite !ensure_alter by (rewrite ensure_len_length; lia).
  rewrite !ensure_len_comm, (Nat.max_comm m n). destruct (decide (n = m)) as [->|Hne].
  - rewrite <- !list_alter_compose. apply list_alter_ext; [|done]. intros x _. cbn. by apply H.
  - by rewrite list_alter_commute.
Qed.
Lemma update_ensure {A} n m (d : A) f l : update_at n d f (ensure_len m d l) = ensure_len m d (update_at n d f l).
Proof.
  unfold update_at. rewrite ensure_alter by (rewrite ensure_len_length; lia). by rewrite !ensure_len_comm, Nat.max_comm.
Qed.
Lemma update_touched {A} n (d : A) f l : update_at n d f (ensure_len n d l) = update_at n d f l.
Proof. unfold update_at. by rewrite ensure_len_comm, Nat.max_id. Qed.

(** ** Properties of one part *)
Definition bg_act (i : nat) (f : option (Background -> Background)) (st : LE) : LE :=
  match f with Some f => set_bg i f st | None => touch_bg i st end.
Lemma bg_set_set i j f g st : (i = j -> forall x, f (g x) = g (f x)) -> set_bg i f (set_bg j g st) = set_bg j g (set_bg i f st).
Proof. intros H. destruct st as [l e]. unfold set_bg, on_e. cbn [fst snd]. unfold set. cbn. by rewrite update_comm. Qed.
Lemma bg_set_touch i j f st : set_bg i f (touch_bg j st) = touch_bg j (set_bg i f st).
Proof. destruct st as [l e]. unfold set_bg, touch_bg, on_e. cbn [fst snd]. unfold set. cbn. by rewrite update_ensure. Qed.
Lemma bg_touch_touch i j st : touch_bg i (touch_bg j st) = touch_bg j (touch_bg i st).
Proof. destruct st as [l e]. unfold touch_bg, on_e. cbn [fst snd]. unfold set. cbn. by rewrite !ensure_len_comm, Nat.max_comm. Qed.
Lemma tr_set_set i j f g st : (i = j -> forall x, f (g x) = g (f x)) -> set_tr i f (set_tr j g st) = set_tr j g (set_tr i f st).
Proof. intros H. destruct st as [l e]. unfold set_tr, on_e. cbn [fst snd]. unfold set. cbn. by rewrite update_comm. Qed.
Lemma an_set_set i j f g st : (i = j -> forall x, f (g x) = g (f x)) -> set_an i f (set_an j g st) = set_an j g (set_an i f st).
Proof. intros H. destruct st as [l e]. unfold set_an, on_e. cbn [fst snd]. unfold set. cbn. by rewrite update_comm. Qed.

(** every property of a part *)
Definition keys (p : place) : list PropertyKey :=
  match p with
  | PlNone => []
  | PlOpacity => [KOpacity]
  | PlBackgrounds => [KBackgroundColor; KBackgroundImage; KBackgroundPositionX; KBackgroundPositionY]
  | PlColor => [KColor]
  | PlFont => [KFontSize; KFontWeight; KFontFamily; KFontStyle; KTextAlign]
  | PlPointerEvents => [KPointerEvents]
  | PlCursor => [KCursor]
  | PlVisible => [KVisibility]
  | PlBorders => [KBorderTopWidth; KBorderRightWidth; KBorderBottomWidth; KBorderLeftWidth;
                  KBorderTopColor; KBorderRightColor; KBorderBottomColor; KBorderLeftColor;
                  KBorderTopLeftRadius; KBorderTopRightRadius; KBorderBottomRightRadius; KBorderBottomLeftRadius]
  | PlTransitions => [KTransitionProperty; KTransitionDuration; KTransitionDelay; KTransitionTimingFunction]
  | PlAnimators => [KAnimationName; KAnimationDelay; KAnimationDirection; KAnimationDuration; KAnimationFillMode;
                    KAnimationIterationCount; KAnimationPlayState; KAnimationTimingFunction]
  | PlBoxSizing => [KBoxSizing]
  | PlMargin => [KMarginTop; KMarginRight; KMarginBottom; KMarginLeft]
  | PlPadding => [KPaddingTop; KPaddingRight; KPaddingBottom; KPaddingLeft]
  | PlDisplay => [KDisplay]
  | PlOverflowX => [KOverflowX]
  | PlOverflowY => [KOverflowY]
  | PlPosition => [KPosition]
  | PlInset => [KLeft; KRight; KTop; KBottom]
  | PlSize => [KWidth; KHeight]
  | PlMinSize => [KMinWidth; KMinHeight]
  | PlMaxSize => [KMaxWidth; KMaxHeight]
  | PlAlignContent => [KAlignContent]
  | PlAlignItems => [KAlignItems]
  | PlAlignSelf => [KAlignSelf]
  | PlJustifyContent => [KJustifyContent]
  | PlJustifyItems => [KJustifyItems]
  | PlJustifySelf => [KJustifySelf]
  | PlFlexDirection => [KFlexDirection]
  | PlFlexWrap => [KFlexWrap]
  | PlFlexBasis => [KFlexBasis]
  | PlFlexGrow => [KFlexGrow]
  | PlFlexShrink => [KFlexShrink]
  | PlGap => [KColumnGap; KRowGap]
  end.
Lemma place_keys key : place_of key <> PlNone -> In key (keys (place_of key)).
Proof. destruct key; intros H; try (exfalso; apply H; reflexivity); cbn; tauto. Qed.

(** the background actions *)
Definition bg_value (sizes : Sizes) (k : PropertyKey) (v : ComputedValue) : option (option (Background -> Background)) :=
  match k with
  | KBackgroundColor => Some ((fun c b => b <| bg_color := c |>) <$> resolve_color sizes v)
  | KBackgroundImage =>
      match v with
      | CKeyword s => if String.eqb s "none" then Some (Some (fun b => b <| bg_image := None |>)) else None
      | CStr s => Some (Some (fun b => b <| bg_image := Some s |>))
      | _ => None
      end
  | KBackgroundPositionX => Some ((fun x b => b <| bg_src_x := fneg x |>) <$> resolve_length sizes v f0)
  | KBackgroundPositionY => Some ((fun x b => b <| bg_src_y := fneg x |>) <$> resolve_length sizes v f0)
  | _ => None
  end.
Lemma set_touched i f st : set_bg i f (touch_bg i st) = set_bg i f st.
Proof. destruct st as [l e]. unfold set_bg, touch_bg, on_e. cbn [fst snd]. unfold set. cbn. by rewrite update_touched. Qed.
Lemma bg_apply sizes k i v st : In k (keys PlBackgrounds) ->
  apply sizes k i v st = match bg_value sizes k v with Some f => bg_act i f st | None => st end.
Proof.
  cbn. intros [<-|[<-|[<-|[<-|[]]]]]; cbn [apply bg_value].
  - destruct (resolve_color sizes v); cbn [assign fmap option_fmap option_map bg_act]; [apply set_touched|done].
  - destruct v; try done. destruct (String.eqb _ _); done.
  - destruct (resolve_length sizes v f0); cbn [assign fmap option_fmap option_map bg_act]; [apply set_touched|done].
  - destruct (resolve_length sizes v f0); cbn [assign fmap option_fmap option_map bg_act]; [apply set_touched|done].
Qed.
Lemma bg_values_commute sizes k v f k' v' g : bg_value sizes k v = Some (Some f) -> bg_value sizes k' v' = Some (Some g) ->
  k <> k' -> forall x, f (g x) = g (f x).
Proof.
  intros H1 H2 Hne x.
  assert (Hk : forall k v f, bg_value sizes k v = Some (Some f) ->
    (k = KBackgroundColor /\ exists c, f = fun b => b <| bg_color := c |>) \/ (k = KBackgroundImage /\ exists c, f = fun b => b <| bg_image := c |>) \/
    (k = KBackgroundPositionX /\ exists c, f = fun b => b <| bg_src_x := c |>) \/ (k = KBackgroundPositionY /\ exists c, f = fun b => b <| bg_src_y := c |>)).
  { clear. intros k v f H. destruct k; try discriminate H; cbn [bg_value] in H.
    - left. split; [done|]. destruct (resolve_color sizes v); [|discriminate]. injection H as <-. by eexists.
    - right; left. split; [done|]. destruct v; try discriminate; [destruct (String.eqb _ _); [|discriminate]|]; injection H as <-; by eexists.
    - right; right; left. split; [done|]. destruct (resolve_length sizes v f0); [|discriminate]. injection H as <-. by eexists.
    - right; right; right. split; [done|]. destruct (resolve_length sizes v f0); [|discriminate]. injection H as <-. by eexists. }
  destruct (Hk _ _ _ H1) as [[-> [c ->]]|[[-> [c ->]]|[[-> [c ->]]|[-> [c ->]]]]];
  destruct (Hk _ _ _ H2) as [[-> [c' ->]]|[[-> [c' ->]]|[[-> [c' ->]]|[-> [c' ->]]]]]; try done; exfalso; by apply Hne.
Qed.

Definition distinct (k : PropertyKey) (i : nat) (k' : PropertyKey) (i' : nat) : Prop := k <> k' \/ (i <> i' /\ listed k = true).

Lemma commute_backgrounds sizes k i v k' i' v' st : In k (keys PlBackgrounds) -> In k' (keys PlBackgrounds) -> distinct k i k' i' ->
  apply sizes k i v (apply sizes k' i' v' st) = apply sizes k' i' v' (apply sizes k i v st).
Proof.
  intros Hk Hk' Hd. rewrite !(bg_apply sizes k) by done. rewrite !(bg_apply sizes k') by done.
  destruct (bg_value sizes k v) as [f|] eqn:E; [|done]. destruct (bg_value sizes k' v') as [g|] eqn:E'; [|done].
  destruct f as [f|], g as [g|]; cbn [bg_act].
  - apply bg_set_set. intros Hi. eapply bg_values_commute; [exact E|exact E'|]. destruct Hd as [Hd|[Hd _]]; done.
  - apply bg_set_touch.
  - symmetry. apply bg_set_touch.
  - apply bg_touch_touch.
Qed.
Ltac each H := cbn in H; repeat (destruct H as [<-|H]; [|]); [..|destruct H].
Lemma commute_transitions sizes k i v k' i' v' st : In k (keys PlTransitions) -> In k' (keys PlTransitions) -> distinct k i k' i' ->
  apply sizes k i v (apply sizes k' i' v' st) = apply sizes k' i' v' (apply sizes k i v st).
Proof.
  intros Hk Hk' Hd. each Hk; each Hk'; cbn [apply];
  lazymatch goal with |- assign ?o _ (assign ?o' _ _) = _ => generalize o; generalize o' end; intros [a'|] [a|]; cbn [assign]; try reflexivity;
  apply tr_set_set; intros Hi x; try reflexivity; exfalso; destruct Hd as [Hd|[Hd _]]; apply Hd; done.
Qed.
Lemma commute_animators sizes k i v k' i' v' st : In k (keys PlAnimators) -> In k' (keys PlAnimators) -> distinct k i k' i' ->
  apply sizes k i v (apply sizes k' i' v' st) = apply sizes k' i' v' (apply sizes k i v st).
Proof.
  intros Hk Hk' Hd. each Hk; each Hk'; cbn [apply];
  lazymatch goal with |- assign ?o _ (assign ?o' _ _) = _ => generalize o; generalize o' end; intros [a'|] [a|]; cbn [assign]; try reflexivity;
  apply an_set_set; intros Hi x; try reflexivity; exfalso; destruct Hd as [Hd|[Hd _]]; apply Hd; done.
Qed.
Lemma commute_scalar sizes p k i v k' i' v' st : In k (keys p) -> In k' (keys p) -> k <> k' ->
  p <> PlBackgrounds -> p <> PlTransitions -> p <> PlAnimators ->
  apply sizes k i v (apply sizes k' i' v' st) = apply sizes k' i' v' (apply sizes k i v st).
Proof.
  intros Hk Hk' Hne H1 H2 H3. destruct p; try done; each Hk; each Hk'; try (exfalso; by apply Hne); clear; cbn [apply];
  lazymatch goal with |- assign ?o _ (assign ?o' _ _) = _ => generalize o; generalize o' end; intros [a'|] [a|]; reflexivity.
Qed.

(** two properties, or two entries of a list property, do not interfere *)
Theorem apply_commutes sizes k i v k' i' v' st : distinct k i k' i' ->
  apply sizes k i v (apply sizes k' i' v' st) = apply sizes k' i' v' (apply sizes k i v st).
Proof.
  intros Hd. destruct (decide (place_of k = place_of k')) as [He|Hne]; [|by apply commute_places].
  destruct (decide (place_of k = PlNone)) as [Hn|Hn]; [by rewrite !(apply_none _ k), !(apply_none _ k') by congruence|].
  pose proof (place_keys k Hn) as Hk. pose proof (place_keys k' ltac:(congruence)) as Hk'. rewrite <- He in Hk'.
  destruct (decide (place_of k = PlBackgrounds)) as [Hp|H1]; [rewrite Hp in *; by apply commute_backgrounds|].
  destruct (decide (place_of k = PlTransitions)) as [Hp|H2]; [rewrite Hp in *; by apply commute_transitions|].
  destruct (decide (place_of k = PlAnimators)) as [Hp|H3]; [rewrite Hp in *; by apply commute_animators|].
  apply (commute_scalar sizes (place_of k)); try done. destruct Hd as [Hd|[_ Hd]]; [done|]. unfold listed in Hd. by destruct (place_of k).
Qed.
