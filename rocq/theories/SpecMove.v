(** * Animations and transitions on a page (C78, C79).

    Vocabulary: what one update of a page does with the animations and
    transitions of an element, and what the element shows then. *)
From Coq Require Import ZArith Reals.
From stdpp Require Import gmap.
From RecordUpdate Require Import RecordUpdate.
From Flocq Require Import Core.Core IEEE754.BinarySingleNaN.
From Verif Require Import Str F32 Res PropKey Css Element Tree Matching Cascade Initial Animation Apply Render SpecLive SpecSelect SpecStyle SpecShow Json Html ViewModel Update Styling Events View
  SpecPage SpecAnim.

(** the animations of an element, and its transitions *)
Definition animators (t : Tree) (n : NodeId) : list Animator := match get_ctx t n with Some e => e_animators e | None => [] end.
Definition movers (t : Tree) (n : NodeId) : list Transition := match get_ctx t n with Some e => e_transitions e | None => [] end.
(** an animation without its clock: its name, duration, delay and so on *)
Definition settings (a : Animator) : Animator := a <| a_time := f0 |>.

(** the style that declarations give, before anything moves *)
Definition given_style (vars : Variables) (ds : list Declaration) (s : ComputedStyle) : Prop :=
  forall k i, (forall v, wins vars ds k i v -> s !! (k, i) = Some v) /\ (ungiven vars ds k i -> s !! (k, i) = None).

(** ** Animations *)
(** the properties that the key frames mention *)
Definition mentioned (stops : list (Z * ComputedStyle)) (d : Descriptor) : Prop := exists st s, In (st, s) stops /\ is_Some ((s : ComputedStyle) !! d).
(** [s'] is the style [s] with the key frames of an animation shown at [step] *)
Definition frame_at (stops : list (Z * ComputedStyle)) (step : Z) (s s' : ComputedStyle) : Prop :=
  (forall d : Descriptor, mentioned stops d -> exists v, s' !! d = Some v /\ shows_frame (frame_given stops s d) step v) /\
  (forall d : Descriptor, ~ mentioned stops d -> s' !! d = s !! d).
(** [animated css time vars l s l' s']: one frame of the animations [l], the next
    on top of the one before, takes the style [s] to [s'] and them to [l'] *)
Inductive animated (fuel : nat) (css : Css) (time : f32) (vars : Variables) : list Animator -> ComputedStyle -> list Animator -> ComputedStyle -> Prop :=
| animated_none s : animated fuel css time vars [] s [] s
| animated_unknown a l s l' s' : css_animations css !! a_name a = None -> animated fuel css time vars l s l' s' -> animated fuel css time vars (a :: l) s (a :: l') s'
| animated_waits an a a' l s l' s' : css_animations css !! a_name a = Some an -> animator_update fuel time a = Ok (a', None) ->
    animated fuel css time vars l s l' s' -> animated fuel css time vars (a :: l) s (a' :: l') s'
| animated_plays an a a' x stops l s s1 l' s' : css_animations css !! a_name a = Some an -> animator_update fuel time a = Ok (a', Some x) ->
    stops_of fuel vars an stops -> frame_at stops (percent x) s s1 -> animated fuel css time vars l s1 l' s' -> animated fuel css time vars (a :: l) s (a' :: l') s'.
(** the progress an animation would show next is one *)
Definition on_course (fuel : nat) (time : f32) (a : Animator) : Prop :=
  forall a' x, animator_update fuel time a = Ok (a', Some x) -> is_finite x = true /\ (0 <= B2R x <= 1)%R.
(** no key frame stands before 0% *)
Definition forward_css (css : Css) : Prop := forall name an, css_animations css !! name = Some an -> Forall (fun kf => (0 <= kf_step kf)%Z) (an_keyframes an).

(** ** Transitions *)
(** the transition after a frame in which it showed [current] and the style gave [v] *)
Definition retargeted (current v to : ComputedValue) (tn tn' : Transition) : Prop :=
  t_key tn' = t_key tn /\ settings (t_animator tn') = settings (t_animator tn) /\
  (cv_eq to v = true -> tn' = tn) /\ (cv_eq to v = false -> t_range tn' = Some (current, v) /\ a_time (t_animator tn') = f0).
(** one frame of the transitions [l] of properties that take one value *)
Inductive transited (fuel : nat) (time : f32) : list Transition -> ComputedStyle -> list Transition -> ComputedStyle -> Prop :=
| transited_none s : transited fuel time [] s [] s
| transited_unnamed tn l s l' s' : t_key tn = None -> transited fuel time l s l' s' -> transited fuel time (tn :: l) s (tn :: l') s'
| transited_waits key tn a l s l' s' : t_key tn = Some key -> animator_update fuel time (t_animator tn) = Ok (a, None) ->
    transited fuel time l s l' s' -> transited fuel time (tn :: l) s (tn <| t_animator := a |> :: l') s'
| transited_ungiven key tn a x l s l' s' : t_key tn = Some key -> animator_update fuel time (t_animator tn) = Ok (a, Some x) -> s !! (key, 0) = None ->
    transited fuel time l s l' s' -> transited fuel time (tn :: l) s (tn <| t_animator := a |> :: l') s'
| transited_moves key from to tn tn1 a x v l s s1 l' s' : transitions tn key from to -> animator_update fuel time (t_animator tn) = Ok (a, Some x) -> s !! (key, 0) = Some v ->
    shown_value key (animate from to x) v s1 -> (forall d : Descriptor, d <> (key, 0) -> s1 !! d = s !! d) -> retargeted (animate from to x) v to (tn <| t_animator := a |>) tn1 ->
    transited fuel time l s1 l' s' -> transited fuel time (tn :: l) s (tn1 :: l') s'.
(** all transitions are of properties that take one value *)
Definition single_movers (l : list Transition) : Prop := Forall (fun tn => forall key, t_key tn = Some key -> listed key = false) l.

(** ** The page *)
(** what the clock of animation [i] shows, 0 if there is none *)
Definition clock_of (l : list Animator) (i : nat) : f32 := a_time (default animator_default (l !! i)).
Definition mover_of (l : list Transition) (i : nat) : Transition := default transition_default (l !! i).
(** after the frame: the clocks are kept, and new animations begin at 0; a
    transition keeps its ends, and a new one begins with the value shown *)
Definition keeps_clocks (l : list Animator) (t : Tree) (n : NodeId) : Prop := List.length l <= List.length (animators t n) /\ forall i, clock_of (animators t n) i = clock_of l i.
Definition keeps_ends (l : list Transition) (s : ComputedStyle) (t : Tree) (n : NodeId) : Prop :=
  forall i, a_time (t_animator (mover_of (movers t n) i)) = a_time (t_animator (mover_of l i)) /\
  match t_range (mover_of l i) with
  | Some r => t_range (mover_of (movers t n) i) = Some r
  | None => forall key, t_key (mover_of (movers t n) i) = Some key -> listed key = false ->
      t_range (mover_of (movers t n) i) = match s !! (key, 0) with Some v => Some (v, v) | None => None end
  end.
(** The page [t] shows the cascade with the animations and transitions of the
    page [before] played for one more frame. *)
Definition shows_moving (fuel : nat) (css : Css) (time : f32) (viewport : vec2) (root body : NodeId) (before t : Tree) (n : NodeId) : Prop :=
  exists ds vars p parent pe s0 l s1 m s, declarations css t root n ds /\ scope css t root body n vars /\ parent_of t n = Some p /\ t_nodes t !! p = Some parent /\ n_ctx parent = Some pe /\
  given_style vars ds s0 /\ animated fuel css time (variables_after vars ds) (animators before n) s0 l s1 /\ transited fuel time (movers before n) s1 m s /\
  (forall k i, listed k = true \/ i = 0 ->
    let rest := rest_value k (n_style parent, pe) (shows_at before n k i) in
    (forall v, s !! (k, i) = Some v -> shows_at t n k i = match SpecShow.meaning (sizes_at viewport t body n) k v with Some x => Some x | None => rest end) /\
    (s !! (k, i) = None -> shows_at t n k i = rest)) /\
  keeps_clocks l t n /\ keeps_ends m s t n.

(** ** Over many updates *)
(** [frames X fuel n v ts v']: updates with the times [ts] between them take [v]
    to [v'], and [n] is an element of the page in each *)
Inductive frames (X : Externals) (fuel : nat) (P : View -> Prop) : View -> list f32 -> View -> Prop :=
| frames_none v : frames X fuel P v [] v
| frames_more v ts v1 i x v2 o : frames X fuel P v ts v1 -> update X fuel v1 i x = Ok (v2, o) -> P v2 -> frames X fuel P v (ts ++ [in_time i]) v2.
(** [n] is an element of the page with the animations [l0] *)
Definition animates (n : NodeId) (l0 : list Animator) (v : View) : Prop := styled_element (v_tree v) (v_body v) n /\ settings <$> animators (v_tree v) n = l0.

(** one animation [an] and no transition: [shown] is the progress to be shown, if
    the delay is over *)
Definition shows_playing (css : Css) (an : Animation) (viewport : vec2) (root body : NodeId) (before t : Tree) (n : NodeId) (fuel : nat) (shown : option f32) : Prop :=
  exists ds vars p parent pe s0 stops, declarations css t root n ds /\ scope css t root body n vars /\ parent_of t n = Some p /\ t_nodes t !! p = Some parent /\ n_ctx parent = Some pe /\
  given_style vars ds s0 /\ (shown = None \/ stops_of fuel (variables_after vars ds) an stops) /\
  forall k i, listed k = true \/ i = 0 ->
    let rest := rest_value k (n_style parent, pe) (shows_at before n k i) in
    let shows v := shows_at t n k i = match SpecShow.meaning (sizes_at viewport t body n) k v with Some x => Some x | None => rest end in
    match shown with
    | Some x => mentioned stops (k, i) -> exists v, shows_frame (frame_given stops s0 (k, i)) (percent x) v /\ shows v
    | None => True
    end /\
    (shown = None \/ ~ mentioned stops (k, i) -> (forall v, wins vars ds k i v -> shows v) /\ (ungiven vars ds k i -> shows_at t n k i = rest)).

(** ** Transitions over many updates *)
(** the same property, duration, delay and so on *)
Definition same_mover (tn tn' : Transition) : Prop := t_key tn' = t_key tn /\ settings (t_animator tn') = settings (t_animator tn).
(** what [n] shows of a property that has no value now *)
Definition shows_rest (before t : Tree) (n : NodeId) (k : PropertyKey) : option SpecShow.shown_value :=
  p ← parent_of t n; parent ← t_nodes t !! p; pe ← n_ctx parent; rest_value k (n_style parent, pe) (shows_at before n k 0).
(** the declarations give the property [k] of [n] the value [v] *)
Definition gives_value (css : Css) (t : Tree) (root body n : NodeId) (k : PropertyKey) (v : ComputedValue) : Prop :=
  forall ds vars, declarations css t root n ds -> scope css t root body n vars -> wins vars ds k 0 v.
(** the page [t] is one that C31 speaks of *)
Definition fair (css : Css) (v : View) (t : Tree) (n : NodeId) : Prop :=
  tidy_inline t /\ styled_element t (v_body v) n /\ plain_selectors css t n /\
  (forall a s, at_or_above t (v_body v) a -> at_or_above t a n -> s ∈ css_styles css -> rule_settled (v_bindings v) t a s).
(** updates with the times [ts] between them in which [n] has the one transition
    [tn], no animation, and the declarations give the property the value [v] *)
Inductive held (X : Externals) (fuel : nat) (css : Css) (n : NodeId) (key : PropertyKey) (v : ComputedValue) (tn : Transition) : View -> list f32 -> View -> Prop :=
| held_none w : held X fuel css n key v tn w [] w
| held_more w ts w1 i x m t ids w2 o tn2 : held X fuel css n key v tn w ts w1 -> prepare X fuel w1 i x = Ok (m, t, ids) -> update X fuel w1 i x = Ok (w2, o) ->
    fair css w1 t n -> gives_value css t (v_root w1) (v_body w1) n key v -> animators (v_tree w1) n = [] -> movers (v_tree w2) n = [tn2] -> same_mover tn tn2 ->
    held X fuel css n key v tn w (ts ++ [in_time i]) w2.
