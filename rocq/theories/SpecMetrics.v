(** * What the counters count (C83). *)
From stdpp Require Import gmap.
From Verif Require Import Str F32 Res PropKey Css Element Tree Cascade Apply Render SpecSelect SpecStyle SpecShow SpecPage Metrics.

(** [l] lists what [P] holds of, each once *)
Definition lists {A} (P : A -> Prop) (l : list A) : Prop := NoDup l /\ forall a, a ∈ l <-> P a.
(** there are [n] things that [P] holds of *)
Definition there_are {A} (n : nat) (P : A -> Prop) : Prop := exists l : list A, lists P l /\ List.length l = n.

(** [total f l]: the sum of [f] over [l] *)
Fixpoint total {A} (f : A -> nat) (l : list A) : nat := match l with [] => 0 | a :: l => f a + total f l end.

(** the rules that an element keeps to style itself with: those that are known to
    apply to it, and those that have to be matched anew *)
Definition kept_static (t : Tree) (n : NodeId) : nat :=
  match get_ctx t n with Some e => List.length (List.filter (fun s => match s with EStatic _ => true | EDynamic _ => false end) (e_styles e)) | None => 0 end.
Definition kept_dynamic (t : Tree) (n : NodeId) : nat :=
  match get_ctx t n with Some e => List.length (List.filter (fun s => match s with EDynamic _ => true | EStatic _ => false end) (e_styles e)) | None => 0 end.

(** the layout style of [n] is another one, as taffy compares them *)
Definition restyled (t t' : Tree) (n : NodeId) : bool :=
  match t_nodes t !! n, t_nodes t' !! n with Some x, Some x' => negb (tstyle_eqb (n_style x) (n_style x')) | _, _ => false end.

(** [v] is a value that bumaga can give the property; [outline] takes anything *)
Definition has_meaning (k : PropertyKey) (v : ComputedValue) : Prop := k = KOutline \/ exists sizes, is_Some (SpecShow.meaning sizes k v).

(** no counter is less; [styles] is a gauge, not a counter *)
Definition grows (c c' : Metrics) : Prop :=
  m_updates c <= m_updates c' /\ m_elements_shown c <= m_elements_shown c' /\ m_cascades c <= m_cascades c' /\ m_layouts c <= m_layouts c' /\
  m_matches_static c <= m_matches_static c' /\ m_matches_dynamic c <= m_matches_dynamic c' /\ m_apply_ok c <= m_apply_ok c' /\ m_apply_error c <= m_apply_error c'.

(** the numbers in a layout style *)
Definition dimension_numbers (d : Dimension) : list f32 := match d with DimLength f | DimPercent f => [f] | DimAuto => [] end.
Definition lp_numbers (d : LP) : list f32 := match d with LPLength f | LPPercent f => [f] end.
Definition lpa_numbers (d : LPA) : list f32 := match d with LPALength f | LPAPercent f => [f] | LPAAuto => [] end.
Definition rect_numbers {A : Set} (f : A -> list f32) (r : Rect A) : list f32 := f (r_left r) ++ f (r_right r) ++ f (r_top r) ++ f (r_bottom r).
Definition size_numbers {A : Set} (f : A -> list f32) (s : Size2 A) : list f32 := f (sz_width s) ++ f (sz_height s).
Definition style_numbers (s : TStyle) : list f32 :=
  rect_numbers lpa_numbers (ts_inset s) ++ rect_numbers lpa_numbers (ts_margin s) ++ rect_numbers lp_numbers (ts_padding s) ++ rect_numbers lp_numbers (ts_border s) ++
  size_numbers dimension_numbers (ts_size s) ++ size_numbers dimension_numbers (ts_min_size s) ++ size_numbers dimension_numbers (ts_max_size s) ++ size_numbers lp_numbers (ts_gap s) ++
  [ts_flex_grow s; ts_flex_shrink s] ++ dimension_numbers (ts_flex_basis s).
(** none of them is a NaN *)
Definition no_nan (t : Tree) (n : NodeId) : Prop := forall x f, t_nodes t !! n = Some x -> f ∈ style_numbers (n_style x) -> feq f f = true.

(** the style with [f] put on every number of it *)
Definition dimension_map (f : f32 -> f32) (d : Dimension) : Dimension :=
  match d with DimLength a => DimLength (f a) | DimPercent a => DimPercent (f a) | DimAuto => DimAuto end.
Definition lp_map (f : f32 -> f32) (d : LP) : LP := match d with LPLength a => LPLength (f a) | LPPercent a => LPPercent (f a) end.
Definition lpa_map (f : f32 -> f32) (d : LPA) : LPA :=
  match d with LPALength a => LPALength (f a) | LPAPercent a => LPAPercent (f a) | LPAAuto => LPAAuto end.
Definition rect_map {A : Set} (f : A -> A) (r : Rect A) : Rect A := mkRect (f (r_left r)) (f (r_right r)) (f (r_top r)) (f (r_bottom r)).
Definition size_map {A : Set} (f : A -> A) (s : Size2 A) : Size2 A := mkSize (f (sz_width s)) (f (sz_height s)).
Definition style_map (f : f32 -> f32) (s : TStyle) : TStyle :=
  mkTStyle (ts_display s) (ts_overflow_x s) (ts_overflow_y s) (ts_position s) (ts_box_sizing s)
    (rect_map (lpa_map f) (ts_inset s)) (rect_map (lpa_map f) (ts_margin s)) (rect_map (lp_map f) (ts_padding s)) (rect_map (lp_map f) (ts_border s))
    (size_map (dimension_map f) (ts_size s)) (size_map (dimension_map f) (ts_min_size s)) (size_map (dimension_map f) (ts_max_size s)) (size_map (lp_map f) (ts_gap s))
    (ts_align_items s) (ts_align_self s) (ts_justify_items s) (ts_justify_self s) (ts_align_content s) (ts_justify_content s)
    (ts_flex_direction s) (ts_flex_wrap s) (f (ts_flex_grow s)) (f (ts_flex_shrink s)) (dimension_map f (ts_flex_basis s)).
(** minus zero is zero *)
Definition unsigned_zero (f : f32) : f32 := if feq f f0 then f0 else f.
