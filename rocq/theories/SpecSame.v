(** * Updates that change nothing (C80): vocabulary. *)
From stdpp Require Import gmap.
From Verif Require Import Str F32 Res PropKey Css Element Tree Json Html ViewModel Update Styling Events View SpecLive SpecSelect SpecStyle SpecShow SpecPage.

(** no element has changed its state: under the mouse, pressed, focused *)
Definition same_flags (t t' : Tree) : Prop := forall n, e_state <$> get_ctx t' n = e_state <$> get_ctx t n.
(** [again X fuel x viewport v v']: updates with the data [x] and one viewport,
    whose input changes no state, take [v] to [v'] *)
Inductive again (X : Externals) (fuel : nat) (x : json) (viewport : vec2) : View -> View -> Prop :=
| again_none v : again X fuel x viewport v v
| again_more v v1 i v2 o : again X fuel x viewport v v1 -> in_viewport i = viewport -> update X fuel v1 i x = Ok (v2, o) -> same_flags (v_tree v1) (v_tree v2) -> again X fuel x viewport v v2.
