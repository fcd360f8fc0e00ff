(** * The reactions of a history (C08-C11). *)
From stdpp Require Import gmap.
From Verif Require Import Str F32 Res Json ViewModel Events View.

(** [reacted X fuel v hist v' log]: the updates [hist] take [v] to [v'], and
    [log] is everything the bindings were told on the way, in order. *)
Inductive reacted (X : Externals) (fuel : nat) : View -> list (Input * json) -> View -> list Reaction -> Prop :=
| reacted_nil v : reacted X fuel v [] v []
| reacted_cons v i x hist m rs v1 o v' log :
    view_bind X v x = Ok (m, rs) -> update X fuel v i x = Ok (v1, o) -> reacted X fuel v1 hist v' log ->
    reacted X fuel v ((i, x) :: hist) v' (rs ++ log).
