(** * Vocabulary for images (C71). *)
From stdpp Require Import gmap.
From Verif Require Import Str Element Tree SpecLive.

(** [n] is an [img] element *)
Definition is_image (t : Tree) (n : NodeId) : Prop := exists e, get_ctx t n = Some e /\ e_tag e = "img".
(** What an application draws for an image: the element has one child, and that
    child has one background, a picture marked as the image's source. *)
Definition draws (t : Tree) (n : NodeId) (src : string) : Prop :=
  exists c e b, attached t n = [c] /\ get_ctx t c = Some e /\ e_backgrounds e = [b] /\ bg_image b = Some src /\ bg_is_src b = true.
