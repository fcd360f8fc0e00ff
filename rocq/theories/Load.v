(** * Loading a page from texts: src/view.rs:30-94. *)
From stdpp Require Import gmap.
From Verif Require Import Str F32 Res Json PropKey Html Css Element Tree ViewModel Render Styling Events ReadCss ReadHtml View.

(** The reader of inline styles as the callers use it: src/view.rs:275 and src/rendering.rs:111 match
    on the result, log an error and go on without a style.  (It never fails, panics or hangs: C61.) *)
Definition inline_reader (s : string) : option (list Declaration) :=
  match read_inline_css s with Ok ds => Some ds | _ => None end.
(** The externals with this reader. *)
Definition reading (X : Externals) : Externals :=
  mkExternals (x_fmt_f64 X) (x_translate X) inline_reader (x_order X) (x_layout X) (x_transformers X) (x_debug X).

(** src/view.rs:30-94; fonts and resources are not modelled. *)
Definition from_html (X : Externals) (fuel : nat) (html css : string) : res View :=
  do! h <- read_html html;
  do! c <- read_css css;
  from_document (reading X) fuel h c.
