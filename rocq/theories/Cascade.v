(** * Computing declared values: src/styles/mod.rs:130-180, src/styles/compute_function.rs,
      src/styles/compute_style.rs. *)
From stdpp Require Import gmap.
From Verif Require Import Str F32 Res PropKey Css.

(** src/styles/mod.rs:36 *)
Definition Variables := gmap string Shorthand.

(** src/styles/compute_function.rs:30-47 *)
Definition map_c (v : ComputedValue) : Z :=
  match v with
  | CZero => 0
  | CPercentage f => f32_as_u8 (fmul f f255)
  | CNumber f => f32_as_u8 f
  | _ => 0
  end.
Definition map_a (v : ComputedValue) : Z :=
  match v with
  | CZero => 0
  | CPercentage f => f32_as_u8 (fmul f f255)
  | CNumber f => f32_as_u8 (fmul f f255)
  | _ => 0
  end.

(** src/styles/compute_function.rs:7-27, after its arguments are computed *)
Definition compute_function (name : string) (args : list ComputedValue) : ComputedValue :=
  match args with
  | [r; g; b] =>
      if String.eqb name "rgb" then CColor (map_c r, map_c g, map_c b, 255%Z) else CError
  | [r; g; b; a] =>
      if String.eqb name "rgba" then CColor (map_c r, map_c g, map_c b, map_a a) else CError
  | [CStr path] => if String.eqb name "url" then CStr path else CError
  | _ => CError
  end.

(** src/styles/mod.rs:146-169.  A variable is replaced by its definition, so
    the recursion is on fuel; [Hang] is the unbounded recursion of the source
    (a definition that refers to itself overflows the stack). *)
Fixpoint compute_definition (fuel : nat) (vars : Variables) (d : Definition_) {struct fuel}
  : res (list ComputedValue) :=
  match fuel with
  | O => Hang
  | S fuel =>
      match d with
      | DVar name =>
          match vars !! name with
          | None => Ok [CError]
          | Some sh => do! l <- mapR (compute_definition fuel vars) sh; Ok (List.concat l)
          end
      | DFunction name args =>
          do! l <- mapR (compute_definition fuel vars) args;
          Ok [compute_function name (List.concat l)]
      | DExplicit v => Ok [v]
      end
  end.
Definition compute_shorthand (fuel : nat) (vars : Variables) (sh : Shorthand) : res (list ComputedValue) :=
  do! l <- mapR (compute_definition fuel vars) sh; Ok (List.concat l).

Definition kw_none : ComputedValue := CKeyword "none".
Definition kw_currentcolor : ComputedValue := CKeyword "currentcolor".

Definition four (a b c d : PropertyKey) (va vb vc vd : ComputedValue) : list (PropertyKey * ComputedValue) :=
  [(a, va); (b, vb); (c, vc); (d, vd)].
Definition border_all (width color : ComputedValue) : list (PropertyKey * ComputedValue) :=
  [(KBorderTopWidth, width); (KBorderTopColor, color); (KBorderRightWidth, width); (KBorderRightColor, color);
   (KBorderBottomWidth, width); (KBorderBottomColor, color); (KBorderLeftWidth, width); (KBorderLeftColor, color)].

(** src/styles/compute_style.rs:22-290: which longhand properties a declaration
    sets, in order ([overwrite] calls).  An unsupported shape sets nothing. *)
Definition expand (key : PropertyKey) (sh : list ComputedValue) : list (PropertyKey * ComputedValue) :=
  match key with
  | KBackground =>
      match sh with
      | [color] => [(KBackgroundImage, kw_none); (KBackgroundColor, color)]
      | _ => []
      end
  | KBackgroundPosition =>
      match sh with
      | [v] => [(KBackgroundPositionX, v); (KBackgroundPositionY, v)]
      | [x; y] => [(KBackgroundPositionX, x); (KBackgroundPositionY, y)]
      | _ => []
      end
  | KBorder =>
      match sh with
      | [CKeyword k] => if String.eqb k "none" then border_all CZero kw_currentcolor else []
      | [width; _; color] => border_all width color
      | [v] => [(KBorder, v)]
      | _ => []
      end
  | KBorderTop =>
      match sh with
      | [w; _; c] => [(KBorderTopWidth, w); (KBorderTopColor, c)]
      | [v] => [(key, v)]
      | _ => []
      end
  | KBorderRight =>
      match sh with
      | [w; _; c] => [(KBorderRightWidth, w); (KBorderRightColor, c)]
      | [v] => [(key, v)]
      | _ => []
      end
  | KBorderBottom =>
      match sh with
      | [w; _; c] => [(KBorderBottomWidth, w); (KBorderBottomColor, c)]
      | [v] => [(key, v)]
      | _ => []
      end
  | KBorderLeft =>
      match sh with
      | [w; _; c] => [(KBorderLeftWidth, w); (KBorderLeftColor, c)]
      | [v] => [(key, v)]
      | _ => []
      end
  | KBorderWidth =>
      let f := four KBorderTopWidth KBorderRightWidth KBorderBottomWidth KBorderLeftWidth in
      match sh with
      | [t; r; b; l] => f t r b l
      | [t; h; b] => f t h b h
      | [v; h] => f v h v h
      | [v] => f v v v v
      | _ => []
      end
  | KBorderColor =>
      let f := four KBorderTopColor KBorderRightColor KBorderBottomColor KBorderLeftColor in
      match sh with
      | [t; r; b; l] => f t r b l
      | [t; h; b] => f t h b h
      | [v; h] => f v h v h
      | [v] => f v v v v
      | _ => []
      end
  | KBorderRadius =>
      let f := four KBorderTopLeftRadius KBorderTopRightRadius KBorderBottomRightRadius KBorderBottomLeftRadius in
      match sh with
      | [a; b; c; d] => f a b c d
      | [a; b; c] => f a b c b
      | [a; b] => f a b a b
      | [v] => f v v v v
      | _ => []
      end
  | KOverflow =>
      match sh with
      | [v] => [(KOverflowX, v); (KOverflowY, v)]
      | [x; y] => [(KOverflowX, x); (KOverflowY, y)]
      | _ => []
      end
  | KInset =>
      let f := four KTop KRight KBottom KLeft in
      match sh with
      | [t; r; b; l] => f t r b l
      | [v] => f v v v v
      | _ => []
      end
  | KGap =>
      match sh with
      | [column; row] => [(KRowGap, row); (KColumnGap, column)]
      | [v] => [(KRowGap, v); (KColumnGap, v)]
      | _ => []
      end
  | KPadding =>
      let f := four KPaddingTop KPaddingRight KPaddingBottom KPaddingLeft in
      match sh with
      | [t; r; b; l] => f t r b l
      | [t; h; b] => f t h b h
      | [v; h] => f v h v h
      | [v] => f v v v v
      | _ => []
      end
  | KMargin =>
      let f := four KMarginTop KMarginRight KMarginBottom KMarginLeft in
      match sh with
      | [t; r; b; l] => f t r b l
      | [t; h; b] => f t h b h
      | [v; h] => f v h v h
      | [v] => f v v v v
      | _ => []
      end
  | KTransition =>
      match sh with
      | [p; d] => [(KTransitionProperty, p); (KTransitionDuration, d)]
      | [p; d; t] => [(KTransitionProperty, p); (KTransitionDuration, d); (KTransitionTimingFunction, t)]
      | [p; d; t; y] =>
          [(KTransitionProperty, p); (KTransitionDuration, d); (KTransitionTimingFunction, t); (KTransitionDelay, y)]
      | [v] => [(key, v)]
      | _ => []
      end
  | KAnimation =>
      match sh with
      | [d; t; CTime y; n] =>
          [(KAnimationDelay, CTime y); (KAnimationDuration, d); (KAnimationName, n); (KAnimationTimingFunction, t)]
      | [d; t; i; n] =>
          [(KAnimationDuration, d); (KAnimationIterationCount, i); (KAnimationName, n); (KAnimationTimingFunction, t)]
      | [d; t; n] => [(KAnimationDuration, d); (KAnimationName, n); (KAnimationTimingFunction, t)]
      | [d; n] => [(KAnimationDuration, d); (KAnimationName, n)]
      | [v] => [(key, v)]
      | _ => []
      end
  | _ =>
      match sh with
      | [v] => [(key, v)]
      | _ => []
      end
  end.

(** [overwrite]: [style.insert(PropertyDescriptor::new(key, index), value)] *)
Definition overwrite_all (index : nat) (l : list (PropertyKey * ComputedValue)) (s : ComputedStyle) : ComputedStyle :=
  foldl (fun s '(k, v) => <[(k, index) := v]> s) s l.

(** src/styles/compute_style.rs:7-291 *)
Definition compute_style (fuel : nat) (vars : Variables) (key : PropertyKey) (index : nat) (sh : Shorthand)
    (s : ComputedStyle) : res ComputedStyle :=
  do! values <- compute_shorthand fuel vars sh;
  Ok (overwrite_all index (expand key values) s).

(** the loop over [property.values] (src/styles/mod.rs:137-139) *)
Fixpoint compute_values (fuel : nat) (vars : Variables) (key : PropertyKey) (index : nat) (values : list Shorthand)
    (s : ComputedStyle) : res ComputedStyle :=
  match values with
  | [] => Ok s
  | sh :: values' =>
      do! s <- compute_style fuel vars key index sh s;
      compute_values fuel vars key (S index) values' s
  end.

(** src/styles/mod.rs:132-144 *)
Definition compute_declaration (fuel : nat) (st : Variables * ComputedStyle) (d : Declaration)
  : res (Variables * ComputedStyle) :=
  let '(vars, s) := st in
  match d with
  | DeclVariable v => Ok (<[v_key v := v_shorthand v]> vars, s)
  | DeclProperty p =>
      do! s <- compute_values fuel vars (p_key p) 0 (p_values p) s; Ok (vars, s)
  end.
Definition compute_declaration_block (fuel : nat) (block : list Declaration) (st : Variables * ComputedStyle)
  : res (Variables * ComputedStyle) :=
  foldR (compute_declaration fuel) st block.
