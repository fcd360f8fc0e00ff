(** * Data binding: src/view_model.rs:34-236, 568-761 (binding half of [ViewModel]). *)
From stdpp Require Import gmap.
From RecordUpdate Require Import RecordUpdate.
From Verif Require Import Str F32 Res Json PropKey Html Css Element.

(** src/view_model.rs:606-613 *)
Inductive BindingParams :=
| BText (node : NodeId) (span : nat)
| BVisibility (parent node : NodeId) (visible : bool)
| BAttribute (node : NodeId) (key : string) (span : nat)
| BTag (node : NodeId) (key : string)
| BRepeat (parent : NodeId) (start size : nat).

(** src/view_model.rs:600-604 *)
Record Binding := mkBinding { bd_params : BindingParams; bd_pipe : list string }.

(** src/view_model.rs:15: a [BTreeMap<String, Vec<Binding>>] *)
Definition Bindings := list (string * list Binding).

(** src/view_model.rs:670-699 *)
Inductive Reaction :=
| RType (node : NodeId) (span : nat) (text : string)
| RReattach (parent node : NodeId) (visible : bool)
| RRepeat (parent : NodeId) (start cursor end_ : nat)
| RTag (node : NodeId) (key : string) (tag : bool)
| RBind (node : NodeId) (key : string) (span : nat) (text : string).

(** src/view_model.rs:17: [Transformer = fn(Value) -> Value]; application code,
    which may panic. *)
Notation Transformer := (json -> res json) (only parsing).
Notation Transformers := (gmap string Transformer) (only parsing).

(** src/view_model.rs:22: [model_array_default], a [HashMap<String, Value>] *)
Notation Defaults := (gmap string json) (only parsing).

(** [usize] arithmetic below is on [nat]: [start + size] counts rendered nodes. *)

Section binding.
  Context (fmt_f64 : f64 -> string).

  (** src/view_model.rs:616-667 *)
  Definition react_value_change (b : Binding) (value : json) : Reaction :=
    match bd_params b with
    | BVisibility parent node visible =>
        RReattach parent node (Bool.eqb (eval_boolean value) visible)
    | BTag node key => RTag node key (eval_boolean value)
    | BAttribute node key span => RBind node key span (eval_string fmt_f64 value)
    | BText node span => RType node span (eval_string fmt_f64 value)
    | BRepeat parent start size =>
        match as_array value with
        | Some l =>
            let count := List.length l in
            let count := if (size <? count)%nat then size else count in
            RRepeat parent start (start + count) (start + size)
        | None => RRepeat parent start start (start + size)
        end
    end.

  (** Transformers of a pipe in order; an unknown one is logged and skipped
      (src/view_model.rs:221-229 and 470-480). *)
  Fixpoint run_pipe (tr : Transformers) (pipe : list string) (value : json) : res json :=
    match pipe with
    | [] => Ok value
    | name :: pipe' =>
        match tr !! name with
        | None => run_pipe tr pipe' value
        | Some transform => do! v <- transform value; run_pipe tr pipe' v
        end
    end.

  (** src/view_model.rs:209-236 *)
  Definition react (bs : Bindings) (tr : Transformers) (path : string) (value : json)
    : res (list Reaction) :=
    match obj_get path bs with
    | None => Ok []
    | Some l =>
        mapR (fun b => do! v <- run_pipe tr (bd_pipe b) value; Ok (react_value_change b v)) l
    end.

  (** src/view_model.rs:52-69; [array[0]] panics on an empty array. *)
  Fixpoint memorize_array_default (type_path : string) (value : json) (d : Defaults) : res Defaults :=
    match value with
    | JArr l =>
        match l with
        | [] => Panic
        | v :: _ => memorize_array_default type_path v (<[type_path := v]> d)
        end
    | JObj m =>
        (fix go (m : list (string * json)) (d : Defaults) : res Defaults :=
           match m with
           | [] => Ok d
           | (k, v) :: m' =>
               do! d <- memorize_array_default (type_path +:+ "/" +:+ k) v d; go m' d
           end) m d
    | _ => Ok d
    end.

  Context (bs : Bindings) (tr : Transformers) (default : Defaults).

  Definition bind_out : Type := json * bool * list Reaction.

  (** [bind_value] on a [Null] source: the arms (Array, Null), (Object, Null) and
      the last arm of src/view_model.rs:128-204 at [src = Null].  It is split
      off so that both functions recurse structurally; [bind_value_eq] in
      BindFacts.v restates the one match of the source. *)
  Fixpoint bind_null (dst : json) (path apath : string) {struct dst} : res bind_out :=
    match dst with
    | JArr current =>
        match current with
        | [] => Ok (JArr [], false, [])
        | _ => do! rs <- react bs tr path (JArr []); Ok (JArr [], true, rs)
        end
    | JObj object =>
        do! (o, ch, rs) <-
          (fix go (m : list (string * json)) : res (list (string * json) * bool * list Reaction) :=
             match m with
             | [] => Ok ([], false, [])
             | (k, d) :: m' =>
                 do! (d', ch, rs) <- bind_null d (path +:+ "/" +:+ k) (apath +:+ "/" +:+ k);
                 do! (m'', ch', rs') <- go m';
                 Ok ((k, d') :: m'', ch || ch', rs ++ rs')
             end) object;
        if ch : bool
        then do! rs' <- react bs tr path JNull; Ok (JObj o, true, rs ++ rs')
        else Ok (JObj o, false, rs)
    | JNull => Ok (JNull, false, [])
    | _ => do! rs <- react bs tr path JNull; Ok (JNull, true, rs)
    end.

  (** The last arm of the match: compare, clone and react. *)
  Definition bind_leaf (dst src : json) (path : string) : res bind_out :=
    if json_eq dst src then Ok (dst, false, [])
    else do! rs <- react bs tr path src; Ok (src, true, rs).

  (** src/view_model.rs:86-206.  Returns the new destination, the "changed"
      flag and the reactions pushed. *)
  Fixpoint bind_value (dst src : json) (path apath : string) {struct src} : res bind_out :=
    match src with
    | JNull => bind_null dst path apath
    | JArr next =>
        match dst with
        | JArr current =>
            do! (current, ch0, rs0) <-
              (if Nat.eqb (List.length current) (List.length next)
               then Ok (current, false, [])
               else match default !! apath with
                    | Some d =>
                        do! rs <- react bs tr path (JArr next);
                        Ok (resize (List.length next) d current, true, rs)
                    | None => Ok (current, false, [])
                    end);
            (* for (index, dst) in current: next[index], panics past the end *)
            do! (l, ch, rs) <-
              (fix go (next : list json) (cur : list json) (i : nat) {struct next}
                 : res (list json * bool * list Reaction) :=
                 match cur with
                 | [] => Ok ([], false, [])
                 | d :: cur' =>
                     match next with
                     | [] => Panic
                     | s :: next' =>
                         do! (d', ch, rs) <- bind_value d s (path +:+ "/" +:+ fmt_nat i) apath;
                         do! (l, ch', rs') <- go next' cur' (S i);
                         Ok (d' :: l, ch || ch', rs ++ rs')
                     end
                 end) next current 0;
            Ok (JArr l, ch0 || ch, rs0 ++ rs)
        | _ => bind_leaf dst src path
        end
    | JObj sm =>
        match dst with
        | JArr _ => Ok (dst, false, [])
        | JObj object =>
            do! (o, ch, rs) <-
              (fix go (m : list (string * json)) : res (list (string * json) * bool * list Reaction) :=
                 match m with
                 | [] => Ok ([], false, [])
                 | (k, d) :: m' =>
                     (* src.get(key), Null when undefined *)
                     do! (d', ch, rs) <-
                       (fix find (sm : list (string * json)) : res bind_out :=
                          match sm with
                          | [] => bind_null d (path +:+ "/" +:+ k) (apath +:+ "/" +:+ k)
                          | (k', s) :: sm' =>
                              if String.eqb k k'
                              then bind_value d s (path +:+ "/" +:+ k) (apath +:+ "/" +:+ k)
                              else find sm'
                          end) sm;
                     do! (m'', ch', rs') <- go m';
                     Ok ((k, d') :: m'', ch || ch', rs ++ rs')
                 end) object;
            if ch : bool
            then do! rs' <- react bs tr path (JObj []); Ok (JObj o, true, rs ++ rs')
            else Ok (JObj o, false, rs)
        | _ => bind_leaf dst src path
        end
    | _ =>
        match dst with
        | JArr _ => Ok (dst, false, [])
        | _ => bind_leaf dst src path
        end
    end.
End binding.

(** src/view_model.rs:728-761: one token of [define_value]; the continuation
    defines the rest of the pointer inside the target. *)
Fixpoint define_tokens (tokens : list string) (target : json) : json :=
  match tokens with
  | [] => target
  | token :: rest =>
      match parse_usize token with
      | Some index =>
          let array := match target with JArr l => l | _ => [] end in
          let array := if (List.length array <=? index)%nat then resize (S index) JNull array else array in
          JArr (alter (define_tokens rest) index array)
      | None =>
          let object := match target with JObj m => m | _ => [] end in
          let v := match obj_get token object with Some v => v | None => JNull end in
          JObj (obj_insert token (define_tokens rest v) object)
      end
  end.

(** src/view_model.rs:732-735: pointer ["/this"] is ignored. *)
Definition define_value (target : json) (pointer : string) : json :=
  if String.eqb pointer "/this" then target
  else define_tokens (tail (split_on "/" pointer)) target.

(** src/view_model.rs:715-718 *)
Definition schema_new : json := JObj [].

(** src/view_model.rs:725-729 (field), 719-724 (index); an empty binder path panics. *)
Definition schema_field (s : json) (b : Binder) (locals : gmap string string) : res (json * string) :=
  match to_json_pointer locals b with
  | None => Panic
  | Some p => Ok (define_value s p, p)
  end.
Definition schema_index (s : json) (b : Binder) (i : nat) (locals : gmap string string)
  : res (json * string) :=
  match to_json_pointer locals b with
  | None => Panic
  | Some p => let p := p +:+ "/" +:+ fmt_nat i in Ok (define_value s p, p)
  end.
