(** * JSON values: the serde_json types and src/value.rs. *)
From Verif Require Import Str F32 Res.
From Coq Require Import ZArith.

(** serde_json's [Number]: a non-negative integer, a negative integer or a
    finite double.  Values of different kinds are never equal, as in
    serde_json's [PartialEq]. *)
Inductive num :=
| NPos (n : N)
| NNeg (z : Z)
| NFloat (f : f64).

(** serde_json's [Value]; an object is a [BTreeMap], here the list of its
    entries in strictly increasing key order. *)
Inductive json :=
| JNull
| JBool (b : bool)
| JNum (n : num)
| JStr (s : string)
| JArr (l : list json)
| JObj (m : list (string * json)).

(** Byte order of strings, the order of Rust's [BTreeMap<String, _>]. *)
Fixpoint str_compare (a b : string) : comparison :=
  match a, b with
  | "", "" => Eq
  | "", _ => Lt
  | _, "" => Gt
  | String x a', String y b' =>
      match N.compare (N_of_ascii x) (N_of_ascii y) with
      | Eq => str_compare a' b'
      | c => c
      end
  end.
Definition str_lt (a b : string) : bool :=
  match str_compare a b with Lt => true | _ => false end.

(** Ordered maps as sorted association lists ([BTreeMap<String, A>]). *)
Section omap.
  Context {A : Type}.
  Fixpoint obj_get (k : string) (m : list (string * A)) : option A :=
    match m with
    | [] => None
    | (k', v) :: m' => if String.eqb k k' then Some v else obj_get k m'
    end.
  (** [BTreeMap::insert] / [Map::insert] *)
  Fixpoint obj_insert (k : string) (v : A) (m : list (string * A)) : list (string * A) :=
    match m with
    | [] => [(k, v)]
    | (k', v') :: m' =>
        match str_compare k k' with
        | Lt => (k, v) :: (k', v') :: m'
        | Eq => (k, v) :: m'
        | Gt => (k', v') :: obj_insert k v m'
        end
    end.
  Fixpoint obj_sorted (m : list (string * A)) : bool :=
    match m with
    | [] => true
    | (k, _) :: m' =>
        match m' with
        | [] => true
        | (k', _) :: _ => str_lt k k' && obj_sorted m'
        end
    end.
End omap.

Definition num_eq (a b : num) : bool :=
  match a, b with
  | NPos x, NPos y => N.eqb x y
  | NNeg x, NNeg y => Z.eqb x y
  | NFloat x, NFloat y => f64_eq x y
  | _, _ => false
  end.

(** [PartialEq for Value] *)
Fixpoint json_eq (a b : json) {struct a} : bool :=
  match a, b with
  | JNull, JNull => true
  | JBool x, JBool y => Bool.eqb x y
  | JNum x, JNum y => num_eq x y
  | JStr x, JStr y => String.eqb x y
  | JArr x, JArr y =>
      (fix go (x y : list json) : bool :=
         match x, y with
         | [], [] => true
         | a :: x', b :: y' => json_eq a b && go x' y'
         | _, _ => false
         end) x y
  | JObj x, JObj y =>
      (fix go (x y : list (string * json)) : bool :=
         match x, y with
         | [], [] => true
         | (k, a) :: x', (l, b) :: y' => String.eqb k l && json_eq a b && go x' y'
         | _, _ => false
         end) x y
  | _, _ => false
  end.

(** What serde_json guarantees of every [Value]: integers in range, floats
    finite, object entries sorted and unique. *)
Definition num_wf (n : num) : bool :=
  match n with
  | NPos n => (n <=? u64_max)%N
  | NNeg z => (-9223372036854775808 <=? z)%Z && (z <? 0)%Z
  | NFloat f => f64_finite f
  end.

Fixpoint json_wf (v : json) : bool :=
  match v with
  | JNum n => num_wf n
  | JArr l => forallb json_wf l
  | JObj m => obj_sorted m && forallb (fun e => json_wf (snd e)) m
  | _ => true
  end.

(** [Number::as_f64] *)
Definition num_as_f64 (n : num) : f64 :=
  match n with
  | NPos n => f64_of_Z (Z.of_N n)
  | NNeg z => f64_of_Z z
  | NFloat f => f
  end.

(** [Value::as_f64] *)
Definition as_f64 (v : json) : option f64 :=
  match v with JNum n => Some (num_as_f64 n) | _ => None end.

(** [Value::as_array] *)
Definition as_array (v : json) : option (list json) :=
  match v with JArr l => Some l | _ => None end.

Section eval.
  (** Rendering of a float by [Display for Number] (ryu); an external. *)
  Variable fmt_f64 : f64 -> string.

  Definition fmt_Z (z : Z) : string :=
    match z with
    | Z0 => "0"
    | Zpos p => fmt_N (Npos p)
    | Zneg p => "-" +:+ fmt_N (Npos p)
    end.

  (** [Number::to_string] *)
  Definition fmt_num (n : num) : string :=
    match n with
    | NPos n => fmt_N n
    | NNeg z => fmt_Z z
    | NFloat f => fmt_f64 f
    end.

  (** src/value.rs:53-62 *)
  Definition eval_string (v : json) : string :=
    match v with
    | JNull => ""
    | JBool true => "true"
    | JBool false => "false"
    | JNum n => fmt_num n
    | JStr s => s
    | JArr _ => "[array]"
    | JObj _ => "{object}"
    end.

  (** src/value.rs:17-22 *)
  Definition eval_array (v : json) : list string :=
    match v with
    | JArr l => map eval_string l
    | _ => [eval_string v]
    end.
End eval.

(** src/value.rs:64-73 *)
Definition eval_boolean (v : json) : bool :=
  match v with
  | JNull => false
  | JBool b => b
  | JNum n => negb (f64_eq (num_as_f64 n) f64_0)
  | JStr s => (0 <? String.length s)%nat
  | JArr l => (0 <? List.length l)%nat
  | JObj _ => true
  end.

(** src/value.rs:24-41 *)
Definition eval_u64 (v : json) : Z :=
  match v with
  | JNull => 0
  | JBool b => if b then 1 else 0
  | JNum n => f64_as_u64 (num_as_f64 n)
  | JStr s => match parse_u64 s with Some n => Z.of_N n | None => 0 end
  | JArr _ => 0
  | JObj _ => 0
  end.

(** [str::replace("~1", "/").replace("~0", "~")], applied by serde_json to each
    reference token of a pointer: sequential replacement, left to right. *)
Fixpoint replace_tilde (d : ascii) (c : ascii) (s : string) : string :=
  match s with
  | "" => ""
  | String a s1 =>
      match s1 with
      | String b s2 =>
          if Ascii.eqb a "~" && Ascii.eqb b d then String c (replace_tilde d c s2)
          else String a (replace_tilde d c s1)
      | "" => String a ""
      end
  end.
Definition unescape (s : string) : string :=
  replace_tilde "0" "~" (replace_tilde "1" "/" s).

(** serde_json's [parse_index]: no leading ['+'], no leading zero. *)
Definition parse_index (s : string) : option nat :=
  match s with
  | String "+" _ => None
  | String "0" (String _ _) => None
  | _ => parse_usize s
  end.

Definition pointer_step (cur : option json) (token : string) : option json :=
  match cur with
  | Some (JObj m) => obj_get token m
  | Some (JArr l) => match parse_index token with Some i => l !! i | None => None end
  | _ => None
  end.

(** [Value::pointer] of serde_json. *)
Definition pointer (v : json) (p : string) : option json :=
  match p with
  | "" => Some v
  | String "/" _ => foldl pointer_step (Some v) (map unescape (tail (split_on "/" p)))
  | _ => None
  end.
