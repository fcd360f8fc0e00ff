(** * Outcomes of a Rust function.

    [Ok]/[Err] are the two constructors of [Result<_, ViewError>]; [Panic] is a
    panicking path (index out of range, [unwrap] on [None], ...); [Hang] is a
    loop or recursion that does not terminate. *)
From Verif Require Import Str.

(** src/error.rs:8-22, the variants reachable from [View::update] and the
    renderer; I/O and parser errors carry no data here. *)
Inductive ViewError :=
| ELayout                                (* ViewError::Layout(TaffyError) *)
| EElementNotFound (node : nat)
| EElementTextContentNotFound
| EParentNotFound (node : nat)
| EChildNotFound (node : nat)
| EHtml
| ECss
| EIo
| EBodyNotFound
| EElementInvalidBehaviour
| EAttributeBindingNotFound (key : string)
| ETemplateNotFound (id : string).

Inductive res (A : Type) :=
| Ok (a : A)
| Err (e : ViewError)
| Panic
| Hang.
Arguments Ok {A} a.
Arguments Err {A} e.
Arguments Panic {A}.
Arguments Hang {A}.

(** The [?] operator / sequencing: the first failure stops the function. *)
Definition bindR {A B} (m : res A) (f : A -> res B) : res B :=
  match m with
  | Ok a => f a
  | Err e => Err e
  | Panic => Panic
  | Hang => Hang
  end.

Notation "'do!' x <- m ; k" := (bindR m (fun x => k))
  (at level 200, x pattern, m at level 100, k at level 200, right associativity).

(** [Option::ok_or(e)?] *)
Definition ok_or {A} (o : option A) (e : ViewError) : res A :=
  match o with Some a => Ok a | None => Err e end.

(** [Option::unwrap()] *)
Definition unwrap {A} (o : option A) : res A :=
  match o with Some a => Ok a | None => Panic end.

(** A [for] loop whose body may fail, threading a state. *)
Fixpoint foldR {A S} (f : S -> A -> res S) (s : S) (l : list A) : res S :=
  match l with
  | [] => Ok s
  | a :: l' => do! s' <- f s a; foldR f s' l'
  end.

(** [iter().map(..).collect()] with a failing body. *)
Fixpoint mapR {A B} (f : A -> res B) (l : list A) : res (list B) :=
  match l with
  | [] => Ok []
  | a :: l' => do! b <- f a; do! bs <- mapR f l'; Ok (b :: bs)
  end.

Definition is_ok {A} (m : res A) : bool :=
  match m with Ok _ => true | _ => false end.

(** [iter().position(|c| c == x)] *)
Fixpoint position (x : nat) (l : list nat) : option nat :=
  match l with
  | [] => None
  | y :: l' => if Nat.eqb y x then Some O else S <$> position x l'
  end.

(** [slice::contains] on node ids *)
Definition memb (x : nat) (l : list nat) : bool := existsb (Nat.eqb x) l.

(** [Vec::resize(n, d)] *)
Definition resize {A} (n : nat) (d : A) (l : list A) : list A :=
  take n l ++ repeat d (n - List.length l).
