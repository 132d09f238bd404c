(** Results, exceptions as values, and list/matrix combinators shared by the model. *)
From Coq Require Import String List Arith Bool.
Import ListNotations.

(** Python exceptions that the modelled code can raise.  [UserError n] stands for an
    exception raised by the user's objective.  [OutOfFuel] is the model's marker for a
    [while] loop that has not ended within the given number of passes and [Unmodelled]
    marks a call outside the modelled fragment; neither is a Python exception. (Raised in handlers.py, operators.py, generators.py, swarms.py, topology/*.py, base/*.py, single/*.py, discrete/binary.py, utils/**.py.) *)
Inductive exn : Type :=
| ValueError | TypeError | KeyError | IndexError | AttributeError
| AssertionError | OverflowError | ZeroDivisionError | FileNotFoundError
| UserError (code : nat) | OutOfFuel | Unmodelled.

(** A value or a raised exception (try/except/raise throughout /repo/pyswarms; every except block there re-raises). *)
Inductive res (A : Type) : Type :=
| Ok (a : A)
| Err (e : exn).
Arguments Ok {A} a.
Arguments Err {A} e.

(** Sequencing of statements: the first exception ends the block. *)
Definition bind {A B} (x : res A) (f : A -> res B) : res B :=
  match x with Ok a => f a | Err e => Err e end.
Notation "'do' x <- e ; f" := (bind e (fun x => f))
  (at level 200, x pattern, e at level 100, f at level 200, right associativity).

(** List comprehensions and maps over rows, e.g. decorators.py:46-48, operators.py:241-244. *)
Fixpoint mapM {A B} (f : A -> res B) (l : list A) : res (list B) :=
  match l with
  | [] => Ok []
  | x :: r => do y <- f x; do ys <- mapM f r; Ok (y :: ys)
  end.

(** Lookups that raise: dict access (KeyError), list/array indexing (IndexError). *)
Definition of_option {A} (e : exn) (o : option A) : res A :=
  match o with Some a => Ok a | None => Err e end.

(** Elementwise combinators.  They truncate to the shortest list: the callers check shapes
    (numpy would raise [ValueError] on a mismatch). *)
Fixpoint map2 {A B C} (f : A -> B -> C) (l : list A) (m : list B) : list C :=
  match l, m with
  | a :: l', b :: m' => f a b :: map2 f l' m'
  | _, _ => []
  end.

(** Three matrices elementwise, e.g. handlers.py:164-169. *)
Fixpoint map3 {A B C D} (f : A -> B -> C -> D) (l : list A) (m : list B) (n : list C) : list D :=
  match l, m, n with
  | a :: l', b :: m', c :: n' => f a b c :: map3 f l' m' n'
  | _, _, _ => []
  end.

(** Four matrices elementwise, e.g. handlers.py:340-345. *)
Fixpoint map4 {A B C D E} (f : A -> B -> C -> D -> E)
    (l : list A) (m : list B) (n : list C) (o : list D) : list E :=
  match l, m, n, o with
  | a :: l', b :: m', c :: n', d :: o' => f a b c d :: map4 f l' m' n' o'
  | _, _, _, _ => []
  end.

(** Shapes: [n] rows of length [d]. *)
Definition is_matrix {A} (n d : nat) (m : list (list A)) : Prop :=
  length m = n /\ Forall (fun r => length r = d) m.

(** [m.shape == (n, d)] *)
Definition shape_ok {A} (n d : nat) (m : list (list A)) : bool :=
  Nat.eqb (length m) n && forallb (fun r => Nat.eqb (length r) d) m.

(** [m.shape == m2.shape], what numpy needs to combine two matrices elementwise (operators.py:62-79, 132-143, 196-210). *)
Definition same_shape {A B} (m : list (list A)) (m' : list (list B)) : bool :=
  Nat.eqb (length m) (length m') &&
  forallb (fun p => Nat.eqb (length (fst p)) (length (snd p))) (combine m m').

(** Python dicts with string keys, as association lists (first binding wins). (options, strategy and end_opts dicts: handlers.py:606-764, operators.py:128-130, utils/search/*.py.) *)
Definition dict (V : Type) := list (string * V).
(** [d[k]] / [d.get(k)] *)
Fixpoint dget {V} (d : dict V) (k : string) : option V :=
  match d with
  | [] => None
  | (k', v) :: r => if String.eqb k k' then Some v else dget r k
  end.
(** [d.keys()], iteration order (insertion order) *)
Definition dkeys {V} (d : dict V) : list string := map fst d.
(** [k in d] *)
Definition dmem {V} (d : dict V) (k : string) : bool :=
  match dget d k with Some _ => true | None => false end.
(** [d[k] = v]. (handlers.py:613-615 [return_opts[opt] = ...].) *)
Fixpoint dset {V} (d : dict V) (k : string) (v : V) : dict V :=
  match d with
  | [] => [(k, v)]
  | (k', v') :: r => if String.eqb k k' then (k', v) :: r else (k', v') :: dset r k v
  end.
