(** Vocabulary of the property about objectives that return arrays of several axes (C91). *)
From Coq Require Import List Arith.
From Verif Require Import Prelude F64 Num Np Handlers Swarms Operators Generators Topology Optimizers Broadcast Axes.
Import ListNotations.

(** Length of the axis [j] counted from the last; missing axes count as 1. *)
Definition axis (a : list nat) (j : nat) : nat := nth j (rev a) 1.
(** numpy can combine arrays of the shapes [a] and [b]. *)
Definition fits (a b : list nat) : Prop := forall j, axis a j = axis b j \/ axis a j = 1 \/ axis b j = 1.
(** [r] is the shape of the result. *)
Definition combined (a b r : list nat) : Prop := length r = Nat.max (length a) (length b) /\ forall j, axis r j = if Nat.eqb (axis a j) 1 then axis b j else axis a j.
(** A number or an array of one axis, written as an array. *)
Definition as_array (g : given) : ndarray := match g with Single x => mkArray [] [x] | Array l => mkArray [length l] l end.
(** [f] returns what [g] returns. *)
Definition plainly (f : nat -> fmatrix -> res ndarray) (g : nat -> fmatrix -> res given) : Prop :=
  forall i X, f i X = match g i X with Ok v => Ok (as_array v) | Err x => Err x end.
