(** numpy primitives used by the code (numpy 1.16 semantics). *)
From Coq Require Import List Arith Bool.
From Verif Require Import Prelude Num.
Import ListNotations.

Section Np.
Context {N : Num}.

(** [np.min]/[np.amin] along an axis: reduction with
    [(a <= b || isnan a) ? a : b], so a NaN wins.  Empty input: ValueError. (Used by star.py:66-70, ring.py:83, pyramid.py:70, 102, random.py:88, handlers.py:266.) *)
Definition np_min2 (a b : N) : N := if nle a b || nisnan a then a else b.
(** The whole reduction; same uses. *)
Definition np_min (l : list N) : res N :=
  match l with
  | [] => Err ValueError
  | x :: r => Ok (fold_left np_min2 r x)
  end.

(** [ndarray.argmin] (DOUBLE_argmin): scan keeping the first minimum; a NaN stops the
    scan.  Empty input: ValueError. (Used by star.py:69, ring.py:78, pyramid.py:69, 90, random.py:76, and [pbest_cost.argmin()] in global_best.py:252, local_best.py:280, general_optimizer.py:292, binary.py:238.) *)
Fixpoint argmin_from (best : N) (besti i : nat) (l : list N) : nat :=
  if nisnan best then besti
  else match l with
       | [] => besti
       | x :: r => if nle best x then argmin_from best besti (S i) r
                   else argmin_from x i (S i) r
       end.
(** The whole scan; same uses. *)
Definition np_argmin (l : list N) : res nat :=
  match l with
  | [] => Err ValueError
  | x :: r => Ok (argmin_from x 0 1 r)
  end.

(** Fancy indexing [l[idx]] with an integer index array. (Used by ring.py:78-84, pyramid.py:88-103, random.py:74-89.) *)
Definition np_take {A} (l : list A) (idx : list nat) : res (list A) :=
  mapM (fun i => of_option IndexError (nth_error l i)) idx.

(** [np.array_split(l, n)] along axis 0: the first [len mod n] chunks have one more row.
    (numpy/lib/shape_base.py array_split) *)
Fixpoint split_sizes {A} (sizes : list nat) (l : list A) : list (list A) :=
  match sizes with
  | [] => []
  | s :: r => firstn s l :: split_sizes r (skipn s l)
  end.
(** Sizes of the chunks of [np.array_split] (operators.py:243, plotters.py:423, formatters.py:203). *)
Definition chunk_sizes (len n : nat) : list nat :=
  repeat (len / n + 1) (len mod n) ++ repeat (len / n) (n - len mod n).
(** The chunks themselves (operators.py:243, plotters.py:423, formatters.py:203). *)
Definition array_split {A} (l : list A) (n : nat) : list (list A) :=
  split_sizes (chunk_sizes (length l) n) l.

End Np.
