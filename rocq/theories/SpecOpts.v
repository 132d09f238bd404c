(** Vocabulary of the options-handler and binary properties, independent of the model's own
    evaluation functions. *)
From Coq Require Import String ZArith List Arith Bool Reals.
From Verif Require Import Prelude F64 Num Np Handlers.
Import ListNotations.
Local Open Scope string_scope.

Section Opts.
Context {N : Num}.
(** The number stored under [key]. *)
Definition holds (o : options N) (key : string) (x : N) : Prop :=
  dget o key = Some (PFloat x) \/ exists z, dget o key = Some (PInt z) /\ x = nofZ z.
(** The three strategies with default end values read [c1] and [c2]. *)
Definition has_defaults (o : options N) : Prop := dget o "c1" <> None /\ dget o "c2" <> None.
(** The end value of option [opt]: the caller's, else 0.4 for w, 0.8*c1 for c1, 1*c2 for c2. *)
Definition ends_at (start : options N) (k : oh_kwargs N) (opt : string) (x : N) : Prop :=
  (exists e, ok_end k = Some e /\ dget e opt = Some x) \/
  ((forall e, ok_end k = Some e -> dget e opt = None) /\
   ((opt = "w" /\ x = ndec 4 10) \/
    (opt = "c1" /\ exists c, holds start "c1" c /\ x = nmul (ndec 8 10) c) \/
    (opt = "c2" /\ exists c, holds start "c2" c /\ x = nmul (nofZ 1) c))).
(** The documented formulas.  [x] is the new value of [opt] under strategy [st], from the start
    options, the iteration number and the caller's keyword arguments alone. *)
Inductive new_value (lib : oh_lib N) (start : options N) (k : oh_kwargs N) (opt : string) : string -> N -> Prop :=
| NV_lin : forall s e i m, holds start opt s -> has_defaults start -> ends_at start k opt e ->
    ok_iternow k = Some i -> ok_itermax k = Some m -> m <> 0%Z ->
    new_value lib start k opt "lin_variation" (nadd e (ndiv (nmul (nsub s e) (nofZ (m - i))) (nofZ m)))
| NV_exp : forall s e i m d1 d2, holds start opt s -> has_defaults start -> ends_at start k opt e ->
    ok_iternow k = Some i -> ok_itermax k = Some m -> m <> 0%Z ->
    (ok_d1 k = Some d1 \/ ok_d1 k = None /\ d1 = ndec 2 10) -> (ok_d2 k = Some d2 \/ ok_d2 k = None /\ d2 = nofZ 7) ->
    neq (nadd (nofZ 1) (ndiv (nmul d2 (nofZ i)) (nofZ m))) (nofZ 0) = false ->
    new_value lib start k opt "exp_decay"
      (nmul (nsub (nsub s e) d1) (l_exp lib (ndiv (nofZ 1) (nadd (nofZ 1) (ndiv (nmul d2 (nofZ i)) (nofZ m))))))
| NV_nonlin : forall s e i m n, holds start opt s -> has_defaults start -> ends_at start k opt e ->
    ok_iternow k = Some i -> ok_itermax k = Some m -> (i <= m)%Z ->
    (ok_n k = Some n \/ ok_n k = None /\ n = ndec 12 10) ->
    neq (l_pow lib (nofZ m) n) (nofZ 0) = false ->
    new_value lib start k opt "nonlin_mod"
      (nadd e (nmul (nsub s e) (ndiv (l_pow lib (nofZ (m - i)) n) (l_pow lib (nofZ m) n))))
| NV_random_end : forall s e eo, holds start opt s -> ok_end k = Some eo -> dget eo opt = Some e ->
    new_value lib start k opt "random" (nadd s (nmul (nsub e s) (l_rand lib opt)))
| NV_random_plus : forall s eo, holds start opt s -> ok_end k = Some eo -> dget eo opt = None ->
    new_value lib start k opt "random" (nadd s (nmul (nsub (nadd s (nofZ 1)) s) (l_rand lib opt))).

(** Why varying [opt] by [st] raises KeyError. *)
Definition key_missing (start : options N) (k : oh_kwargs N) (opt st : string) : Prop :=
  ~ In st ["exp_decay"; "lin_variation"; "random"; "nonlin_mod"] \/
  (st = "random" /\ ok_end k = None) \/
  (In st ["exp_decay"; "lin_variation"; "nonlin_mod"] /\
   (dget start "c1" = None \/ dget start "c2" = None \/
    ((forall e, ok_end k = Some e -> dget e opt = None) /\ ~ In opt ["w"; "c1"; "c2"]) \/
    ok_iternow k = None \/ ok_itermax k = None)).
(** Why it raises ZeroDivisionError. *)
Definition divides_by_zero (lib : oh_lib N) (k : oh_kwargs N) (st : string) : Prop :=
  exists i m, ok_iternow k = Some i /\ ok_itermax k = Some m /\
    ((m = 0%Z /\ (st = "exp_decay" \/ st = "lin_variation")) \/
     (st = "exp_decay" /\ exists d2, (ok_d2 k = Some d2 \/ ok_d2 k = None /\ d2 = nofZ 7) /\
        neq (nadd (nofZ 1) (ndiv (nmul d2 (nofZ i)) (nofZ m))) (nofZ 0) = true) \/
     (st = "nonlin_mod" /\ exists n, (ok_n k = Some n \/ ok_n k = None /\ n = ndec 12 10) /\
        neq (l_pow lib (nofZ m) n) (nofZ 0) = true)).
End Opts.

(** Real powers as [**] computes them for a non-negative base and a positive exponent. *)
Definition real_lib (lib : oh_lib Rnum) : Prop :=
  (forall x : R, l_exp lib x = exp x) /\
  (forall x n : R, (0 < x)%R -> l_pow lib x n = Rpower x n) /\
  (forall n : R, (0 < n)%R -> l_pow lib 0%R n = 0%R).
Definition between (a b x : R) : Prop := (Rmin a b <= x <= Rmax a b)%R.
(** What the sampling rule needs of [np.exp]: non-negative and monotone. *)
Definition exp_like (ex : f64 -> f64) : Prop :=
  (forall a, fisnan a = false -> fle fzero (ex a) = true) /\ (forall a b, fle a b = true -> fle (ex a) (ex b) = true).
