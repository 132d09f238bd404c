(** Vocabulary of the objective-function properties: what the docstrings of single_obj.py say
    (dimension, domain, optimum), written down independently of the functions. *)
From Coq Require Import String ZArith List Arith Bool Reals.
From Verif Require Import Prelude F64 F64Facts Num Np Handlers Swarms Operators Generators Topology Optimizers Spec SpecRun Objectives.
Import ListNotations.
Local Open Scope string_scope.
Local Open Scope list_scope.

(** Functions of two variables only. *)
Definition any_dimension (name : string) : bool :=
  existsb (String.eqb name) ["ackley"; "rastrigin"; "rosenbrock"; "sphere"].
Definition wrong_dimension (name : string) (d : nat) : Prop := any_dimension name = false /\ d <> 2.
(** Documented domain of coordinate [j], as two decimal fractions [(n, k)] for [n/k]. *)
Definition domain (name : string) (j : nat) : option ((Z * Z) * (Z * Z)) :=
  let sym n k := Some ((- n, k), (n, k))%Z in
  let is := String.eqb name in
  if is "ackley" then sym 32%Z 1%Z
  else if is "beale" then sym 45%Z 10%Z
  else if is "bukin6" then (match j with O => Some ((-15, 1), (-5, 1)) | _ => sym 3 1 end)%Z
  else if is "easom" || is "schaffer2" then sym 100%Z 1%Z
  else if is "eggholder" then sym 512%Z 1%Z
  else if is "goldstein" then sym 2%Z 1%Z
  else if is "himmelblau" || is "threehump" then sym 5%Z 1%Z
  else if is "rastrigin" then sym 512%Z 100%Z
  else if is "rosenbrock" || is "sphere" then None
  else sym 10%Z 1%Z.
(** A literal: an integer, or a decimal fraction. *)
Definition literal {N : Num} (q : Z * Z) : N := if Z.eqb (snd q) 1 then nofZ (fst q) else ndec (fst q) (snd q).
(** Some coordinate of some particle is not inside its domain. *)
Definition outside {N : Num} (name : string) (X : list (list N)) : Prop :=
  exists i r j x lo hi, nth_error X i = Some r /\ nth_error r j = Some x /\ domain name j = Some (lo, hi) /\
    (nle (literal lo) x = false \/ nle x (literal hi) = false).

(** The real functions. *)
Local Open Scope R_scope.
Definition rsum (l : list R) : R := fold_right Rplus 0 l.
Definition real_math (m : mathlib Rnum) : Prop :=
  m_pi m = PI /\ (forall x, m_sin m x = sin x) /\ (forall x, m_cos m x = cos x) /\
  (forall x, m_exp m x = exp x) /\ (forall x, m_sqrt m x = sqrt x) /\
  (forall (x : R) k, m_pow m x (INR k) = x ^ k) /\ (forall x y : R, 0 < x -> m_pow m x y = Rpower x y) /\
  (forall l, m_sum m l = rsum l).
(** [documented name d p v]: the docstring names [p] as the point of the global minimum [v]. *)
Inductive documented : string -> nat -> list R -> R -> Prop :=
| D_ackley : forall d, (1 <= d)%nat -> documented "ackley" d (repeat 0 d) 0
| D_beale : documented "beale" 2 [3; 1 / 2] 0
| D_booth : documented "booth" 2 [1; 3] 0
| D_bukin6 : documented "bukin6" 2 [-10; 1] 0
| D_easom : documented "easom" 2 [PI; PI] (-1)
| D_goldstein : documented "goldstein" 2 [0; -1] 3
| D_levi : documented "levi" 2 [1; 1] 0
| D_matyas : documented "matyas" 2 [0; 0] 0
| D_rastrigin : forall d, documented "rastrigin" d (repeat 0 d) 0
| D_rosenbrock : forall d, (2 <= d)%nat -> documented "rosenbrock" d (repeat 1 d) 0
| D_schaffer2 : documented "schaffer2" 2 [0; 0] 0
| D_sphere : forall d, documented "sphere" d (repeat 0 d) 0
| D_threehump : documented "threehump" 2 [0; 0] 0.

(** A function with four minima that differ in the signs of the coordinates: the docstring gives
    them, and the minimum, rounded. *)
Definition sign (s : R) : Prop := s = 1 \/ s = -1.
Inductive documented_four : string -> R -> R -> R -> Prop :=
| D_crossintray : documented_four "crossintray" 1.34941 1.34941 (-2.06261)
| D_holdertable : documented_four "holdertable" 8.05502 9.66459 (-19.2085).

(** The formulas of the test functions, of a row of [d] coordinates.  For [levi], whose
    docstring has no formula, it is the usual one with [(x1 - 1)^2] in place of [(w1 - 1)^2]. *)
Definition formula (name : string) (r : list R) : R :=
  let x := nth 0 r 0 in let y := nth 1 r 0 in let d := INR (length r) in let is := String.eqb name in
  let sum (g : nat -> R) (k : nat) := rsum (map g (seq 0 k)) in let X i := nth i r 0 in
  let radius := sqrt (x ^ 2 + y ^ 2) in
  if is "ackley" then
    - 20 * exp (- (1 / 5) * sqrt (sum (fun i => X i ^ 2) (length r) / d)) - exp (sum (fun i => cos (2 * PI * X i)) (length r) / d) + 20 + exp 1
  else if is "beale" then (3 / 2 - x + x * y) ^ 2 + (9 / 4 - x + x * y ^ 2) ^ 2 + (21 / 8 - x + x * y ^ 3) ^ 2
  else if is "booth" then (x + 2 * y - 7) ^ 2 + (2 * x + y - 5) ^ 2
  else if is "bukin6" then 100 * sqrt (Rabs (y - x ^ 2 / 100)) + Rabs (x + 10) / 100
  else if is "crossintray" then - (Rpower (Rabs (sin x * sin y * exp (Rabs (100 - radius / PI))) + 1) (1 / 10)) / 10000
  else if is "easom" then - cos x * cos y * exp (- ((x - PI) ^ 2 + (y - PI) ^ 2))
  else if is "eggholder" then - (y + 47) * sin (sqrt (Rabs (x / 2 + (y + 47)))) - x * sin (sqrt (Rabs (x - (y + 47))))
  else if is "goldstein" then
    (1 + (x + y + 1) ^ 2 * (19 - 14 * x + 3 * x ^ 2 - 14 * y + 6 * x * y + 3 * y ^ 2)) *
    (30 + (2 * x - 3 * y) ^ 2 * (18 - 32 * x + 12 * x ^ 2 + 48 * y - 36 * x * y + 27 * y ^ 2))
  else if is "himmelblau" then (x ^ 2 + y - 11) ^ 2 + (x + y ^ 2 - 7) ^ 2
  else if is "holdertable" then - Rabs (sin x * cos y * exp (Rabs (1 - radius / PI)))
  else if is "levi" then
    let w1 := 1 + (x - 1) / 4 in let w2 := 1 + (y - 1) / 4 in
    sin (PI * w1) ^ 2 + (x - 1) ^ 2 * (1 + 10 * sin (PI * w1 + 1) ^ 2) + (w2 - 1) ^ 2 * (1 + sin (2 * PI * w2) ^ 2)
  else if is "matyas" then 26 / 100 * (x ^ 2 + y ^ 2) - 48 / 100 * x * y
  else if is "rastrigin" then 10 * d + sum (fun i => X i ^ 2 - 10 * cos (2 * PI * X i)) (length r)
  else if is "rosenbrock" then sum (fun i => 100 * (X (S i) - X i ^ 2) ^ 2 + (1 - X i) ^ 2) (length r - 1)%nat
  else if is "schaffer2" then 1 / 2 + (sin (x ^ 2 - y ^ 2) ^ 2 - 1 / 2) / (1 + (x ^ 2 + y ^ 2) / 1000) ^ 2
  else if is "sphere" then sum (fun i => X i ^ 2) (length r)
  else 2 * x ^ 2 - 105 / 100 * x ^ 4 + x ^ 6 / 6 + x * y + y ^ 2.
(** The Levy function of the literature. *)
Definition levy (x y : R) : R :=
  let w1 := 1 + (x - 1) / 4 in let w2 := 1 + (y - 1) / 4 in
  sin (PI * w1) ^ 2 + (w1 - 1) ^ 2 * (1 + 10 * sin (PI * w1 + 1) ^ 2) + (w2 - 1) ^ 2 * (1 + sin (2 * PI * w2) ^ 2).

(** *** Binary64 *)
Local Open Scope nat_scope.
(** NaN, or at least (at most) [c]. *)
Definition not_below (c x : f64) : Prop := flt x c = false.
Definition not_above (c x : f64) : Prop := flt c x = false.
(** Ranges of the library functions; a sum is a sum of the summands in some order. *)
Definition libm_range (m : mathlib F64num) : Prop :=
  (forall x, not_below (fofZ (-1)) (m_sin m x) /\ not_above fone (m_sin m x)) /\
  (forall x, not_below (fofZ (-1)) (m_cos m x) /\ not_above fone (m_cos m x)) /\
  (forall x, not_below fzero (m_exp m x)) /\ (forall x, not_above fzero x -> not_above fone (m_exp m x)) /\
  (forall x, not_below fzero (m_sqrt m x)) /\
  m_sum m [] = fzero /\ (forall l, l <> [] -> exists t, proper_sum t (length l) /\ m_sum m l = tree_sum t l).
(** The documented minimum, for the functions that never come out lower in binary64. *)
Definition float_floor (name : string) : option Z :=
  if String.eqb name "easom" then Some (-1)%Z
  else if existsb (String.eqb name) ["beale"; "booth"; "bukin6"; "himmelblau"; "levi"; "rastrigin"; "rosenbrock"; "schaffer2"; "sphere"]
  then Some 0%Z else None.
(** Values of the library functions every libm gets right: pi and e are the nearest doubles. *)
Definition libm_values (m : mathlib F64num) : Prop :=
  m_pi m = fofZe 884279719003555 (-48) /\ m_sin m fzero = fzero /\ m_cos m fzero = fone /\ m_cos m (m_pi m) = fofZ (-1) /\
  (forall x, feq x fzero = true -> m_exp m x = fone) /\ m_sqrt m fzero = fzero /\
  m_pow m fzero (fofZ 4) = fzero /\ m_pow m fzero (fofZ 6) = fzero /\ m_pow m (fdec 1 2) (fofZ 3) = fdec 1 8 /\
  m_sum m [] = fzero /\ (forall l, l <> [] -> exists t, proper_sum t (length l) /\ m_sum m l = tree_sum t l).
(** The documented minima, in binary64. *)
Inductive float_documented (m : mathlib F64num) : string -> nat -> list f64 -> Z -> Prop :=
| F_beale : float_documented m "beale" 2 [fofZ 3; fdec 1 2] 0
| F_booth : float_documented m "booth" 2 [fofZ 1; fofZ 3] 0
| F_bukin6 : float_documented m "bukin6" 2 [fofZ (-10); fofZ 1] 0
| F_easom : float_documented m "easom" 2 [m_pi m; m_pi m] (-1)
| F_goldstein : float_documented m "goldstein" 2 [fzero; fofZ (-1)] 3
| F_himmelblau : float_documented m "himmelblau" 2 [fofZ 3; fofZ 2] 0
| F_matyas : float_documented m "matyas" 2 [fzero; fzero] 0
| F_rastrigin : forall d, (10 * Z.of_nat d <= 2 ^ 53)%Z -> float_documented m "rastrigin" d (repeat fzero d) 0
| F_rosenbrock : forall d, float_documented m "rosenbrock" d (repeat fone d) 0
| F_schaffer2 : float_documented m "schaffer2" 2 [fzero; fzero] 0
| F_sphere : forall d, float_documented m "sphere" d (repeat fzero d) 0
| F_threehump : float_documented m "threehump" 2 [fzero; fzero] 0.
(** The doubles nearest to e and to the sine of the double nearest to pi. *)
Definition e64 : f64 := fofZe 6121026514868073 (-51).
Definition sinpi64 : f64 := fofZe 4967757600021511 (-105).
