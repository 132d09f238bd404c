(** The bundled objective functions: pyswarms/utils/functions/single_obj.py.
    The libm functions and the order of [sum] along a row are parameters ([mathlib]); a sum
    depends on its row only.  [x ** 2] and [x ** 2.0] are [x * x], as numpy computes them
    (also inside the masked arrays of [levi], where numpy calls [pow]).  Masked sums fill the
    masked entries by 0.  Error messages are not modelled.  [d] is [x.shape[1]]. *)
From Coq Require Import String ZArith List Arith Bool.
From Verif Require Import Prelude Num.
Import ListNotations.
Local Open Scope string_scope.
Local Open Scope list_scope.

Section Objectives.
Context {N : Num}.

Record mathlib : Type := mkMl {
  m_pi : N; m_sin : N -> N; m_cos : N -> N; m_exp : N -> N; m_sqrt : N -> N;
  m_pow : N -> N -> N; m_sum : list N -> N }.
Variable m : mathlib.

Declare Scope obj_scope.
Local Infix "+" := (nadd (n := N)) : obj_scope.
Local Infix "-" := (nsub (n := N)) : obj_scope.
Local Infix "*" := (nmul (n := N)) : obj_scope.
Local Infix "/" := (ndiv (n := N)) : obj_scope.
Local Notation "- x" := (nopp (n := N) x) : obj_scope.
Local Notation "# z" := (nofZ (n := N) z%Z) (at level 1, z at level 0, format "# z").
Local Open Scope obj_scope.

(** [x ** 2.0] *)
Definition sqr (x : N) : N := x * x.
(** other powers, as repeated multiplication or [pow] of [mathlib] *)
Definition pw (x : N) (k : Z) : N := m_pow m x (nofZ k).

(** [np.logical_and(x >= lo, x <= hi).all()]. (e.g. single_obj.py:65.) *)
Definition between (lo hi x : N) : bool := nle lo x && nle x hi.
(** single_obj.py:65 and the corresponding line of each function *)
Definition within (lo hi : N) (x : list (list N)) : bool := forallb (forallb (between lo hi)) x.
(** the same for one column [x[:, j]]. (single_obj.py:190, 194 and the column reads [x[:, 0]], [x[:, 1]].) *)
Definition col (j : nat) (r : list N) : N := nth j r #0.
(** single_obj.py:190, 194 *)
Definition col_within (j : nat) (lo hi : N) (x : list (list N)) : bool :=
  forallb (fun r => between lo hi (col j r)) x.

(** The type of the bundled functions: [x.shape[1]] and the rows of [x]. *)
Definition fn : Type := nat -> list (list N) -> res (list N).

(** single_obj.py:65-76 *)
Definition ackley_row (d : nat) (r : list N) : N :=
  let dd := nofZ (Z.of_nat d) in
  ndec (-20) 1 * m_exp m (ndec (-2) 10 * m_sqrt m ((#1 / dd) * m_sum m (map sqr r)))
  - m_exp m ((#1 / dd) * m_sum m (map (fun x => m_cos m ((#2 * m_pi m) * x)) r))
  + #20 + m_exp m #1.
(** single_obj.py:65-76 [ackley]: the checks, then every row *)
Definition ackley : fn := fun d x =>
  if negb (within #(-32) #32 x) then Err ValueError
  else if Nat.eqb d 0 then Err ZeroDivisionError
  else Ok (map (ackley_row d) x).

(** single_obj.py:104-119 *)
Definition beale_row (r : list N) : N :=
  let x_ := col 0 r in let y_ := col 1 r in
  sqr (ndec 15 10 - x_ + x_ * y_) + sqr (ndec 225 100 - x_ + x_ * sqr y_) + sqr (ndec 2625 1000 - x_ + x_ * pw y_ 3).
(** single_obj.py:104-119 [beale]: the checks, then every row *)
Definition beale : fn := fun d x =>
  if negb (Nat.eqb d 2) then Err IndexError
  else if negb (within (ndec (-45) 10) (ndec 45 10) x) then Err ValueError
  else Ok (map beale_row x).

(** single_obj.py:147-156 *)
Definition booth_row (r : list N) : N :=
  let x_ := col 0 r in let y_ := col 1 r in
  sqr (x_ + #2 * y_ - #7) + sqr (#2 * x_ + y_ - #5).
(** single_obj.py:147-156 [booth]: the checks, then every row *)
Definition booth : fn := fun d x =>
  if negb (Nat.eqb d 2) then Err IndexError
  else if negb (within #(-10) #10 x) then Err ValueError
  else Ok (map booth_row x).

(** single_obj.py:186-205 *)
Definition bukin6_row (r : list N) : N :=
  let x_ := col 0 r in let y_ := col 1 r in
  #100 * m_sqrt m (nabs (y_ - ndec 1 100 * sqr x_)) + ndec 1 100 * nabs (x_ + #10).
(** single_obj.py:186-205 [bukin6]: the checks, then every row *)
Definition bukin6 : fn := fun d x =>
  if negb (Nat.eqb d 2) then Err IndexError
  else if negb (col_within 0 #(-15) #(-5) x) then Err ValueError
  else if negb (col_within 1 #(-3) #3 x) then Err ValueError
  else Ok (map bukin6_row x).

(** single_obj.py:237-259 *)
Definition crossintray_row (r : list N) : N :=
  let x_ := col 0 r in let y_ := col 1 r in
  ndec (-1) 10000 * m_pow m (nabs (m_sin m x_ * m_sin m y_ *
    m_exp m (nabs (#100 - m_sqrt m (sqr x_ + sqr y_) / m_pi m))) + #1) (ndec 1 10).
(** single_obj.py:237-259 [crossintray]: the checks, then every row *)
Definition crossintray : fn := fun d x =>
  if negb (Nat.eqb d 2) then Err IndexError
  else if negb (within #(-10) #10 x) then Err ValueError
  else Ok (map crossintray_row x).

(** single_obj.py:290-307 *)
Definition easom_row (r : list N) : N :=
  let x_ := col 0 r in let y_ := col 1 r in
  #(-1) * m_cos m x_ * m_cos m y_ * m_exp m (#(-1) * (sqr (x_ - m_pi m) + sqr (y_ - m_pi m))).
(** single_obj.py:290-307 [easom]: the checks, then every row *)
Definition easom : fn := fun d x =>
  if negb (Nat.eqb d 2) then Err IndexError
  else if negb (within #(-100) #100 x) then Err ValueError
  else Ok (map easom_row x).

(** single_obj.py:338-354 *)
Definition eggholder_row (r : list N) : N :=
  let x_ := col 0 r in let y_ := col 1 r in
  (- (y_ + #47)) * m_sin m (m_sqrt m (nabs (x_ / #2 + y_ + #47))) - x_ * m_sin m (m_sqrt m (nabs (x_ - (y_ + #47)))).
(** single_obj.py:338-354 [eggholder]: the checks, then every row *)
Definition eggholder : fn := fun d x =>
  if negb (Nat.eqb d 2) then Err IndexError
  else if negb (within #(-512) #512 x) then Err ValueError
  else Ok (map eggholder_row x).

(** single_obj.py:384-419 *)
Definition goldstein_row (r : list N) : N :=
  let x_ := col 0 r in let y_ := col 1 r in
  (#1 + sqr (x_ + y_ + #1) * (#19 - #14 * x_ + #3 * sqr x_ - #14 * y_ + #6 * x_ * y_ + #3 * sqr y_))
  * (#30 + sqr (#2 * x_ - #3 * y_) * (#18 - #32 * x_ + #12 * sqr x_ + #48 * y_ - #36 * x_ * y_ + #27 * sqr y_)).
(** single_obj.py:384-419 [goldstein]: the checks, then every row *)
Definition goldstein : fn := fun d x =>
  if negb (Nat.eqb d 2) then Err IndexError
  else if negb (within #(-2) #2 x) then Err ValueError
  else Ok (map goldstein_row x).

(** single_obj.py:451-465 *)
Definition himmelblau_row (r : list N) : N :=
  let x_ := col 0 r in let y_ := col 1 r in
  sqr (sqr x_ + y_ - #11) + sqr (x_ + sqr y_ - #7).
(** single_obj.py:451-465 [himmelblau]: the checks, then every row *)
Definition himmelblau : fn := fun d x =>
  if negb (Nat.eqb d 2) then Err IndexError
  else if negb (within #(-5) #5 x) then Err ValueError
  else Ok (map himmelblau_row x).

(** single_obj.py:497-515 *)
Definition holdertable_row (r : list N) : N :=
  let x_ := col 0 r in let y_ := col 1 r in
  - nabs (m_sin m x_ * m_cos m y_ * m_exp m (nabs (#1 - m_sqrt m (sqr x_ + sqr y_) / m_pi m))).
(** single_obj.py:497-515 [holdertable]: the checks, then every row *)
Definition holdertable : fn := fun d x =>
  if negb (Nat.eqb d 2) then Err IndexError
  else if negb (within #(-10) #10 x) then Err ValueError
  else Ok (map holdertable_row x).

(** single_obj.py:544-564 *)
Definition levi_row (r : list N) : N :=
  let w_ := map (fun x => #1 + (x - #1) / #4) r in
  sqr (m_sin m (m_pi m * col 0 w_))
  + m_sum m [sqr (col 0 r - #1); #0] * (#1 + #10 * sqr (m_sin m (m_pi m * m_sum m [col 0 w_; #0] + #1)))
  + sqr (col 1 w_ - #1) * (#1 + sqr (m_sin m ((#2 * m_pi m) * col 1 w_))).
(** single_obj.py:544-564 [levi]: the checks, then every row *)
Definition levi : fn := fun d x =>
  if negb (Nat.eqb d 2) then Err IndexError
  else if negb (within #(-10) #10 x) then Err ValueError
  else Ok (map levi_row x).

(** single_obj.py:583-594 *)
Definition matyas_row (r : list N) : N :=
  let x_ := col 0 r in let y_ := col 1 r in
  ndec 26 100 * (sqr x_ + sqr y_) - ndec 48 100 * x_ * y_.
(** single_obj.py:583-594 [matyas]: the checks, then every row *)
Definition matyas : fn := fun d x =>
  if negb (Nat.eqb d 2) then Err IndexError
  else if negb (within #(-10) #10 x) then Err ValueError
  else Ok (map matyas_row x).

(** single_obj.py:619-627 *)
Definition rastrigin_row (d : nat) (r : list N) : N :=
  #10 * nofZ (Z.of_nat d) + m_sum m (map (fun x => sqr x - #10 * m_cos m ((#2 * m_pi m) * x)) r).
(** single_obj.py:619-627 [rastrigin]: the checks, then every row *)
Definition rastrigin : fn := fun d x =>
  if negb (within (ndec (-512) 100) (ndec 512 100) x) then Err ValueError
  else Ok (map (rastrigin_row d) x).

(** single_obj.py:649-653; a column of [x.T] is a particle *)
Definition rosenbrock_row (r : list N) : N :=
  m_sum m (map2 (fun b a => #100 * sqr (b - sqr a) + sqr (#1 - a)) (tl r) (removelast r)).
(** single_obj.py:649-653 [rosenbrock]: every row, no checks *)
Definition rosenbrock : fn := fun d x => Ok (map rosenbrock_row x).

(** single_obj.py:682-698 *)
Definition schaffer2_row (r : list N) : N :=
  let x_ := col 0 r in let y_ := col 1 r in
  ndec 5 10 + (sqr (m_sin m (sqr x_ - sqr y_)) - ndec 5 10) / sqr (#1 + ndec 1 1000 * (sqr x_ + sqr y_)).
(** single_obj.py:682-698 [schaffer2]: the checks, then every row *)
Definition schaffer2 : fn := fun d x =>
  if negb (Nat.eqb d 2) then Err IndexError
  else if negb (within #(-100) #100 x) then Err ValueError
  else Ok (map schaffer2_row x).

(** single_obj.py:717-719 *)
Definition sphere_row (r : list N) : N := m_sum m (map sqr r).
(** single_obj.py:717-719 [sphere]: every row, no checks *)
Definition sphere : fn := fun d x => Ok (map sphere_row x).

(** single_obj.py:750-764 *)
Definition threehump_row (r : list N) : N :=
  let x_ := col 0 r in let y_ := col 1 r in
  #2 * sqr x_ - ndec 105 100 * pw x_ 4 + pw x_ 6 / #6 + x_ * y_ + sqr y_.
(** single_obj.py:750-764 [threehump]: the checks, then every row *)
Definition threehump : fn := fun d x =>
  if negb (Nat.eqb d 2) then Err IndexError
  else if negb (within #(-5) #5 x) then Err ValueError
  else Ok (map threehump_row x).

(** The functions of the module, by name. (single_obj.py:65-764.) *)
Definition bundled : list (string * fn) :=
  [("ackley", ackley); ("beale", beale); ("booth", booth); ("bukin6", bukin6); ("crossintray", crossintray);
   ("easom", easom); ("eggholder", eggholder); ("goldstein", goldstein); ("himmelblau", himmelblau);
   ("holdertable", holdertable); ("levi", levi); ("matyas", matyas); ("rastrigin", rastrigin);
   ("rosenbrock", rosenbrock); ("schaffer2", schaffer2); ("sphere", sphere); ("threehump", threehump)].
End Objectives.
Arguments mathlib _ : clear implicits.
Arguments fn _ : clear implicits.
