(** IEEE-754 binary64 numbers, round-to-nearest-even.

    numpy's float64 arithmetic, used everywhere in /repo/pyswarms, is modelled by
    Flocq's [binary_float 53 1024].  All NaNs are identified. *)
From Coq Require Import ZArith Bool.
From Flocq Require Import Core IEEE754.BinarySingleNaN.

Local Open Scope Z_scope.

Definition prec : Z := 53.
Definition emax : Z := 1024.

Lemma prec_gt_0_64 : Prec_gt_0 prec.
Proof. reflexivity. Qed.
Lemma prec_lt_emax_64 : Prec_lt_emax prec emax.
Proof. reflexivity. Qed.
#[global] Existing Instance prec_gt_0_64.
#[global] Existing Instance prec_lt_emax_64.

Definition f64 : Type := binary_float prec emax.

(** Arithmetic: numpy [+], [-], [*], [/], unary [-], [np.abs]. *)
Definition fadd : f64 -> f64 -> f64 := Bplus mode_NE.
Definition fsub : f64 -> f64 -> f64 := Bminus mode_NE.
Definition fmul : f64 -> f64 -> f64 := Bmult mode_NE.
Definition fdiv : f64 -> f64 -> f64 := Bdiv mode_NE.
Definition fopp : f64 -> f64 := Bopp.
Definition fabs : f64 -> f64 := Babs.

(** Comparisons: numpy [<], [<=], [==]; all false on NaN. *)
Definition flt (a b : f64) : bool := Bltb a b.
Definition fle (a b : f64) : bool := Bleb a b.
Definition feq (a b : f64) : bool := Beqb a b.
Definition fisnan (a : f64) : bool := is_nan a.
Definition ffinite (a : f64) : bool := is_finite a.

Definition fzero : f64 := B754_zero false.
Definition fnan : f64 := B754_nan.
Definition finf : f64 := B754_infinity false.
Definition fninf : f64 := B754_infinity true.
(** Nearest float to [m * 2^e]. *)
Definition fofZe (m e : Z) : f64 := binary_normalize prec emax _ _ mode_NE m e false.
Definition fofZ (m : Z) : f64 := fofZe m 0.
Definition fone : f64 := fofZ 1.
Definition ftwo : f64 := fofZ 2.
Definition fhalf : f64 := fofZe 1 (-1).
(** Decimal literal [n/d] for integers below 2^53: correctly rounded quotient. *)
Definition fdec (n d : Z) : f64 := fdiv (fofZ n) (fofZ d).

(** C's [fmod]: exact remainder with the sign of the dividend. *)
Definition ffmod (x y : f64) : f64 :=
  match x, y with
  | B754_nan, _ | _, B754_nan => B754_nan
  | B754_infinity _, _ => B754_nan
  | _, B754_zero _ => B754_nan
  | _, B754_infinity _ => x
  | B754_zero _, _ => x
  | B754_finite sx mx ex _, B754_finite _ my ey _ =>
      let e := Z.min ex ey in
      let mx' := Zpos mx * 2 ^ (ex - e) in
      let my' := Zpos my * 2 ^ (ey - e) in
      let r := Z.modulo mx' my' in
      binary_normalize prec emax _ _ mode_NE (if sx then - r else r) e sx
  end.

(** [npy_divmod]'s remainder, i.e. [np.mod] (numpy 1.16 npy_math_internal.h.src):
    [fmod], then adjusted to the sign of the divisor. *)
Definition fnpmod (a b : f64) : f64 :=
  let m := ffmod a b in
  if feq b fzero then m
  else if feq m fzero then (if flt b fzero then B754_zero true else B754_zero false)
  else if Bool.eqb (flt b fzero) (flt m fzero) then m
  else fadd m b.
