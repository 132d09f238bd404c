(** Operations of a number type, and the two instances used: binary64 and the reals. *)
From Coq Require Import ZArith Reals Bool.
From Flocq Require Import Core.
From Verif Require Import F64.

(** Only operations, no laws. *)
Record Num : Type := mkNum {
  T :> Type;
  nadd : T -> T -> T;
  nsub : T -> T -> T;
  nmul : T -> T -> T;
  ndiv : T -> T -> T;
  nopp : T -> T;
  nabs : T -> T;
  nlt : T -> T -> bool;
  nle : T -> T -> bool;
  neq : T -> T -> bool;
  nisnan : T -> bool;
  nmod : T -> T -> T;            (* np.mod *)
  nofZ : Z -> T;
  ndec : Z -> Z -> T             (* decimal literal n/d *)
}.

Arguments nadd {_}. Arguments nsub {_}. Arguments nmul {_}. Arguments ndiv {_}.
Arguments nopp {_}. Arguments nabs {_}. Arguments nlt {_}. Arguments nle {_}.
Arguments neq {_}. Arguments nisnan {_}. Arguments nmod {_}. Arguments nofZ {_}.
Arguments ndec {_}.

(** What the program computes with. *)
Definition F64num : Num := mkNum f64 fadd fsub fmul fdiv fopp fabs flt fle feq fisnan fnpmod fofZ fdec.

(** Exact arithmetic.  [a mod b = a - b * floor (a / b)]. *)
Definition Rnpmod (a b : R) : R := (a - b * IZR (Zfloor (a / b)))%R.
(** Used for the statements about exact arithmetic only. *)
Definition Rnum : Num :=
  mkNum R Rplus Rminus Rmult Rdiv Ropp Rabs Rlt_bool Rle_bool Req_bool (fun _ => false)
    Rnpmod IZR (fun n d => (IZR n / IZR d)%R).
