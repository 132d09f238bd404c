(** Model of /repo/pyswarms/backend/generators.py at binary64. *)
From Coq Require Import String ZArith List Arith Bool.
From Verif Require Import Prelude F64 Num Np Handlers Swarms.
Import ListNotations.
Local Open Scope list_scope.

Notation frow := (row F64num).
Notation fmatrix := (matrix F64num).

(** [np.random.uniform(low, high)] for a unit draw [u]: [low + (high - low) * u]
    (numpy/random rk_uniform). (Used by generators.py:70-72, 81-83.) *)
Definition uniform (low high u : f64) : f64 := fadd low (fmul (fsub high low) u).

(** [np.all(lb <= m) and np.all(m <= ub)]. (generators.py:64-66.) *)
Definition all_within (b : bounds F64num) (m : fmatrix) : bool :=
  forallb (fun r => forallb (fun x => x) (map2 fle (b_lb b) r)) m &&
  forallb (fun r => forallb (fun x => x) (map2 fle r (b_ub b))) m.

(** generators.py:60-93 [generate_swarm]; [center] has one entry per dimension (a scalar is
    repeated), [u] are the [n] x [d] unit draws *)
Definition generate_swarm (n d : nat) (b : option (bounds F64num)) (center : frow)
    (init : option fmatrix) (u : fmatrix) : res fmatrix :=
  match init, b with
  | Some p, None => Ok p
  | Some p, Some b =>
      if negb (bounds_fit p b) then Err ValueError
      else if all_within b p then Ok p else Err ValueError
  | None, None =>
      if negb (Nat.eqb (length center) d) then Err ValueError
      else Ok (map (map2 (fun c x => fmul c (uniform fzero fone x)) center) u)
  | None, Some b =>
      if negb (Nat.eqb (length center) d && Nat.eqb (length (b_lb b)) d && Nat.eqb (length (b_ub b)) d)
      then Err ValueError
      else if negb (forallb (fun x => x) (map2 (fun l h => ffinite (fsub h l)) (b_lb b) (b_ub b)))
      then Err OverflowError          (* numpy: Range exceeds valid bounds *)
      else Ok (map (map4 (fun c l h x => fmul c (uniform l h x)) center (b_lb b) (b_ub b)) u)
  end.

(** Distinct values of [np.unique] (a NaN is distinct from everything). (generators.py:128.) *)
Fixpoint uniq (l : list f64) : list f64 :=
  match l with
  | [] => []
  | x :: r => if existsb (feq x) r then uniq r else x :: uniq r
  end.

(** [argsort] of one row: stable insertion sort of the indices.  (numpy's default sort may
    order equal keys differently; generators.py:137-139.) *)
Fixpoint insert_by (key : nat -> f64) (i : nat) (l : list nat) : list nat :=
  match l with
  | [] => [i]
  | j :: r => if flt (key i) (key j) then i :: l else j :: insert_by key i r
  end.
(** generators.py:137-139, one row *)
Definition argsort (r : frow) : list nat :=
  fold_left (fun acc i => insert_by (fun j => nth j r fzero) i acc) (seq 0 (length r)) [].

(** generators.py:135 [randint(2)] as a float *)
Definition bit (b : bool) : f64 := if b then fone else fzero.

(** generators.py:126-148 [generate_discrete_swarm]; [bits] are the [randint(2)] draws, [u]
    the unit draws that are argsorted *)
Definition generate_discrete_swarm (binary : bool) (init : option fmatrix)
    (bits : list (list bool)) (u : fmatrix) : res fmatrix :=
  match init, binary with
  | Some p, true => if Nat.leb (length (uniq (concat p))) 2 then Ok p else Err ValueError
  | Some p, false => Ok p
  | None, true => Ok (map (map bit) bits)
  | None, false => Ok (map (fun r => map (fun i => fofZ (Z.of_nat i)) (argsort r)) u)
  end.

(** generators.py:170-184 [generate_velocity] *)
Definition generate_velocity (d : nat) (clamp : option (clamp_t F64num)) (u : fmatrix)
  : res fmatrix :=
  let (mn, mx) := match clamp with None => (repeat fzero d, repeat fone d) | Some c => c end in
  if negb (Nat.eqb (length mn) d && Nat.eqb (length mx) d) then Err ValueError
  else Ok (map (map3 (fun a b x => fadd (fmul (fsub b a) x) a) mn mx) u).

(** Draws of one [create_swarm] call. (generators.py:231-245.) *)
Record create_draws : Type := mkCd {
  cd_pos : fmatrix; cd_bits : list (list bool); cd_vel : fmatrix }.

(** generators.py:231-245 [create_swarm] *)
Definition create_swarm (n d : nat) (discrete binary : bool) (o : options F64num)
    (b : option (bounds F64num)) (center : frow) (init : option fmatrix)
    (clamp : option (clamp_t F64num)) (dr : create_draws) : res (swarm F64num) :=
  do pos <- (if discrete then generate_discrete_swarm binary init (cd_bits dr) (cd_pos dr)
             else generate_swarm n d b center init (cd_pos dr));
  do vel <- generate_velocity d clamp (cd_vel dr);
  let dim := match pos with [] => d | r :: _ => length r end in
  Ok (new_swarm (N := F64num) finf dim pos vel o).
