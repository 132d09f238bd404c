(** Vocabulary of the handler properties: entries of matrices, columns of a box, and which
    particles leave it. *)
From Coq Require Import String List Bool Reals.
From Verif Require Import Prelude F64 F64Facts Num Handlers Swarms.
Local Open Scope string_scope.
Local Open Scope list_scope.

(** Entry of particle [i], dimension [j]. *)
Definition entry {A} (m : list (list A)) (i j : nat) : option A :=
  match nth_error m i with Some r => nth_error r j | None => None end.

Section Box.
Context {N : Num}.
(** Dimension [j] of the box is the interval from [l] to [u]. *)
Definition column (b : bounds N) (j : nat) (l u : N) : Prop :=
  nth_error (b_lb b) j = Some l /\ nth_error (b_ub b) j = Some u.
(** A box of [d] dimensions. *)
Definition box_dim (d : nat) (b : bounds N) : Prop := length (b_lb b) = d /\ length (b_ub b) = d.
(** The particle is strictly below the lower / above the upper bound in some dimension. *)
Definition below (b : bounds N) (r : list N) : Prop :=
  exists j x l u, nth_error r j = Some x /\ column b j l u /\ nlt x l = true.
Definition above (b : bounds N) (r : list N) : Prop :=
  exists j x l u, nth_error r j = Some x /\ column b j l u /\ nlt u x = true.
(** The particle violates no bound. *)
Definition good (b : bounds N) (r : list N) : Prop := ~ below b r /\ ~ above b r.
End Box.

(** The loop of the reflective strategy never returns, whatever its fuel. *)
Definition hangs {N : Num} (mem : option (matrix N)) (b : bounds N) (pos : matrix N) : Prop :=
  forall dr, bh_call "reflective" dr mem b pos = Err OutOfFuel.
(** [x'] is [x] pulled back towards [m] until it touches the box. *)
Definition pulled_back (b : bounds Rnum) (x m x' : list R) : Prop :=
  exists s, (0 <= s < 1)%R /\
    (forall j xj mj, nth_error x j = Some xj -> nth_error m j = Some mj -> nth_error x' j = Some (mj + s * (xj - mj))%R) /\
    exists j xj x'j l u, column b j l u /\ nth_error x j = Some xj /\ nth_error x' j = Some x'j /\
      ((xj < l /\ x'j = l) \/ (u < xj /\ x'j = u))%R.

(** All bounds are finite and ordered. *)
Definition finite_box (b : bounds F64num) : Prop :=
  forall j l u, column b j l u -> ffinite l = true /\ ffinite u = true /\ fle l u = true.
(** [x'] is [x] moved to the interval from [l] to [u] by the shortest way. *)
Definition projection (l u x x' : f64) : Prop :=
  (fle l x = true -> fle x u = true -> x' = x) /\
  (fisnan x = false -> fle l x' = true /\ fle x' u = true) /\
  (fisnan x = true -> x' = x) /\
  (ffinite l = true -> ffinite u = true -> ffinite x = true ->
   forall y, ffinite y = true -> fle l y = true -> fle y u = true ->
     (Rabs (FR x' - FR x) <= Rabs (FR y - FR x))%R).

(** A vector of [d] draws from [0,1). *)
Definition unit_draws (d : nat) (u : list f64) : Prop :=
  length u = d /\ forall j x, nth_error u j = Some x -> fle fzero x = true /\ flt x fone = true.
(** Every entry lies in its column of the box. *)
Definition row_inside_box (b : bounds F64num) (r : list f64) : Prop :=
  forall j x l u, nth_error r j = Some x -> column b j l u -> fle l x = true /\ fle x u = true.
(** No entry is strictly outside its column (a NaN is not). *)
Definition none_outside (b : bounds F64num) (m : list (list f64)) : Prop :=
  forall i j x l u, entry m i j = Some x -> column b j l u -> flt x l = false /\ flt u x = false.

(** Dimension [j] of a velocity clamp is the interval from [a] to [b]. *)
Definition clamp_column {N : Num} (c : clamp_t N) (j : nat) (a b : N) : Prop :=
  nth_error (fst c) j = Some a /\ nth_error (snd c) j = Some b.
(** [v'] is [v] cut to the interval from [a] to [b]. *)
Definition cut (a b v v' : f64) : Prop :=
  (flt a v = true -> flt v b = true -> v' = v) /\
  (fle v a = true -> feq v' a = true) /\ (fle b v = true -> feq v' b = true) /\
  (fisnan v = true -> v' = v) /\
  (fisnan v = false -> fle a v' = true /\ fle v' b = true).

(** Coordinate [j] of the best position particle [i] is attracted to: the common vector, or
    row [i] when every particle has its own. *)
Definition best_entry {N : Num} (p : bestpos N) (i j : nat) : option N :=
  match p with BPEmpty => None | BPVec v => nth_error v j | BPMat m => entry m i j end.
Definition best_dim {N : Num} (n d : nat) (p : bestpos N) : Prop :=
  match p with BPEmpty => False | BPVec v => length v = d | BPMat m => is_matrix n d m end.

(** The boundary strategies which keep a swarm in a finite box at binary64, with what they
    need: a box width (or twice the bounds) that does not overflow, draws from [0,1). *)
Definition box_strategy (d : nat) (b : bounds F64num) (st : string) (draws : nat -> bh_draws F64num) : Prop :=
  st = "nearest" \/ st = "reflective" \/
  (st = "periodic" /\ forall j l u, column b j l u -> ffinite (fsub u l) = true) \/
  (st = "random" /\ (forall j l u, column b j l u -> ffinite (fsub u l) = true) /\
     forall i, unit_draws d (bd_greater (draws i)) /\ unit_draws d (bd_lower (draws i))) \/
  (st = "intermediate" /\ forall j l u, column b j l u -> ffinite (fadd l l) = true /\ ffinite (fadd u u) = true).

(** No entry of a velocity matrix is strictly outside the clamp. *)
Definition within_clamp (c : clamp_t F64num) (m : list (list f64)) : Prop :=
  forall i j v a b, entry m i j = Some v -> clamp_column c j a b -> flt v a = false /\ flt b v = false.
(** Two matrices of the same shape with equal entries (up to the sign of zeros). *)
Definition same_points (m m' : list (list f64)) : Prop :=
  Forall2 (Forall2 (fun x y => feq x y = true)) m m'.

(** A matrix of draws from [0,1). *)
Definition unit_matrix (n d : nat) (u : list (list f64)) : Prop :=
  is_matrix n d u /\ forall i j x, entry u i j = Some x -> fle fzero x = true /\ flt x fone = true.
(** Every entry lies in its column of the box. *)
Definition all_inside (b : bounds F64num) (m : list (list f64)) : Prop :=
  forall i j x l u, entry m i j = Some x -> column b j l u -> fle l x = true /\ fle x u = true.
Definition all_in_clamp (c : clamp_t F64num) (m : list (list f64)) : Prop :=
  forall i j v a b, entry m i j = Some v -> clamp_column c j a b -> fle a v = true /\ fle v b = true.
(** All entries are 0 or 1. *)
Definition bits01 (m : list (list f64)) : Prop :=
  forall i j x, entry m i j = Some x -> feq x fzero = true \/ feq x fone = true.
(** The entries take at most two values. *)
Definition two_valued (m : list (list f64)) : Prop :=
  exists a b, forall i j x, entry m i j = Some x -> feq x a = true \/ feq x b = true.

(** No coordinate of one particle is strictly outside the box. *)
Definition row_not_outside (b : bounds F64num) (x : list f64) : Prop :=
  forall j v l u, nth_error x j = Some v -> column b j l u -> flt v l = false /\ flt u v = false.
