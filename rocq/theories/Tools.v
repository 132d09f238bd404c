(** The cost decorator (pyswarms/utils/decorators/decorators.py) and the numeric part of the
    plotters (pyswarms/utils/plotters/{plotters,formatters}.py). *)
From Coq Require Import String ZArith List Arith Bool.
From Flocq Require Import IEEE754.BinarySingleNaN.
From Verif Require Import Prelude F64 Num Np Handlers Swarms Operators Generators Topology Optimizers.
Import ListNotations.
Local Open Scope list_scope.
Local Open Scope nat_scope.

(** *** @cost *)

(** What a user's cost function returns for one particle: a number, or a one-dimensional array.
    Keyword arguments are part of the function. (decorators.py:46-48.) *)
Inductive cval : Type := Scalar (c : f64) | Arr (l : list f64).
(** [np.array] of the list of results.  Arrays of different lengths, or numbers mixed with
    arrays, depend on the numpy version. (decorators.py:46-48.) *)
Inductive stacked : Type := Vector (l : list f64) | Matrix (rows cols : nat) | Irregular.
(** decorators.py:46-48: all results are numbers *)
Fixpoint scalars (l : list cval) : option (list f64) :=
  match l with
  | [] => Some []
  | Scalar c :: r => match scalars r with Some cs => Some (c :: cs) | None => None end
  | Arr _ :: _ => None
  end.
(** decorators.py:46-48 *)
Definition np_array (l : list cval) : stacked :=
  match scalars l with
  | Some cs => Vector cs
  | None =>
      match l with
      | Arr a :: r => if forallb (fun v => match v with Arr b => Nat.eqb (length b) (length a) | Scalar _ => false end) r
                      then Matrix (length l) (length a) else Irregular
      | _ => Irregular
      end
  end.
(** decorators.py:43-53 [cost_dec] *)
Definition cost_dec (cost_func : list f64 -> res cval) (particles : list (list f64)) : res (list f64) :=
  do vs <- mapM cost_func particles;
  match np_array vs with
  | Vector l => Ok l
  | Matrix _ _ =>
      do first <- of_option IndexError (nth_error particles 0);
      do _ <- cost_func first;                (* for the error message *)
      Err ValueError
  | Irregular => Err Unmodelled
  end.

(** *** Meshes *)

(** [ceil] of a finite number. (plotters.py:409-410.) *)
Definition fceil (x : f64) : Z :=
  match x with
  | B754_finite s m e _ =>
      let v := (if s then - Zpos m else Zpos m)%Z in
      (if e <? 0 then - ((- v) / 2 ^ (- e)) else v * 2 ^ e)%Z
  | _ => 0%Z
  end.
(** [np.arange(lo, hi, step)]: the length is [ceil((hi - lo)/step)]; numpy fills in the first two
    elements and steps by their difference. (plotters.py:409-410.) *)
Definition arange_at (lo step : f64) (i : nat) : f64 :=
  match i with
  | O => lo
  | S O => fadd lo step
  | _ => fadd lo (fmul (fofZ (Z.of_nat i)) (fsub (fadd lo step) lo))
  end.
(** plotters.py:409-410 *)
Definition np_arange (lo hi step : f64) : res (list f64) :=
  if feq step fzero then Err ZeroDivisionError
  else let q := fdiv (fsub hi lo) step in
       if ffinite q then Ok (map (arange_at lo step) (seq 0 (Z.to_nat (fceil q)))) else Err Unmodelled.
(** [np.meshgrid(x, y)]. (plotters.py:411.) *)
Definition meshgrid (x y : list f64) : fmatrix * fmatrix :=
  (map (fun _ => x) y, map (fun b => map (fun _ => b) x) y).
(** [np.vstack([xx.reshape(-1), yy.reshape(-1)]).T]. (plotters.py:412.) *)
Definition xypairs (xx yy : fmatrix) : fmatrix := map2 (fun a b => [a; b]) (concat xx) (concat yy).
(** [z.reshape((rows, cols))]. (plotters.py:431.) *)
Definition reshape (rows cols : nat) (z : list f64) : res fmatrix :=
  if Nat.eqb (length z) (rows * cols) then Ok (split_sizes (repeat cols rows) z) else Err ValueError.
(** plotters.py:414-430, formatters.py:189-210: a function applied with or without a pool *)
Definition pooled (n_processes : option nat) (func : fmatrix -> res (list f64)) (X : fmatrix) : res (list f64) :=
  match n_processes with
  | Some O => Err ValueError
  | _ => compute_objective_function (N := F64num) n_processes func X
  end.
(** plotters.py:405-432 [_mesh] *)
Definition mesh (func : fmatrix -> res (list f64)) (delta : f64) (xlim ylim : f64 * f64) (n_processes : option nat)
  : res (fmatrix * fmatrix * fmatrix) :=
  do x <- np_arange (fst xlim) (snd xlim) delta;
  do y <- np_arange (fst ylim) (snd ylim) delta;
  let (xx, yy) := meshgrid x y in
  do z <- pooled n_processes func (xypairs xx yy);
  do zz <- reshape (length y) (length x) z;
  Ok (xx, yy, zz).

(** formatters.py:169-212 [Mesher.compute_history_3d].  An empty history is not modelled. *)
Definition dstack (pos : list fmatrix) (fitness : list (list f64)) : res (list fmatrix) :=
  if Nat.eqb (length pos) (length fitness) &&
     forallb (fun p => Nat.eqb (length (fst p)) (length (snd p))) (combine pos fitness)
  then Ok (map2 (fun P f => map2 (fun r v => r ++ [v]) P f) pos fitness) else Err ValueError.
(** formatters.py:169-212, all iterations *)
Definition compute_history_3d (func : fmatrix -> res (list f64)) (pos_history : list fmatrix) (n_processes : option nat)
  : res (list fmatrix) :=
  match pos_history with
  | [] => Err Unmodelled
  | _ =>
      do fitness <- mapM (pooled n_processes func) pos_history;
      dstack pos_history fitness
  end.

(** *** Plots *)

(** The parts of a [Designer] on which the outcome of a plot depends; a label given as a string is
    the list of its characters. (formatters.py:17-78.) *)
Record designer : Type := mkDesigner { ds_label : list string; ds_limits : list (f64 * f64) }.
(** formatters.py:117-167, without levels and transparency *)
Record mesher : Type := mkMesher { ms_func : fmatrix -> res (list f64); ms_delta : f64; ms_limits : list (f64 * f64) }.
(** [l[0], ..., l[k-1]]. (plotters.py:132-133, 214-217, 226, 355-360, 371, 407-408.) *)
Definition take {A} (k : nat) (l : list A) : res (list A) :=
  if Nat.leb k (length l) then Ok (firstn k l) else Err IndexError.

(** The line drawn by [plot_cost_history] and its axis labels. (plotters.py:125-133.) *)
Record line_plot : Type := mkLine { lp_points : list (nat * f64); lp_labels : list string }.
(** formatters.py:72-75, per axis *)
Definition unit_limits (k : nat) : list (f64 * f64) := repeat (fofZ (-1), fofZ 1) k.
(** plotters.py:84-139 [plot_cost_history] *)
Definition plot_cost_history (cost_history : list f64) (d : option designer) : res line_plot :=
  let d := match d with Some d => d | None => mkDesigner ["Iterations"%string; "Cost"%string] (unit_limits 3) end in
  do labels <- take 2 (ds_label d);
  Ok (mkLine (combine (seq 0 (length cost_history)) cost_history) labels).

(** An animation: axis labels and limits, the contour or surface of a mesh, a marked point, the
    frames, and the data [_animate] receives. (plotters.py:191-245, 327-390.) *)
Record animation : Type := mkAnim {
  an_labels : list string; an_limits : list (f64 * f64); an_mesh : option (fmatrix * fmatrix * fmatrix);
  an_mark : option (list f64); an_frames : list nat; an_data : list fmatrix }.
(** plotters.py:405-432 [_mesh], with the limits of a mesher *)
Definition mesher_mesh (m : mesher) (n_processes : option nat) : res (fmatrix * fmatrix * fmatrix) :=
  do xlim <- of_option IndexError (nth_error (ms_limits m) 0);
  do ylim <- of_option IndexError (nth_error (ms_limits m) 1);
  mesh (ms_func m) (ms_delta m) xlim ylim n_processes.
(** The part [plot_contour] ([k = 2]) and [plot_surface] ([k = 3]) have in common.
    (plotters.py:209-240, 351-385.) *)
Definition animated (k : nat) (pos_history : list fmatrix) (mark : option (list f64)) (d : designer) (m : option mesher)
    (n_processes : option nat) : res animation :=
  do labels <- take k (ds_label d);
  do limits <- take k (ds_limits d);
  do zz <- match m with None => Ok None | Some m => do z <- mesher_mesh m n_processes; Ok (Some z) end;
  do mk <- match mark with None => Ok None | Some p => do q <- take k p; Ok (Some q) end;
  Ok (mkAnim labels limits zz mk (seq 0 (length pos_history)) pos_history).
(** plotters.py:142-245 [plot_contour] *)
Definition plot_contour (pos_history : list fmatrix) (mark : option (list f64)) (d : option designer) (m : option mesher)
    (n_processes : option nat) : res animation :=
  let d := match d with Some d => d | None => mkDesigner ["x-axis"%string; "y-axis"%string] (unit_limits 2) end in
  animated 2 pos_history mark d m n_processes.
(** plotters.py:248-390 [plot_surface] *)
Definition plot_surface (pos_history : list fmatrix) (mark : option (list f64)) (d : option designer) (m : option mesher)
    (n_processes : option nat) : res animation :=
  let d := match d with Some d => d | None => mkDesigner ["x-axis"%string; "y-axis"%string; "z-axis"%string] (unit_limits 3) end in
  animated 3 pos_history mark d m n_processes.

(** What the scatter plot shows after one call of [_animate]: points of the plane, or the
    coordinates of points in space, axis by axis. (plotters.py:397-401.) *)
Inductive shown : Type := Flat (X : fmatrix) | Space (axes : fmatrix).
(** [X.T] of a matrix with rows of length [k]. (plotters.py:401.) *)
Definition transpose (k : nat) (X : fmatrix) : fmatrix := map (fun j => map (fun r => nth j r fzero) X) (seq 0 k).
(** plotters.py:393-402 [_animate].  A matrix without rows is not modelled. *)
Definition animate (i : nat) (data : list fmatrix) : res shown :=
  do cur <- of_option IndexError (nth_error data i);
  match cur with
  | [] => Err Unmodelled
  | r :: _ => Ok (if Nat.eqb (length r) 2 then Flat cur else Space (transpose (length r) cur))
  end.
