(** Vocabulary of the properties of plots: what a frame of an animation shows. *)
From Coq Require Import String ZArith List Arith Bool.
From Verif Require Import Prelude F64 Num Handlers Swarms Operators Generators Topology Optimizers Spec SpecHandlers Tools.
Import ListNotations.
Local Open Scope list_scope.
Local Open Scope nat_scope.

(** Frame [t] shows points in space at the heights [zs]. *)
Definition heights (an : animation) (t : nat) (zs : list f64) : Prop :=
  exists xs ys, animate t (an_data an) = Ok (Space [xs; ys; zs]).
(** In frame [t], point [i] is at [(x, y, z)]. *)
Definition point (an : animation) (t i : nat) (x y z : f64) : Prop :=
  exists xs ys zs, animate t (an_data an) = Ok (Space [xs; ys; zs]) /\
    nth_error xs i = Some x /\ nth_error ys i = Some y /\ nth_error zs i = Some z.
(** [b] is the height of the lowest point shown in the frames up to [t] (infinity if none is below). *)
Definition curve_is_lowest (an : animation) (t : nat) (b : f64) : Prop :=
  (forall t' zs z, t' <= t -> heights an t' zs -> In z zs -> flt z b = false) /\
  (b = finf \/ exists t' zs, t' <= t /\ heights an t' zs /\ In b zs).
(** The axes carry the designer's labels and limits, the marked point is the one given, and the mesh shows the values
    of the mesher's function at its nodes. *)
Definition axes_shown (k : nat) (mark : option (list f64)) (d : designer) (m : option mesher) (an : animation) : Prop :=
  length (an_labels an) = k /\ length (an_limits an) = k /\
  (forall j, j < k -> nth_error (an_labels an) j = nth_error (ds_label d) j /\ nth_error (an_limits an) j = nth_error (ds_limits d) j) /\
  (forall p, mark = Some p -> exists q, an_mark an = Some q /\ length q = k /\ forall j, j < k -> nth_error q j = nth_error p j) /\
  (forall ms (g : frow -> res f64), m = Some ms -> (forall X, ms_func ms X = mapM g X) -> exists xx yy zz, an_mesh an = Some (xx, yy, zz) /\
     forall i j a b, entry xx i j = Some a -> entry yy i j = Some b -> exists z, entry zz i j = Some z /\ g [a; b] = Ok z).
