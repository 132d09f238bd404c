(** Objectives that write into the array they are given.  The runs of Heap.v again, with an
    objective that may change the entries of its argument in place before it answers: the
    argument is the swarm's own position array, not a copy (operators.py:238-239); the workers
    of a pool get pickled copies of blocks instead, and what they write is lost
    (operators.py:240-245). *)
From Coq Require Import String ZArith List Arith Bool.
From Verif Require Import Prelude F64 Num Np Handlers Swarms Operators Generators Topology Optimizers Heap.
Import ListNotations.
Local Open Scope list_scope.

(** What the call of iteration [i] leaves in the array holding [p] when it was called. *)
Definition writer : Type := nat -> fmatrix -> fmatrix.
(** The calls of the objective so far, for the rest of the pass: iteration [i] has answered [r].
    (operators.py:239, the value returned to global_best.py:210 and its siblings.) *)
Definition answered (e : env) (i : nat) (r : res (list f64)) : env :=
  mkEnv (fun j X => if Nat.eqb j i then r else e_obj e j X) (e_vel e) (e_bh e) (e_oh e) (e_top e) (e_bits e) (e_exp e) (e_tree e).
(** global_best.py:207-238, local_best.py:231-266, general_optimizer.py:245-278, binary.py:194-230,
    after operators.py:238-245: without a pool the array is read and written by the objective, and
    everything later in the pass sees the entries it left. *)
Definition w_evaluate (c : config) (e : env) (wr : writer) (pool : option nat) (i : nat) (h : heap) (o : hstate) (q : list bool) : heap * hstep :=
  match pool with
  | Some _ => h_evaluate c e pool i h o q
  | None =>
      match nth_error h (hs_position (hs o)) with
      | Some p => h_evaluate c (answered e i (e_obj e i p)) None i (upd h (hs_position (hs o)) (wr i p)) o q
      | None => h_evaluate c e None i h o q
      end
  end.
(** As [h_iteration]: global_best.py:207-248 etc., one pass *)
Definition w_iteration (c : config) (e : env) (wr : writer) (pool : option nat) (iters i : nat) (h : heap) (o : hstate) (q : list bool) : heap * hstep :=
  match w_evaluate c e wr pool i h o q with
  | (h, HNext o' q') => h_update c e iters i h o' q'
  | r => r
  end.
(** As [h_loop]: global_best.py:206, local_best.py:230, general_optimizer.py:244, binary.py:193 *)
Fixpoint w_loop (c : config) (e : env) (wr : writer) (pool : option nat) (iters m i : nat) (h : heap) (o : hstate) (q : list bool) : heap * hloop_end :=
  match m with
  | O => (h, HDone o)
  | S m' =>
      match w_iteration c e wr pool iters i h o q with
      | (h, HNext o' q') => w_loop c e wr pool iters m' (S i) h o' q'
      | (h, HBreak o') => (h, HDone o')
      | (h, HRaise o' x) => (h, HLRaise o' x)
      end
  end.
(** As [h_optimize]: global_best.py:159-264, local_best.py:183-292, general_optimizer.py:197-304, binary.py:146-250 *)
Definition w_optimize (c : config) (e : env) (wr : writer) (pool : option nat) (iters : nat) (h : heap) (o : hstate) : heap * (hstate * res (f64 * frow)) :=
  let o1 := h_start c o in
  match pool with
  | Some O => (h, (o1, Err ValueError))
  | _ =>
      let s := hs o1 in
      match w_loop c e wr pool iters iters 0 h (h_with_swarm o1 (h_set_rest s (set_pbest_cost (hs_rest s) (repeat finf (c_n c))))) [] with
      | (h, HLRaise o' x) => (h, (o', Err x))
      | (h, HDone o') => let (h, r) := h_final o' h in (h, (o', r))
      end
  end.
