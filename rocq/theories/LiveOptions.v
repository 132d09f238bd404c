(** The options dictionary is the caller's object: runs whose objective writes into it.

    [self.options] and (at first) [swarm.options] are the dictionary passed by the caller (base_single.py:99, 211, base_discrete.py:101, 213);
    OptionsHandler reads it again in every iteration (handlers.py:606-625 returns it, or a changed copy). *)
From Coq Require Import String ZArith List Arith Bool.
From Verif Require Import Prelude F64 Num Np Handlers Swarms Operators Generators Topology Optimizers.
Import ListNotations.
Local Open Scope string_scope.
Local Open Scope list_scope.

(** [self.options] with the contents [u]. (base_single.py:99, base_discrete.py:101.) *)
Definition with_options (c : config) (u : options F64num) : config :=
  {| c_kind := c_kind c; c_n := c_n c; c_d := c_d c; c_options := u; c_bounds := c_bounds c; c_clamp := c_clamp c; c_center := c_center c; c_ftol := c_ftol c; c_ftol_iter := c_ftol_iter c; c_init := c_init c;
     c_bh := c_bh c; c_vh := c_vh c; c_oh := c_oh c |}.
(** What [compute_gbest] is asked with: general_optimizer.py:252-254 reads the dictionary, local_best.py:159, 240-242 and binary.py:127, 203-205 keep the k and p of the construction. *)
Definition asked (c : config) (u : options F64num) : config := match c_kind c with General => with_options c u | _ => c end.

(** What the objective leaves in the dictionary in iteration [i], given the positions and the contents before. (operators.py:238-239: the objective is called.) *)
Definition writer : Type := nat -> fmatrix -> options F64num -> options F64num.

(** State of a call: the object, the contents of the dictionary, and whether [swarm.options] is that dictionary. (swarms.py:90, global_best.py:239-241.) *)
Record lstate : Type := mkL { l_o : ostate; l_u : options F64num; l_same : bool }.
(** How an iteration ends. (global_best.py:207-248.) *)
Inductive lstep : Type :=
| LNext (s : lstate) (q : list bool)
| LBreak (s : lstate)
| LStop (s : lstate) (e : exn).

(** global_best.py:239-241, local_best.py:267-269, general_optimizer.py:279-281: after the options update [swarm.options] is the dictionary itself only without strategies
    (handlers.py:608-609); BinaryPSO has no options update *)
Definition same_after (c : config) (e : env) (iters i : nat) (u : options F64num) (same : bool) : bool :=
  match c_kind c with
  | Binary => same
  | _ => match c_oh c with
         | [] => true
         | _ => match oh_call (e_oh e i) (c_oh c) u (mkOk (Some (Z.of_nat i)) (Some (Z.of_nat iters)) None None None None) with Ok _ => false | Err _ => same end
         end
  end.
(** global_best.py:207-248, local_best.py:231-276, general_optimizer.py:245-288, binary.py:194-234. With a pool the objective writes into the workers' copies (operators.py:241-245). *)
Definition live_iteration (c : config) (e : env) (wr : writer) (pool : option nat) (iters i : nat) (s : lstate) (q : list bool) : lstep :=
  let u := match pool with None => wr i (s_position (o_swarm (l_o s))) (l_u s) | Some _ => l_u s end in
  let o := if l_same s then with_swarm (l_o s) (set_options (o_swarm (l_o s)) u) else l_o s in
  match evaluate_swarm (asked c u) e pool i o q with
  | Raise o' x => LStop (mkL o' u (l_same s)) x
  | Break o' => LBreak (mkL o' u (l_same s))
  | Next o' q' =>
      let same := same_after c e iters i u (l_same s) in
      match update_swarm (with_options c u) e iters i o' q' with
      | Next o2 q2 => LNext (mkL o2 u same) q2
      | Break o2 => LBreak (mkL o2 u same)
      | Raise o2 x => LStop (mkL o2 u same) x
      end
  end.
(** global_best.py:206, local_best.py:230, general_optimizer.py:244, binary.py:193 *)
Fixpoint live_loop (c : config) (e : env) (wr : writer) (pool : option nat) (iters m i : nat) (s : lstate) (q : list bool) : lstate * option exn :=
  match m with
  | O => (s, None)
  | S m' =>
      match live_iteration c e wr pool iters i s q with
      | LNext s' q' => live_loop c e wr pool iters m' (S i) s' q'
      | LBreak s' => (s', None)
      | LStop s' x => (s', Some x)
      end
  end.
(** [optimize] (global_best.py:159-264, local_best.py:183-292, general_optimizer.py:197-304, binary.py:146-250.) *)
Definition optimize_live (c : config) (e : env) (wr : writer) (pool : option nat) (iters : nat) (s : lstate) : lstate * res (f64 * frow) :=
  let o1 := start_memory c (l_o s) in
  match pool with
  | Some O => (mkL o1 (l_u s) (l_same s), Err ValueError)
  | _ =>
      match live_loop c e wr pool iters iters 0 (mkL (start_pbest c o1) (l_u s) (l_same s)) [] with
      | (s', Some x) => (s', Err x)
      | (s', None) => (s', final_result (l_o s'))
      end
  end.
