(** The loop of [optimize]: case analysis of one iteration, and the induction principle. *)
From Coq Require Import String ZArith List Arith Bool Lia.
From Verif Require Import Prelude ListFacts F64 F64Facts Num Np NpFacts Handlers Swarms Operators
  Generators Topology Optimizers Spec.
Import ListNotations.

(** Present all matrices as [list (list f64)], then [lia]. *)
Ltac ftypes := unfold Handlers.row, Handlers.matrix in *; change (T F64num) with f64 in *.
Ltac flia := ftypes; lia.

(** *** One evaluation *)
Definition Evald (c : config) (e : env) (pool : option nat) (i : nat) (o o3 : ostate)
    (cost : list f64) (pp : fmatrix) (pc : list f64) (t : topology) (bp : fbestpos) (bc : f64) (np : bool) : Prop :=
  let s := o_swarm o in
  let s2 := set_pbest (set_current_cost s cost) pp pc in
  compute_objective_function pool (e_obj e i) (s_position s) = Ok cost /\
  compute_pbest (set_current_cost s cost) = Ok (pp, pc) /\
  compute_gbest (e_top e i) (gbest_args c) (o_top o) s2 = (t, Ok (bp, bc, np)) /\
  o3 = populate_history (with_top (with_swarm o (set_best s2 bp bc np)) t)
         bc (np_mean (e_tree e) pc) bc (s_position s) (s_velocity s).

Inductive EvalRaise (c : config) (e : env) (pool : option nat) (i : nat) (o : ostate) : ostate -> exn -> Prop :=
| ER_obj : forall x, compute_objective_function pool (e_obj e i) (s_position (o_swarm o)) = Err x ->
    EvalRaise c e pool i o o x
| ER_pbest : forall cost x, compute_objective_function pool (e_obj e i) (s_position (o_swarm o)) = Ok cost ->
    compute_pbest (set_current_cost (o_swarm o) cost) = Err x ->
    EvalRaise c e pool i o (with_swarm o (set_current_cost (o_swarm o) cost)) x
| ER_gbest : forall cost pp pc t x, compute_objective_function pool (e_obj e i) (s_position (o_swarm o)) = Ok cost ->
    compute_pbest (set_current_cost (o_swarm o) cost) = Ok (pp, pc) ->
    compute_gbest (e_top e i) (gbest_args c) (o_top o) (set_pbest (set_current_cost (o_swarm o) cost) pp pc) = (t, Err x) ->
    EvalRaise c e pool i o (with_top (with_swarm o (set_pbest (set_current_cost (o_swarm o) cost) pp pc)) t) x.

Lemma evaluate_cases : forall c e pool i o q,
  match evaluate_swarm c e pool i o q with
  | Next o3 q' => exists cost pp pc t bp bc np, Evald c e pool i o o3 cost pp pc t bp bc np /\
      q' = deque_append (c_ftol_iter c) q (small_change (c_ftol c) (s_best_cost (o_swarm o)) bc) /\
      Nat.leb (c_ftol_iter c) i && forallb (fun x => x) q' = false
  | Break o3 => exists cost pp pc t bp bc np, Evald c e pool i o o3 cost pp pc t bp bc np /\
      Nat.leb (c_ftol_iter c) i && forallb (fun x => x)
        (deque_append (c_ftol_iter c) q (small_change (c_ftol c) (s_best_cost (o_swarm o)) bc)) = true
  | Raise o' x => EvalRaise c e pool i o o' x
  end.
Proof.
  intros. unfold evaluate_swarm.
  destruct (compute_objective_function pool (e_obj e i) (s_position (o_swarm o))) as [cost|x] eqn:E1;
    [|constructor; auto].
  destruct (compute_pbest (set_current_cost (o_swarm o) cost)) as [[pp pc]|x] eqn:E2; [|constructor; auto].
  destruct (compute_gbest (e_top e i) (gbest_args c) (o_top o)
              (set_pbest (set_current_cost (o_swarm o) cost) pp pc)) as [t [[[bp bc] np]|x]] eqn:E3.
  2:{ econstructor; eauto. }
  cbn [s_best_cost set_pbest set_current_cost].
  destruct (Nat.leb (c_ftol_iter c) i && _) eqn:E4;
  exists cost, pp, pc, t, bp, bc, np; repeat split; auto.
Qed.

(** *** What the end of an iteration leaves alone *)
Record core_eq (o o' : ostate) : Prop := {
  ce_top : o_top o' = o_top o;
  ce_ch : o_cost_history o' = o_cost_history o;
  ce_mp : o_mean_pbest_history o' = o_mean_pbest_history o;
  ce_mn : o_mean_neighbor_history o' = o_mean_neighbor_history o;
  ce_ph : o_pos_history o' = o_pos_history o;
  ce_vh : o_velocity_history o' = o_velocity_history o;
  ce_pp : s_pbest_pos (o_swarm o') = s_pbest_pos (o_swarm o);
  ce_pc : s_pbest_cost (o_swarm o') = s_pbest_cost (o_swarm o);
  ce_bp : s_best_pos (o_swarm o') = s_best_pos (o_swarm o);
  ce_bc : s_best_cost (o_swarm o') = s_best_cost (o_swarm o);
  ce_np : s_best_np (o_swarm o') = s_best_np (o_swarm o);
  ce_cc : s_current_cost (o_swarm o') = s_current_cost (o_swarm o);
  ce_n : s_n (o_swarm o') = s_n (o_swarm o);
  ce_d : s_d (o_swarm o') = s_d (o_swarm o)
}.
Lemma core_eq_refl : forall o, core_eq o o. Proof. intros; constructor; reflexivity. Qed.

(** A completed options/velocity/position update. *)
Definition Updated (c : config) (e : env) (iters i : nat) (o o' : ostate)
    (opts : options F64num) (v : fmatrix) (vmem : option fmatrix) (p : fmatrix) (bmem : option fmatrix) : Prop :=
  let s := o_swarm o in
  let s1 := set_options s opts in
  let s2 := set_velocity s1 v in
  match c_kind c with
  | Binary => opts = s_options s /\
      compute_velocity (e_vel e i) (c_vh c) (o_vmem o) s1 (c_clamp c) None = Ok (v, vmem) /\
      binary_position (e_exp e) (e_bits e i) v = Ok p /\ bmem = o_bmem o
  | _ => oh_call (e_oh e i) (c_oh c) (c_options c)
             (mkOk (Some (Z.of_nat i)) (Some (Z.of_nat iters)) None None None None) = Ok opts /\
      compute_velocity (e_vel e i) (c_vh c) (o_vmem o) s1 (c_clamp c) (c_bounds c) = Ok (v, vmem) /\
      compute_position (e_bh e i) (c_bh c) (o_bmem o) s2 (c_bounds c) = Ok (p, bmem)
  end /\
  o_swarm o' = set_position s2 p /\ o_vmem o' = vmem /\ o_bmem o' = bmem.

Lemma update_cases : forall c e iters i o q,
  match update_swarm c e iters i o q with
  | Next o' q' => q' = q /\ core_eq o o' /\
      exists opts v vmem p bmem, Updated c e iters i o o' opts v vmem p bmem
  | Break _ => False
  | Raise o' x => core_eq o o' /\ s_position (o_swarm o') = s_position (o_swarm o)
  end.
Proof.
  intros. unfold update_swarm, Updated.
  destruct (c_kind c) eqn:K;
  repeat match goal with
  | |- context[match ?x with _ => _ end] =>
     match x with
     | oh_call _ _ _ _ => destruct x eqn:?
     | compute_velocity _ _ _ _ _ _ => destruct x as [[? ?]|?] eqn:?
     | compute_position _ _ _ _ _ => destruct x as [[? ?]|?] eqn:?
     | binary_position _ _ _ => destruct x eqn:?
     end
  end;
  try (split; [constructor; reflexivity|reflexivity]);
  (split; [reflexivity|split; [constructor; reflexivity|]]);
  do 5 eexists; repeat split; eauto.
Qed.

(** *** Induction over the loop *)
Lemma opt_loop_rule : forall c e pool iters
  (P M : nat -> ostate -> list bool -> Prop) (Q : ostate -> Prop) (R : ostate -> exn -> Prop),
  (forall i o q, i < iters -> P i o q ->
     match evaluate_swarm c e pool i o q with
     | Next o' q' => M i o' q' | Break o' => Q o' | Raise o' x => R o' x end) ->
  (forall i o q, i < iters -> M i o q ->
     match update_swarm c e iters i o q with
     | Next o' q' => P (S i) o' q' | Break o' => Q o' | Raise o' x => R o' x end) ->
  (forall o q, P iters o q -> Q o) ->
  forall m i o q, m + i = iters -> P i o q ->
    match opt_loop c e pool iters m i o q with LDone o' => Q o' | LRaise o' x => R o' x end.
Proof.
  intros c e pool iters P M Q R HE HU HQ. induction m; intros i o q Hm HP; simpl.
  - simpl in Hm. subst. eauto.
  - assert (Hi : i < iters) by lia. unfold iteration. specialize (HE i o q Hi HP).
    destruct (evaluate_swarm c e pool i o q) as [o1 q1|o1|o1 x]; auto.
    specialize (HU i o1 q1 Hi HE). destruct (update_swarm c e iters i o1 q1) as [o2 q2|o2|o2 x]; auto.
    apply IHm; auto; lia.
Qed.

(** [optimize] as a whole. *)
Definition started (c : config) (o : ostate) : ostate := start_pbest c (start_memory c o).

Lemma started_facts : forall c o,
  o_top (started c o) = o_top o /\
  o_cost_history (started c o) = o_cost_history o /\
  o_mean_pbest_history (started c o) = o_mean_pbest_history o /\
  o_mean_neighbor_history (started c o) = o_mean_neighbor_history o /\
  o_pos_history (started c o) = o_pos_history o /\
  o_velocity_history (started c o) = o_velocity_history o /\
  o_swarm (started c o) = set_pbest_cost (o_swarm o) (repeat finf (c_n c)) /\
  o_vmem (started c o) = Some (s_position (o_swarm o)) /\
  o_bmem (started c o) = match c_kind c with Binary => o_bmem o | _ => Some (s_position (o_swarm o)) end.
Proof.
  intros. unfold started, start_pbest, start_memory. destruct (c_kind c); repeat split; reflexivity.
Qed.

Lemma optimize_rule : forall c e pool iters o
  (P M : nat -> ostate -> list bool -> Prop) (Q : ostate -> Prop) (R : ostate -> exn -> Prop),
  P 0 (started c o) [] ->
  (forall i o q, i < iters -> P i o q ->
     match evaluate_swarm c e pool i o q with
     | Next o' q' => M i o' q' | Break o' => Q o' | Raise o' x => R o' x end) ->
  (forall i o q, i < iters -> M i o q ->
     match update_swarm c e iters i o q with
     | Next o' q' => P (S i) o' q' | Break o' => Q o' | Raise o' x => R o' x end) ->
  (forall o q, P iters o q -> Q o) ->
  forall o' r, optimize c e pool iters o = (o', r) ->
    (pool = Some 0 /\ o' = start_memory c o /\ r = Err ValueError) \/
    (pool <> Some 0 /\ Q o' /\ r = final_result o') \/
    (pool <> Some 0 /\ exists x, R o' x /\ r = Err x).
Proof.
  intros c e pool iters o P M Q R H0 HE HU HQ o' r. unfold optimize.
  pose proof (opt_loop_rule c e pool iters P M Q R HE HU HQ iters 0 (started c o) [] ltac:(lia) H0) as L.
  unfold started in L.
  destruct (match pool with Some O => true | _ => false end) eqn:EP.
  - destruct pool as [[|k]|]; try discriminate. intros E. injection E as <- <-. left. auto.
  - intros E. right. assert (NP : pool <> Some 0) by (destruct pool as [[|k]|]; congruence).
    assert (E' : (match opt_loop c e pool iters iters 0 (start_pbest c (start_memory c o)) [] with
      | LRaise o' x => (o', Err x) | LDone o' => (o', final_result o') end) = (o', r) -> 
      (pool <> Some 0 /\ Q o' /\ r = final_result o') \/ (pool <> Some 0 /\ exists x, R o' x /\ r = Err x)).
    { destruct (opt_loop _ _ _ _ _ _ _ _) as [o1|o1 x]; intros E1; injection E1 as <- <-; eauto 6. }
    apply E'. destruct pool as [[|k]|]; auto; congruence.
Qed.
