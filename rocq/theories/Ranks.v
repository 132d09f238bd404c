(** Only the order of the costs matters (C56). *)
From Coq Require Import String ZArith List Arith Bool Lia.
From Verif Require Import Prelude ListFacts F64 F64Facts Num Np Handlers Swarms Operators Generators Topology Optimizers Spec SpecDyn RunFacts PbestFacts RunMain RunStop NpFacts Trajectory Prefixes.
Import ListNotations.
Local Open Scope nat_scope.

Lemma fle_flt : forall a b, fle a b = negb (fisnan a) && negb (fisnan b) && negb (flt b a).
Proof.
  intros a b. destruct (fle a b) eqn:E.
  - rewrite (fle_notnan_l _ _ E), (fle_notnan_r _ _ E), (fle_nlt _ _ E). reflexivity.
  - destruct (fisnan a) eqn:A; [reflexivity|]. destruct (fisnan b) eqn:B; [reflexivity|]. destruct (flt b a) eqn:L; [reflexivity|]. exfalso. forder.
Qed.
Section Rank.
Variable P : f64 -> Prop.
Variable phi : f64 -> f64.
Hypothesis OO : order_on P phi.

Lemma phi_nan : forall a, P a -> fisnan (phi a) = fisnan a. Proof. apply OO. Qed.
Lemma phi_lt : forall a b, P a -> P b -> flt (phi a) (phi b) = flt a b. Proof. apply OO. Qed.
Lemma phi_le : forall a b, P a -> P b -> fle (phi a) (phi b) = fle a b.
Proof. intros a b A B. rewrite !fle_flt, !phi_nan, phi_lt by auto. reflexivity. Qed.

Definition rmap {A B} (f : A -> B) (r : res A) : res B := match r with Ok a => Ok (f a) | Err x => Err x end.
Definition rP {A} (Q : A -> Prop) (r : res A) : Prop := match r with Ok a => Q a | Err _ => True end.

Lemma min2_rank : forall a b, P a -> P b -> np_min2 (N := F64num) (phi a) (phi b) = phi (np_min2 (N := F64num) a b) /\ P (np_min2 (N := F64num) a b).
Proof.
  intros a b A B. unfold np_min2. cbn [nle nisnan F64num]. rewrite phi_le, phi_nan by auto. destruct (fle a b || fisnan a); auto.
Qed.
Lemma min_rank : forall l, Forall P l -> np_min (N := F64num) (map phi l) = rmap phi (np_min (N := F64num) l) /\ rP P (np_min (N := F64num) l).
Proof.
  intros [|x r] H; cbn; auto. inversion H; subst. clear H. revert x H2. induction H3 as [|y r Py H IH]; intros x Px; cbn; auto.
  destruct (min2_rank x y Px Py) as [E Pm]. destruct (IH _ Pm) as [E2 P2]. split; [|exact P2].
  cbn in E2. rewrite <- E2. do 2 f_equal. exact E.
Qed.
Lemma argmin_from_rank : forall l best bi i, P best -> Forall P l ->
  argmin_from (N := F64num) (phi best) bi i (map phi l) = argmin_from (N := F64num) best bi i l.
Proof.
  induction l as [|x l IH]; intros best bi i Pb H; cbn [argmin_from map nisnan F64num]; rewrite phi_nan by exact Pb; [reflexivity|].
  inversion H; subst. destruct (fisnan best); [reflexivity|]. cbn [nle F64num]. rewrite phi_le by auto.
  destruct (fle best x); apply IH; auto.
Qed.
Lemma argmin_rank : forall l, Forall P l -> np_argmin (N := F64num) (map phi l) = np_argmin (N := F64num) l.
Proof. intros [|x r] H; [reflexivity|]. cbn. inversion H; subst. f_equal. apply argmin_from_rank; auto. Qed.
Lemma take_rank : forall l idx, Forall P l -> np_take (map phi l) idx = rmap (map phi) (np_take l idx) /\ rP (Forall P) (np_take l idx).
Proof.
  intros l idx H. unfold np_take. induction idx as [|i idx [E Q]]; cbn; auto.
  rewrite nth_error_map, E. destruct (nth_error l i) as [a|] eqn:N; cbn; auto.
  destruct (mapM (fun i : nat => of_option IndexError (nth_error l i)) idx) as [r|x]; cbn in *; auto. split; auto. constructor; auto.
  rewrite Forall_forall in H. apply H. eapply nth_error_In; eauto.
Qed.
Lemma best_of_rank : forall l idx, Forall P l -> best_of (map phi l) idx = best_of l idx.
Proof.
  intros l idx H. unfold best_of. destruct (take_rank l idx H) as [E Q]. rewrite E. destruct (np_take l idx) as [cs|x]; cbn in *; auto.
  rewrite argmin_rank by exact Q. reflexivity.
Qed.
(** A global best with relabelled cost. *)
Definition gmap (g : gbest) : gbest := let '(bp, c, np) := g in (bp, phi c, np).
Definition gP (g : gbest) : Prop := let '(bp, c, np) := g in P c.
(** The functions of the topologies on costs and positions. *)
Definition pick (cost : list f64) (pos : fmatrix) (bn : list nat) : res gbest :=
  do cs <- np_take cost bn; do c <- np_min (N := F64num) cs; do p <- np_take pos bn; Ok (BPMat p, c, true).
Definition nbh (cost : list f64) (pos : fmatrix) (rows : list (list nat)) : res gbest :=
  do bn <- mapM (best_of cost) rows; pick cost pos bn.
Definition whole (cost : list f64) (pos : fmatrix) : res gbest :=
  do i <- np_argmin (N := F64num) cost; do p <- of_option IndexError (nth_error pos i); do c <- np_min (N := F64num) cost; Ok (BPVec p, c, true).
Definition starred (cost : list f64) (pos : fmatrix) (bc : f64) (bp : fbestpos) (np : bool) : res gbest :=
  do m <- np_min (N := F64num) cost;
  if flt m bc then do i <- np_argmin (N := F64num) cost; do p <- of_option IndexError (nth_error pos i); Ok (BPVec p, m, true) else Ok (bp, bc, np).
Lemma pick_rank' : forall cost pos bn, Forall P cost -> pick (map phi cost) pos bn = rmap gmap (pick cost pos bn) /\ rP gP (pick cost pos bn).
Proof.
  intros cost pos bn H. unfold pick. destruct (take_rank _ bn H) as [E Q]. rewrite E.
  destruct (np_take cost bn) as [cs|x]; cbn [rmap bind rP] in *; [|auto].
  destruct (min_rank cs Q) as [E2 Q2]. cbn [T F64num] in *. rewrite E2. destruct (np_min (N := F64num) cs) as [m|x]; cbn [rmap bind rP] in *; [|auto].
  match goal with |- context [@np_take ?A pos bn] => destruct (@np_take A pos bn) as [p|x] end; cbn; auto.
Qed.
Lemma nbh_rank' : forall cost pos rows, Forall P cost -> nbh (map phi cost) pos rows = rmap gmap (nbh cost pos rows) /\ rP gP (nbh cost pos rows).
Proof.
  intros cost pos rows H. unfold nbh.
  rewrite (mapM_ext (best_of (map phi cost)) (best_of cost)) by (intros; apply best_of_rank; exact H).
  destruct (mapM _ rows) as [bn|x]; cbn [bind]; [apply pick_rank'; exact H|]. cbn. auto.
Qed.
Lemma whole_rank' : forall cost pos, Forall P cost -> whole (map phi cost) pos = rmap gmap (whole cost pos) /\ rP gP (whole cost pos).
Proof.
  intros cost pos H. unfold whole. pose proof (argmin_rank cost H) as A. destruct (min_rank cost H) as [E Q]. cbn [T F64num] in *. rewrite A, E.
  destruct (np_argmin (N := F64num) cost) as [i|x]; cbn [bind]; [|cbn; auto].
  match goal with |- context [@nth_error ?A pos i] => destruct (@nth_error A pos i) as [p|] end; cbn [of_option bind]; [|cbn; auto].
  destruct (np_min (N := F64num) cost) as [m|x]; cbn in *; auto.
Qed.
Lemma starred_rank' : forall cost pos bc bp np, Forall P cost -> P bc ->
  starred (map phi cost) pos (phi bc) bp np = rmap gmap (starred cost pos bc bp np) /\ rP gP (starred cost pos bc bp np).
Proof.
  intros cost pos bc bp np H B. unfold starred. pose proof (argmin_rank cost H) as A. destruct (min_rank cost H) as [E Q]. cbn [T F64num] in *. rewrite A, E.
  destruct (np_min (N := F64num) cost) as [m|x]; cbn [rmap bind rP] in *; [|auto]. rewrite phi_lt by auto. destruct (flt m bc); [|auto].
  destruct (np_argmin (N := F64num) cost) as [i|x]; cbn [bind]; [|cbn; auto].
  match goal with |- context [@nth_error ?A pos i] => destruct (@nth_error A pos i) as [p|] end; cbn; auto.
Qed.
Lemma pick_rank : forall (s : fswarm) bn, Forall P (s_pbest_cost s) -> pick_best (recost phi s) bn = rmap gmap (pick_best s bn) /\ rP gP (pick_best s bn).
Proof. intros s bn H. exact (pick_rank' (s_pbest_cost s) (s_pbest_pos s) bn H). Qed.
Lemma nbh_rank : forall (s : fswarm) rows, Forall P (s_pbest_cost s) -> neighborhood_gbest (recost phi s) rows = rmap gmap (neighborhood_gbest s rows) /\ rP gP (neighborhood_gbest s rows).
Proof. intros s rows H. exact (nbh_rank' (s_pbest_cost s) (s_pbest_pos s) rows H). Qed.
Definition tmap (p : topology * res gbest) : topology * res gbest := (fst p, rmap gmap (snd p)).
Lemma star_rank : forall t (s : fswarm), Forall P (s_pbest_cost s) -> P (s_best_cost s) -> star_gbest t (recost phi s) = tmap (star_gbest t s) /\ rP gP (snd (star_gbest t s)).
Proof.
  intros t s H B. destruct (starred_rank' (s_pbest_cost s) (s_pbest_pos s) (s_best_cost s) (s_best_pos s) (s_best_np s) H B) as [E Q].
  split; [|exact Q]. unfold tmap. cbn [fst snd star_gbest]. exact (f_equal (pair _) E).
Qed.
Lemma ring_rank : forall te p k t (s : fswarm), Forall P (s_pbest_cost s) -> ring_gbest te p k t (recost phi s) = tmap (ring_gbest te p k t s) /\ rP gP (snd (ring_gbest te p k t s)).
Proof.
  intros te p k t s H. unfold ring_gbest, tmap. cbn [s_position s_n recost].
  set (X := if needs_neighbors t then _ else _). destruct X as [t1 [nb|x]]; [|cbn; auto].
  destruct (k =? 1)%Z.
  - destruct (Nat.leb max_dims (nb_ndim nb)); [cbn; auto|]. cbn [fst snd]. destruct (pick_rank s (seq 0 (s_n s)) H) as [E Q].
    split; [f_equal; exact E|exact Q].
  - destruct (Nat.eqb (nb_ndim nb) 2); [|cbn; auto]. cbn [fst snd]. destruct (nbh_rank s (nb_rows nb) H) as [E Q].
    split; [f_equal; exact E|exact Q].
Qed.
Lemma gbest_rank : forall te a t (s : fswarm), Forall P (s_pbest_cost s) -> P (s_best_cost s) ->
  compute_gbest te a t (recost phi s) = tmap (compute_gbest te a t s) /\ rP gP (snd (compute_gbest te a t s)).
Proof.
  intros te a t s H B. unfold compute_gbest. destruct (t_kind t).
  - apply star_rank; auto.
  - destruct (ga_p a) as [p|]; [|cbn; auto]. destruct (ga_k a) as [k|]; [|cbn; auto]. apply ring_rank; auto.
  - destruct (ga_p a) as [p|]; [|cbn; auto]. destruct (ga_r a) as [r|]; [|cbn; auto]. unfold von_neumann_gbest. cbn [s_d recost].
    destruct (r <? 0)%Z; [cbn; auto|]. apply ring_rank; auto.
  - unfold pyramid_gbest. cbn [s_n s_d s_position s_pbest_cost s_pbest_pos recost]. destruct (Nat.ltb (s_n s) (s_d s + 1)).
    + destruct (whole_rank' (s_pbest_cost s) (s_pbest_pos s) H) as [E Q]. split; [exact (f_equal (pair _) E)|exact Q].
    + set (X := if needs_neighbors t then _ else _). destruct X as [t1 [rows|x]]; [|cbn; auto]. unfold tmap. cbn [fst snd].
      destruct (nbh_rank s rows H) as [E Q]. split; [f_equal; exact E|exact Q].
  - destruct (ga_k a) as [k|]; [|cbn; auto]. unfold random_gbest. cbn [s_n recost].
    set (X := if needs_neighbors t then _ else _). destruct X as [t1 [rows|x]]; [|cbn; auto]. unfold tmap. cbn [fst snd].
    destruct (nbh_rank s rows H) as [E Q]. split; [f_equal; exact E|exact Q].
Qed.
Definition choose (m : bool) (o n : f64) : f64 := if negb m then o else n.
Lemma pick_map : forall mk l m, map3 choose mk (map phi l) (map phi m) = map phi (map3 choose mk l m).
Proof. induction mk as [|k mk IH]; intros [|a l] [|b m]; try reflexivity. cbn. f_equal; [destruct k; reflexivity|apply IH]. Qed.
Lemma pick_P : forall mk l m, Forall P l -> Forall P m -> Forall P (map3 choose mk l m).
Proof.
  induction mk as [|k mk IH]; intros [|a l] [|b m] H K; cbn; try constructor; inversion H; inversion K; subst; auto. destruct k; auto.
Qed.
Lemma pbest_rank : forall (s : fswarm), Forall P (s_pbest_cost s) -> Forall P (s_current_cost s) ->
  compute_pbest (recost phi s) = rmap (fun p => (fst p, map phi (snd p))) (compute_pbest s) /\ rP (fun p => Forall P (snd p)) (compute_pbest s).
Proof.
  intros s H K. unfold compute_pbest. cbn [s_pbest_cost s_current_cost s_position s_pbest_pos recost]. 
  assert (L1 : length (map phi (s_current_cost s)) = length (s_current_cost s)) by apply map_length.
  assert (L2 : length (map phi (s_pbest_cost s)) = length (s_pbest_cost s)) by apply map_length.
  assert (M : map2 (nlt (n := F64num)) (map phi (s_current_cost s)) (map phi (s_pbest_cost s)) = map2 (nlt (n := F64num)) (s_current_cost s) (s_pbest_cost s)).
  { clear -OO H K. revert K. generalize (s_current_cost s) as l. induction H as [|b m Pb H IH]; intros l K; destruct l as [|a l]; try reflexivity.
    inversion K; subst. cbn. f_equal; [apply phi_lt; auto|]. apply IH; auto. }
  ftypes. rewrite L1, L2, M. destruct (negb _); [cbn; auto|]. destruct (negb _); [cbn; auto|]. cbn [rmap rP fst snd]. split.
  - do 2 f_equal. apply pick_map.
  - apply pick_P; assumption.
Qed.

(** The objective, in one process or many. *)
Lemma objective_rank : forall pool f t X, (forall Y cs, f t Y = Ok cs -> Forall P cs) ->
  compute_objective_function (N := F64num) pool (relabel phi f t) X = rmap (map phi) (compute_objective_function (N := F64num) pool (f t) X) /\
  rP (Forall P) (compute_objective_function (N := F64num) pool (f t) X).
Proof.
  intros pool f t X H. unfold compute_objective_function. destruct pool as [n|].
  - match goal with |- context [mapM (f t) ?l] => generalize l as bs end. intros bs.
    assert (E : mapM (relabel phi f t) bs = rmap (map (map phi)) (mapM (f t) bs) /\ rP (Forall (Forall P)) (mapM (f t) bs)).
    { induction bs as [|b bs [E Q]]; [cbn; auto|]. cbn. rewrite E. unfold relabel at 1. destruct (f t b) as [cs|x] eqn:F; cbn; auto.
      destruct (mapM (f t) bs) as [rs|x]; cbn in *; auto. split; auto. constructor; eauto. }
    destruct E as [E Q]. assert (E' : mapM (relabel phi f t) bs = rmap (map (map phi)) (mapM (f t) bs)) by exact E.
    match goal with |- context [@mapM ?A ?B (f t) bs] => remember (@mapM A B (f t) bs) as r0 eqn:R0 end.
    match goal with |- context [@mapM ?A ?B (relabel phi f t) bs] => remember (@mapM A B (relabel phi f t) bs) as r1 eqn:R1 end.
    assert (E2 : r1 = rmap (map (map phi)) r0) by (rewrite R0, R1; exact E). assert (Q2 : rP (Forall (Forall P)) r0) by (rewrite R0; exact Q).
    clear - E2 Q2. subst r1. destruct r0 as [rs|x]; cbn in *; auto. split; [f_equal; apply eq_sym, concat_map|]. apply Forall_concat. exact Q2.
  - unfold relabel. destruct (f t X) as [cs|x] eqn:F; cbn; eauto.
Qed.

Definition RInv (o : ostate) : Prop := Forall P (s_pbest_cost (o_swarm o)) /\ P (s_best_cost (o_swarm o)).
Definition steps_rel (r r' : step) : Prop :=
  match r, r' with
  | Next o _, Next o' _ => recosted phi o o' /\ RInv o
  | Raise o x, Raise o' x' => recosted phi o o' /\ P (s_best_cost (o_swarm o)) /\ x' = x
  | _, _ => False
  end.
Lemma evaluate_rank : forall c e pool i o o' q q', c_ftol c = fninf -> 0 < c_ftol_iter c -> (forall t X cs, e_obj e t X = Ok cs -> Forall P cs) ->
  recosted phi o o' -> RInv o ->
  steps_rel (evaluate_swarm c e pool i o q) (evaluate_swarm c (with_obj e (relabel phi (e_obj e))) pool i o' q').
Proof.
  intros c e pool i o o' q q' FT FI HP R [I1 I2]. destruct R as (R1 & R2 & R3 & R4 & R5 & R6 & R7 & R8 & R9).
  unfold evaluate_swarm. rewrite R1, R2. cbn [e_obj e_top e_tree with_obj s_position recost].
  destruct (objective_rank pool (e_obj e) i (s_position (o_swarm o)) (HP i)) as [E Q]. rewrite E.
  destruct (compute_objective_function (N := F64num) pool (e_obj e i) (s_position (o_swarm o))) as [cost|x]; cbn [rmap rP] in *.
  2:{ cbn. split; [|auto]. unfold recosted. auto 15. }
  destruct (pbest_rank (set_current_cost (N := F64num) (o_swarm o) cost) I1 Q) as [E1 Q1].
  change (set_current_cost (recost phi (o_swarm o)) (map phi cost)) with (recost phi (set_current_cost (N := F64num) (o_swarm o) cost)).
  rewrite E1. destruct (compute_pbest (set_current_cost (N := F64num) (o_swarm o) cost)) as [[pp pc]|x]; cbn [rmap rP fst snd] in *.
  2:{ cbn. split; [|auto]. unfold recosted. cbn. auto 15. }
  change (set_pbest (recost phi (set_current_cost (N := F64num) (o_swarm o) cost)) pp (map phi pc))
    with (recost phi (set_pbest (N := F64num) (set_current_cost (N := F64num) (o_swarm o) cost) pp pc)).
  destruct (gbest_rank (e_top e i) (gbest_args c) (o_top o) (set_pbest (N := F64num) (set_current_cost (N := F64num) (o_swarm o) cost) pp pc) Q1 I2) as [E2 Q2].
  rewrite E2. clear E2. destruct (compute_gbest (e_top e i) (gbest_args c) (o_top o) (set_pbest (N := F64num) (set_current_cost (N := F64num) (o_swarm o) cost) pp pc)) as [t [[[bp bc] np]|x]]; cbn [tmap fst snd rmap rP gmap gP] in *.
  2:{ cbn. split; [|auto]. unfold recosted. cbn. auto 15. }
  rewrite FT, !small_never, !deque_false, !andb_false_r by exact FI. cbn [steps_rel]. split; [|split; cbn; auto].
  unfold recosted. cbn. rewrite R5, R6, R8, R9, !map_app, !app_length, R7. auto 15.
Qed.
Lemma update_rank : forall c e f iters i o o' q q', recosted phi o o' -> RInv o ->
  steps_rel (update_swarm c e iters i o q) (update_swarm c (with_obj e f) iters i o' q').
Proof.
  intros c e f iters i o o' q q' R [I1 I2]. destruct R as (R1 & R2 & R3 & R4 & R5 & R6 & R7 & R8 & R9).
  unfold update_swarm. rewrite R1. cbn [e_oh e_vel e_bh e_bits e_exp with_obj s_options recost].
  destruct (match c_kind c with Binary => Ok _ | _ => oh_call _ _ _ _ end) as [opts|x].
  2:{ cbn. split; [|auto]. unfold recosted. auto 15. }
  cbn [o_vmem with_swarm]. rewrite R4.
  change (compute_velocity (e_vel e i) (c_vh c) (o_vmem o) (set_options (recost phi (o_swarm o)) opts)) with
    (compute_velocity (e_vel e i) (c_vh c) (o_vmem o) (set_options (o_swarm o) opts)).
  destruct (compute_velocity _ _ _ _ _ _) as [[v vm]|x].
  2:{ cbn. split; [|auto]. unfold recosted. cbn. auto 15. }
  assert (CP : forall p, match compute_position (e_bh e i) (c_bh c) (o_bmem o) (set_velocity (set_options (o_swarm o) opts) v) (c_bounds c) with p0 => p0 end = p ->
     compute_position (e_bh e i) (c_bh c) (o_bmem o) (set_velocity (set_options (recost phi (o_swarm o)) opts) v) (c_bounds c) = p) by (intros p <-; reflexivity).
  cbn [o_bmem with_vmem with_swarm]. rewrite R3.
  destruct (c_kind c).
  4:{ cbn [s_velocity set_velocity]. destruct (binary_position _ _ _) as [p|x]; cbn; (split; [|try split; auto]); unfold recosted; cbn; auto 15. }
  all: destruct (compute_position (e_bh e i) (c_bh c) (o_bmem o) (set_velocity (set_options (o_swarm o) opts) v) (c_bounds c)) as [[p bm]|x];
    rewrite (CP _ eq_refl); cbn; (split; [|try split; auto]); unfold recosted; cbn; auto 15.
Qed.
Definition ends_rel (r r' : loop_end) : Prop :=
  match r, r' with
  | LDone o, LDone o' => recosted phi o o' /\ RInv o
  | LRaise o x, LRaise o' x' => recosted phi o o' /\ P (s_best_cost (o_swarm o)) /\ x' = x
  | _, _ => False
  end.
Lemma loop_rank : forall c e pool iters, c_ftol c = fninf -> 0 < c_ftol_iter c -> (forall t X cs, e_obj e t X = Ok cs -> Forall P cs) ->
  forall m i o o' q q', recosted phi o o' -> RInv o ->
  ends_rel (opt_loop c e pool iters m i o q) (opt_loop c (with_obj e (relabel phi (e_obj e))) pool iters m i o' q').
Proof.
  intros c e pool iters FT FI HP. induction m as [|m IH]; intros i o o' q q' R I; cbn [opt_loop]; [split; auto|]. unfold iteration.
  pose proof (evaluate_rank c e pool i o o' q q' FT FI HP R I) as EV.
  destruct (evaluate_swarm c e pool i o q) as [o3 q3|o3|o3 x]; destruct (evaluate_swarm c (with_obj e (relabel phi (e_obj e))) pool i o' q') as [o3' q3'|o3'|o3' x'];
    try contradiction; [|exact EV].
  pose proof (update_rank c e (relabel phi (e_obj e)) iters i o3 o3' q3 q3' (proj1 EV) (proj2 EV)) as UV.
  destruct (update_swarm c e iters i o3 q3) as [o4 q4|o4|o4 x]; destruct (update_swarm c (with_obj e (relabel phi (e_obj e))) iters i o3' q3') as [o4' q4'|o4'|o4' x'];
    try contradiction; [|exact UV]. apply IH; apply UV.
Qed.
Lemma final_rank : forall o o', recosted phi o o' -> RInv o -> final_result o' = rmap (fun v => (phi (fst v), snd v)) (final_result o).
Proof.
  intros o o' R [I1 I2]. destruct R as (R1 & _). unfold final_result. rewrite R1. cbn [s_best_np s_pbest_cost s_best_cost s_pbest_pos recost].
  destruct (negb _); [reflexivity|].
  assert (A : np_argmin (N := F64num) (map phi (s_pbest_cost (o_swarm o))) = np_argmin (N := F64num) (s_pbest_cost (o_swarm o))) by (apply argmin_rank; exact I1).
  rewrite A. clear A. destruct (np_argmin (N := F64num) (s_pbest_cost (o_swarm o))) as [j|x]; cbn [bind]; [|reflexivity].
  destruct (nth_error (s_pbest_pos (o_swarm o)) j) as [p|]; reflexivity.
Qed.
End Rank.

Lemma relabelled_run : forall P phi c e pool iters o o0 o' r, order_on P phi -> P finf -> phi finf = finf ->
  (forall t X cs, e_obj e t X = Ok cs -> Forall P cs) -> c_ftol c = fninf -> 0 < c_ftol_iter c ->
  recosted phi o o0 -> P (s_best_cost (o_swarm o)) -> optimize c e pool iters o = (o', r) ->
  exists o0' r0, optimize c (with_obj e (relabel phi (e_obj e))) pool iters o0 = (o0', r0) /\ recosted phi o' o0' /\ P (s_best_cost (o_swarm o')) /\
    match r, r0 with Ok (y, x), Ok (y0, x0) => x0 = x /\ y0 = phi y | Err x, Err x0 => x0 = x | _, _ => False end.
Proof.
  intros P phi c e pool iters o o0 o' r OO PI FI HP FT F0 R B E.
  assert (RM : recosted phi (start_memory c o) (start_memory c o0)).
  { destruct R as (R1 & R2 & R3 & R4 & R5 & R6 & R7 & R8 & R9). unfold start_memory. destruct (c_kind c); unfold recosted; cbn; rewrite ?R1; cbn; auto 15. }
  assert (RS : recosted phi (started c o) (started c o0)).
  { destruct RM as (R1 & R2 & R3 & R4 & R5 & R6 & R7 & R8 & R9). unfold started, start_pbest. unfold recosted. cbn. split; [|auto 15].
    rewrite R1. unfold set_pbest_cost, set_pbest, recost. cbn.
    assert (Q : map phi (repeat finf (c_n c)) = repeat finf (c_n c)) by (clear -FI; induction (c_n c); cbn; [reflexivity|rewrite FI; f_equal; auto]).
    ftypes. rewrite Q. reflexivity. }
  assert (IS : RInv P (started c o)).
  { unfold started, start_pbest, RInv. cbn. split; [|unfold start_memory; destruct (c_kind c); exact B]. apply Forall_forall. intros x I. apply repeat_spec in I. subst x. exact PI. }
  assert (D : pool = Some 0 \/ pool <> Some 0) by (destruct pool as [[|p]|]; [left; reflexivity|right; congruence|right; congruence]).
  destruct D as [->|NP].
  - cbn in E. injection E as <- <-. exists (start_memory c o0), (Err ValueError). split; [reflexivity|]. split; [exact RM|]. split; [|reflexivity].
    unfold start_memory. destruct (c_kind c); exact B.
  - rewrite optimize_loop in E by exact NP. rewrite optimize_loop by exact NP.
    pose proof (loop_rank P phi OO c e pool iters FT F0 HP iters 0 _ _ [] [] RS IS) as LR.
    destruct (opt_loop c e pool iters iters 0 (started c o) []) as [o1|o1 x]; destruct (opt_loop c _ pool iters iters 0 (started c o0) []) as [o2|o2 x2]; try contradiction.
    + injection E as -> <-. destruct LR as [LR [I1 I2]]. exists o2, (final_result o2). split; [reflexivity|]. split; [exact LR|]. split; [exact I2|].
      rewrite (final_rank P phi OO _ _ LR (conj I1 I2)). destruct (final_result o') as [[y x]|x]; cbn; auto.
    + injection E as -> <-. destruct LR as (LR & I2 & ->). exists o2, (Err x). auto.
Qed.
Lemma recosted_fresh : forall phi c o, phi finf = finf -> Fresh c o -> recosted phi o o.
Proof.
  intros phi c o FI F. destruct (Fresh_inv _ _ F) as (d & p & v & E & E1 & E2 & E3 & E4 & E5).
  unfold recosted. rewrite E, E1, E3. cbn. unfold recost, new_swarm. cbn. rewrite FI. auto 15.
Qed.
Lemma relabelled_fresh : forall P phi c e pool iters o o' r, order_on P phi -> P finf -> phi finf = finf ->
  (forall t X cs, e_obj e t X = Ok cs -> Forall P cs) -> c_ftol c = fninf -> 0 < c_ftol_iter c ->
  Fresh c o -> optimize c e pool iters o = (o', r) ->
  exists o0' r0, optimize c (with_obj e (relabel phi (e_obj e))) pool iters o = (o0', r0) /\ recosted phi o' o0' /\ P (s_best_cost (o_swarm o')) /\
    match r, r0 with Ok (y, x), Ok (y0, x0) => x0 = x /\ y0 = phi y | Err x, Err x0 => x0 = x | _, _ => False end.
Proof.
  intros P phi c e pool iters o o' r OO PI FI HP FT F0 F E. eapply relabelled_run; eauto. eapply recosted_fresh; eauto.
  destruct (Fresh_inv _ _ F) as (d & p & v & Q & _). rewrite Q. exact PI.
Qed.
