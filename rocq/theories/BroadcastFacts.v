(** Proofs of C90. *)
From Coq Require Import String ZArith List Arith Bool Lia.
From Verif Require Import Prelude ListFacts F64 F64Facts Num Np NpFacts Handlers Swarms Operators Generators Topology Optimizers Broadcast Spec SpecHandlers SpecRun SpecBroadcast
  RunFacts PbestFacts RunMain RunMisc.
Import ListNotations.
Local Open Scope list_scope.

Definition sc (cs : list f64) (o : ostate) : ostate := with_swarm o (set_current_cost (o_swarm o) cs).
Lemma sc_but : forall cs o, but_cost (sc cs o) o.
Proof. intros cs o. split; [exists cs; reflexivity|]. repeat split. Qed.
Lemma but_sc : forall o1 o2, but_cost o1 o2 -> exists cs, o1 = sc cs o2.
Proof.
  intros [s1 t1 b1 v1 c1 m1 n1 p1 h1] [s2 t2 b2 v2 c2 m2 n2 p2 h2] ((cs & E) & E1 & E2 & E3 & E4 & E5 & E6 & E7 & E8). cbn in *. subst. exists cs. reflexivity.
Qed.
Definition step_sc (r1 r2 : step) : Prop :=
  match r1, r2 with
  | Next o1 q1, Next o2 q2 => q1 = q2 /\ but_cost o1 o2
  | Break o1, Break o2 => but_cost o1 o2
  | Raise o1 x1, Raise o2 x2 => x1 = x2 /\ but_cost o1 o2
  | _, _ => False
  end.
Lemma update_sc : forall c e iters i o q cs, step_sc (update_swarm c e iters i (sc cs o) q) (update_swarm c e iters i o q).
Proof.
  intros c e iters i [s t bm vm h1 h2 h3 h4 h5] q cs. unfold update_swarm, sc. cbv zeta.
  match goal with |- step_sc (match ?x with _ => _ end) (match ?y with _ => _ end) => change y with x; destruct x as [opts|xx]; [|split; [reflexivity|split; [exists cs; reflexivity|repeat split]]] end.
  cbv zeta.
  match goal with |- step_sc (match ?x with _ => _ end) (match ?y with _ => _ end) => change y with x; destruct x as [[v vmem]|xx]; [|split; [reflexivity|split; [exists cs; reflexivity|repeat split]]] end.
  destruct (c_kind c);
  match goal with |- step_sc (match ?x with _ => _ end) (match ?y with _ => _ end) => change y with x; destruct x as [r|xx]; [|split; [reflexivity|split; [exists cs; reflexivity|repeat split]]] end;
  try (destruct r as [p bmem]); (split; [reflexivity|split; [exists cs; reflexivity|repeat split]]).
Qed.
Lemma gbest_sc : forall te a t (s : fswarm) cs, compute_gbest te a t (set_current_cost s cs) = compute_gbest te a t s.
Proof. intros te a t s cs. destruct s. unfold compute_gbest. destruct (t_kind t); reflexivity. Qed.
(** One evaluation, for a vector of costs [cs] that stands for the given one. *)
Lemma evaluate_sc : forall c e e' f pool pool' i o q cs0, e_top e' = e_top e -> e_tree e' = e_tree e -> 2 <= length (s_pbest_cost (o_swarm o)) ->
  (forall x, objective_given pool (f i) (s_position (o_swarm o)) = Err x -> compute_objective_function (N := F64num) pool' (e_obj e' i) (s_position (o_swarm o)) = Err x) ->
  (forall g, objective_given pool (f i) (s_position (o_swarm o)) = Ok g -> exists cs, compute_objective_function (N := F64num) pool' (e_obj e' i) (s_position (o_swarm o)) = Ok cs /\
     (cs = (match costs_of g with [x] => repeat x (length (s_pbest_cost (o_swarm o))) | l => l end) \/
      (length (costs_of g) <> 1 /\ compute_pbest (set_current_cost (o_swarm o) (costs_of g)) = Err ValueError /\ compute_pbest (set_current_cost (o_swarm o) cs) = Err ValueError))) ->
  step_sc (evaluate_given c e f pool i (sc cs0 o) q) (evaluate_swarm c e' pool' i o q).
Proof.
  intros c e e' f pool pool' i o q cs0 ET EM N HE HO. unfold evaluate_given, evaluate_swarm. change (s_position (o_swarm (sc cs0 o))) with (s_position (o_swarm o)).
  destruct (objective_given pool (f i) (s_position (o_swarm o))) as [g|x].
  2:{ rewrite (HE x eq_refl). split; [reflexivity|apply sc_but]. }
  destruct (HO g eq_refl) as (cs & E & C). rewrite E. clear HE HO E. cbv zeta. unfold compute_pbest_given.
  change (s_pbest_cost (set_current_cost (o_swarm (sc cs0 o)) (costs_of g))) with (s_pbest_cost (o_swarm o)).
  change (s_current_cost (set_current_cost (o_swarm (sc cs0 o)) (costs_of g))) with (costs_of g).
  replace (Nat.eqb (length (s_pbest_cost (o_swarm o))) 1) with false by (symmetry; apply Nat.eqb_neq; lia). cbn [andb].
  set (v := match costs_of g with [x] => repeat x (length (s_pbest_cost (o_swarm o))) | _ => costs_of g end).
  change (set_current_cost (set_current_cost (o_swarm (sc cs0 o)) (costs_of g)) v) with (set_current_cost (o_swarm o) v).
  assert (D : (cs = v) \/ (compute_pbest (set_current_cost (o_swarm o) v) = Err ValueError /\ compute_pbest (set_current_cost (o_swarm o) cs) = Err ValueError)).
  { destruct C as [->|(L & C1 & C2)]; [left; unfold v; destruct (costs_of g) as [|a [|b l]]; reflexivity|right; split; [|exact C2]]. unfold v. destruct (costs_of g) as [|a [|b l]]; try exact C1. cbn in L. congruence. }
  destruct D as [->|[D1 D2]].
  2:{ match goal with |- step_sc (match ?a with _ => _ end) (match ?b with _ => _ end) => let Q := fresh in let Q' := fresh in assert (Q : a = Err ValueError) by exact D1; assert (Q' : b = Err ValueError) by exact D2; rewrite Q, Q' end. split; [reflexivity|]. split; [exists (costs_of g); reflexivity|repeat split]. }
  match goal with |- step_sc (match ?a with _ => _ end) (match ?b with _ => _ end) => change b with a; destruct a as [[pp pc]|x] end.
  2:{ split; [reflexivity|]. split; [exists (costs_of g); reflexivity|repeat split]. }
  rewrite ET. change (set_pbest (set_current_cost (o_swarm (sc cs0 o)) (costs_of g)) pp pc) with (set_current_cost (set_pbest (set_current_cost (o_swarm o) v) pp pc) (costs_of g)).
  rewrite gbest_sc. change (o_top (sc cs0 o)) with (o_top o).
  destruct (compute_gbest (e_top e i) (gbest_args c) (o_top o) (set_pbest (set_current_cost (o_swarm o) v) pp pc)) as [t [[[bp bc] np]|x]].
  2:{ split; [reflexivity|]. split; [exists (costs_of g); reflexivity|repeat split]. }
  rewrite EM. change (s_best_cost (set_current_cost (set_pbest (set_current_cost (o_swarm o) v) pp pc) (costs_of g))) with (s_best_cost (set_pbest (set_current_cost (o_swarm o) v) pp pc)).
  destruct (Nat.leb (c_ftol_iter c) i && forallb (fun x => x) (deque_append (c_ftol_iter c) q (small_change (c_ftol c) (s_best_cost (set_pbest (set_current_cost (o_swarm o) v) pp pc)) bc))).
  - split; [exists (costs_of g); reflexivity|repeat split].
  - split; [reflexivity|]. split; [exists (costs_of g); reflexivity|repeat split].
Qed.
Definition end_sc (r1 r2 : loop_end) : Prop :=
  match r1, r2 with
  | LDone o1, LDone o2 => but_cost o1 o2
  | LRaise o1 x1, LRaise o2 x2 => x1 = x2 /\ but_cost o1 o2
  | _, _ => False
  end.
Definition stands (n : nat) (pool : option nat) (f : nat -> fmatrix -> res given) (g : nat -> fmatrix -> res (list f64)) : Prop :=
  forall i (s : fswarm), length (s_pbest_cost s) = n ->
  (forall x, objective_given pool (f i) (s_position s) = Err x -> g i (s_position s) = Err x) /\
  (forall r, objective_given pool (f i) (s_position s) = Ok r -> exists cs, g i (s_position s) = Ok cs /\
     (cs = (match costs_of r with [x] => repeat x n | l => l end) \/
      (length (costs_of r) <> 1 /\ compute_pbest (set_current_cost s (costs_of r)) = Err ValueError /\ compute_pbest (set_current_cost s cs) = Err ValueError))).
Lemma loop_sc : forall c e f g pool n iters, 2 <= n -> stands n pool f g -> forall m i o q cs, length (s_pbest_cost (o_swarm o)) = n ->
  end_sc (loop_given c e f pool iters m i (sc cs o) q) (opt_loop c (asking e g) None iters m i o q).
Proof.
  intros c e f g pool n iters N ST. induction m as [|m IH]; intros i o q cs L; cbn [loop_given opt_loop]; [apply sc_but|].
  unfold iteration_given, iteration.
  assert (EV : step_sc (evaluate_given c e f pool i (sc cs o) q) (evaluate_swarm c (asking e g) None i o q)).
  { destruct (ST i (o_swarm o) L) as [S1 S2]. apply evaluate_sc; [reflexivity|reflexivity|ftypes; lia|exact S1|]. ftypes. rewrite L. exact S2. }
  pose proof (evaluate_cases c (asking e g) None i o q) as EC.
  destruct (evaluate_given c e f pool i (sc cs o) q) as [o1 q1|o1|o1 x1]; destruct (evaluate_swarm c (asking e g) None i o q) as [o2 q2|o2|o2 x2]; try contradiction; [|exact EV|exact EV].
  destruct EV as [-> B]. destruct EC as (cost & pp & pc & t & bp & bc & np & (E1 & E2 & E3 & E4) & _).
  assert (L2 : length (s_pbest_cost (o_swarm o2)) = n). { subst o2. apply compute_pbest_lengths in E2. destruct E2 as (_ & _ & _ & E2 & _). exact (eq_trans E2 L). }
  destruct (but_sc _ _ B) as (cs2 & ->). change (update_swarm c (asking e g) iters i o2 q2) with (update_swarm c e iters i o2 q2).
  pose proof (update_sc c e iters i o2 q2 cs2) as UP. pose proof (update_cases c e iters i o2 q2) as UC.
  destruct (update_swarm c e iters i (sc cs2 o2) q2) as [o3 q3|o3|o3 x3]; destruct (update_swarm c e iters i o2 q2) as [o4 q4|o4|o4 x4]; try contradiction; [|exact UP].
  destruct UP as [-> B2]. destruct UC as (_ & CE & _). destruct (but_sc _ _ B2) as (cs4 & ->). apply IH. rewrite (ce_pc _ _ CE). exact L2.
Qed.
Lemma sc_self : forall o, o = sc (s_current_cost (o_swarm o)) o.
Proof. intros [s t b v h1 h2 h3 h4 h5]. destruct s. reflexivity. Qed.
Lemma run_sc : forall c e f g pool iters o, 2 <= c_n c -> pool <> Some 0 -> stands (c_n c) pool f g ->
  same_run (optimize_given c e f pool iters o) (optimize c (asking e g) None iters o).
Proof.
  intros c e f g pool iters o N P ST. unfold optimize_given, optimize. cbv zeta.
  assert (LP : end_sc (loop_given c e f pool iters iters 0 (start_pbest c (start_memory c o)) []) (opt_loop c (asking e g) None iters iters 0 (start_pbest c (start_memory c o)) [])).
  { rewrite (sc_self (start_pbest c (start_memory c o))) at 1. apply (loop_sc c e f g pool (c_n c) iters N ST). exact (repeat_length finf (c_n c)). }
  destruct pool as [[|k]|]; [congruence| |];
  (destruct (loop_given c e f _ iters iters 0 (start_pbest c (start_memory c o)) []) as [o1|o1 x1]; destruct (opt_loop c (asking e g) None iters iters 0 (start_pbest c (start_memory c o)) []) as [o2|o2 x2]; try contradiction;
   [split; [|exact LP]; cbn [fst snd]; destruct (but_sc _ _ LP) as (cs & ->); reflexivity|destruct LP as [-> LP]; split; [reflexivity|exact LP]]).
Qed.
Lemma given_once : forall c e f g iters o, 2 <= c_n c -> repeats (c_n c) f g -> same_run (optimize_given c e f None iters o) (optimize c (asking e g) None iters o).
Proof.
  intros c e f g iters o N R. apply run_sc; [exact N|discriminate|]. intros i s L. destruct (R i (s_position s)) as (R1 & R2 & R3). cbn [objective_given]. split; [exact R3|].
  intros r E. destruct r as [x|l].
  - exists (repeat x (c_n c)). split; [apply R1; left; exact E|left; reflexivity].
  - destruct l as [|x [|y l]].
    + exists []. split; [apply R2; [discriminate|exact E]|left; reflexivity].
    + exists (repeat x (c_n c)). split; [apply R1; right; exact E|left; reflexivity].
    + exists (x :: y :: l). split; [apply R2; [discriminate|exact E]|left; reflexivity].
Qed.
Lemma arrays : forall (f : fmatrix -> res given) v bs, (forall X, f X = Ok (Array [v X])) ->
  (do rs <- mapM f bs; do ls <- mapM (fun g => match g with Array l => Ok l | Single _ => Err ValueError end) rs; Ok (Array (concat ls))) = Ok (Array (map v bs)).
Proof.
  intros f v bs H. assert (A : mapM f bs = Ok (map (fun b => Array [v b]) bs)). { induction bs as [|b bs IH]; [reflexivity|]. cbn [mapM map]. rewrite H. cbn [bind]. rewrite IH. reflexivity. }
  rewrite A. cbn [bind]. clear A. assert (B : mapM (fun g => match g with Array l => Ok l | Single _ => Err ValueError end) (map (fun b => Array [v b]) bs) = Ok (map (fun b => [v b]) bs)).
  { induction bs as [|b bs IH]; [reflexivity|]. cbn [mapM map bind]. rewrite IH. reflexivity. }
  rewrite B. cbn [bind]. f_equal. f_equal. clear. induction bs as [|b bs IH]; [reflexivity|]. cbn [map concat app]. f_equal. exact IH.
Qed.
Lemma split_one : forall A (l : list A), array_split l 1 = [l].
Proof.
  intros A l. destruct (chunks A l 0) as (C & L & _). destruct (array_split l 1) as [|a [|b r]]; try discriminate. cbn in C. rewrite app_nil_r in C. congruence.
Qed.
Lemma given_one_process : forall c e f v iters o, 2 <= c_n c -> (forall i X, f i X = Ok (Array [v i X])) ->
  same_run (optimize_given c e f (Some 1) iters o) (optimize c (asking e (fun i X => Ok (repeat (v i X) (c_n c)))) None iters o).
Proof.
  intros c e f v iters o N F. apply run_sc; [exact N|discriminate|]. intros i s L. unfold objective_given. rewrite (arrays (f i) (v i) _ (F i)). rewrite split_one. split; [discriminate|].
  intros r E. injection E as <-. eexists. split; [reflexivity|]. left. reflexivity.
Qed.
Lemma singles : forall A (bs : list (list A)), (forall b, In b bs -> length b = 1) -> bs = map (fun r => [r]) (concat bs).
Proof.
  intros A bs. induction bs as [|b bs IH]; intros H; [reflexivity|]. pose proof (H b (or_introl eq_refl)) as L. destruct b as [|x [|y b]]; try discriminate. cbn [concat map app]. f_equal. apply IH. intros b' B. apply H. right. exact B.
Qed.
Lemma sum_one : forall l, Forall (fun x => 1 <= x) l -> list_sum l = length l -> forall x, In x l -> x = 1.
Proof.
  intros l H. induction H as [|a l A F IH]; intros S x X; [destruct X|]. change (list_sum (a :: l)) with (a + list_sum l) in S. cbn [length] in S.
  assert (G : length l <= list_sum l). { clear - F. induction F as [|b l B F IH]; [cbn; lia|]. change (list_sum (b :: l)) with (b + list_sum l). cbn [length]. lia. }
  destruct X as [<-|X]; [lia|]. apply IH; [lia|exact X].
Qed.
Lemma split_all : forall A (l : list A) k, length l = S k -> array_split l (S k) = map (fun r => [r]) l.
Proof.
  intros A l k L. destruct (chunks A l k) as (C & LB & B). set (bs := array_split l (S k)) in *.
  assert (S : list_sum (map (@length A) bs) = length (map (@length A) bs)). { rewrite map_length, LB, <- L, <- C. clear. induction bs as [|b bs IH]; [reflexivity|]. cbn [map concat]. rewrite app_length, <- IH. reflexivity. }
  assert (G : Forall (fun x => 1 <= x) (map (@length A) bs)).
  { apply Forall_forall. intros x X. destruct x; [exfalso|lia]. apply in_map_iff in X. destruct X as (a & LA & IA).
    assert (Q : forall bs' : list (list A), (forall b, In b bs' -> length b <= 1) -> list_sum (map (@length A) bs') <= length bs').
    { induction bs' as [|b bs' IH]; intros H; [cbn; lia|]. change (list_sum (map (@length A) (b :: bs'))) with (length b + list_sum (map (@length A) bs')). pose proof (H b (or_introl eq_refl)). specialize (IH (fun b' B' => H b' (or_intror B'))). cbn [length]. lia. }
    assert (Q1 : forall b, In b bs -> length b <= 1) by (intros b IB; specialize (B b a IB IA); lia).
    destruct (in_split _ _ IA) as (l1 & l2 & E). rewrite E in S. rewrite map_app, list_sum_app, app_length, !map_length in S. cbn [map length] in S. change (list_sum (length a :: map (@length A) l2)) with (length a + list_sum (map (@length A) l2)) in S. rewrite LA in S.
    pose proof (Q l1 (fun b IB => Q1 b ltac:(rewrite E; apply in_or_app; auto))). pose proof (Q l2 (fun b IB => Q1 b ltac:(rewrite E; apply in_or_app; right; right; exact IB))). lia. }
  rewrite (singles A bs), C; [reflexivity|]. intros b IB. apply (sum_one _ G S). apply in_map, IB.
Qed.
Lemma pbest_wrong : forall (s : fswarm) cs, length cs <> length (s_pbest_cost s) -> compute_pbest (set_current_cost s cs) = Err ValueError.
Proof.
  intros s cs H. unfold compute_pbest. cbv zeta. match goal with |- (if negb ?b then _ else _) = _ => let Z := fresh in assert (Z : b = false) by (apply Nat.eqb_neq; exact H); rewrite Z end. reflexivity.
Qed.
Lemma pbest_wrong_pos : forall (s : fswarm), length (s_position s) <> length (s_pbest_cost s) -> compute_pbest s = Err ValueError.
Proof.
  intros s H. destruct (compute_pbest s) as [[pp pc]|x] eqn:E; [apply compute_pbest_lengths in E; destruct E as (_ & E & _); contradiction|].
  unfold compute_pbest in E. destruct (negb _); [congruence|]. destruct (negb _); congruence.
Qed.
Lemma as_is : forall (l l' : list f64) n, l = l' -> 2 <= length l' -> l' = match l with [] => [] | [x] => repeat x n | x :: y :: r => x :: y :: r end.
Proof. intros l l' n -> L. destruct l' as [|a [|b l']]; try reflexivity. cbn in L. lia. Qed.
Lemma given_each_process : forall c e f v iters o, 2 <= c_n c -> (forall i X, f i X = Ok (Array [v i X])) ->
  same_run (optimize_given c e f (Some (c_n c)) iters o) (optimize c (asking e (fun i X => Ok (map (fun r => v i [r]) X))) None iters o).
Proof.
  intros c e f v iters o N F. destruct (c_n c) as [|k] eqn:EN; [lia|]. rewrite <- EN in N. apply run_sc; [exact N|discriminate|]. intros i s L. unfold objective_given. rewrite (arrays (f i) (v i) _ (F i)). split; [discriminate|].
  intros r E. injection E as <-. eexists. split; [reflexivity|]. cbn [costs_of]. destruct (Nat.eq_dec (length (s_position s)) (S k)) as [LP|LP].
  - left. apply as_is; [|rewrite map_length; ftypes; lia]. exact (eq_trans (f_equal (map (v i)) (split_all _ _ k LP)) (map_map _ _ _)).
  - right. destruct (chunks _ (s_position s) k) as (_ & LC & _).
    assert (LM : length (map (v i) (array_split (s_position s) (S k))) = S k) by (rewrite map_length; exact LC).
    split; [ftypes; lia|]. split.
    + apply pbest_wrong_pos. cbn [s_position s_pbest_cost set_current_cost]. ftypes. lia.
    + apply pbest_wrong. rewrite map_length. ftypes. lia.
Qed.
Lemma first_raises : forall c e f pool iters o, pool <> Some 0 -> 1 <= iters ->
  objective_given pool (f 0) (s_position (o_swarm o)) = Err ValueError \/
  (exists l, objective_given pool (f 0) (s_position (o_swarm o)) = Ok (Array l) /\ length l <> 1 /\ length l <> c_n c /\ 2 <= c_n c) ->
  snd (optimize_given c e f pool iters o) = Err ValueError /\ untouched (fst (optimize_given c e f pool iters o)) o.
Proof.
  intros c e f pool iters o P I H. destruct iters as [|m]; [lia|].
  destruct (started_facts c o) as (S1 & S2 & S3 & S4 & S5 & S6 & S7 & _). unfold started in *.
  assert (G : exists cs, optimize_given c e f pool (S m) o = (with_swarm (start_pbest c (start_memory c o)) (set_current_cost (o_swarm (start_pbest c (start_memory c o))) cs), Err ValueError)).
  { assert (Q : exists cs, evaluate_given c e f pool 0 (start_pbest c (start_memory c o)) [] = Raise (with_swarm (start_pbest c (start_memory c o)) (set_current_cost (o_swarm (start_pbest c (start_memory c o))) cs)) ValueError).
    { unfold evaluate_given. cbv zeta. rewrite S7. change (s_position (set_pbest_cost (o_swarm o) (repeat finf (c_n c)))) with (s_position (o_swarm o)). destruct H as [H|(l & H & L1 & L2 & N)]; rewrite H.
      - exists (s_current_cost (o_swarm (start_pbest c (start_memory c o)))). f_equal. rewrite <- S7. apply sc_self.
      - exists l. unfold compute_pbest_given. cbn [costs_of].
        change (s_pbest_cost (set_current_cost (set_pbest_cost (o_swarm o) (repeat finf (c_n c))) l)) with (repeat finf (c_n c)). rewrite repeat_length.
        replace (Nat.eqb (c_n c) 1) with false by (symmetry; apply Nat.eqb_neq; lia). cbn [andb].
        change (s_current_cost (set_current_cost (set_pbest_cost (o_swarm o) (repeat finf (c_n c))) l)) with l.
        match goal with |- context [compute_pbest ?z] => assert (WZ : compute_pbest z = Err ValueError) end.
        { assert (W : length l <> length (s_pbest_cost (set_pbest_cost (o_swarm o) (repeat finf (c_n c))))) by (change (length l <> length (repeat finf (c_n c))); rewrite repeat_length; exact L2).
          clear - W L1. destruct l as [|a [|b l]]; [|cbn in L1; congruence|]; exact (pbest_wrong (set_current_cost (set_pbest_cost (o_swarm o) (repeat finf (c_n c))) []) _ W). }
        rewrite WZ. reflexivity. }
    destruct Q as (cs & Q). exists cs. unfold optimize_given. cbn [loop_given]. unfold iteration_given. rewrite Q. destruct pool as [[|k]|]; [congruence|reflexivity|reflexivity]. }
  destruct G as (cs & G). rewrite G. split; [reflexivity|]. cbn [fst]. unfold untouched. cbn [o_swarm with_swarm o_top o_cost_history o_mean_pbest_history o_mean_neighbor_history o_pos_history o_velocity_history].
  rewrite S7, S1, S2, S3, S4, S5, S6. repeat split.
Qed.
Lemma given_other_pool : forall c e f v k iters o, 2 <= c_n c -> k <> 0 -> k <> 1 -> k <> c_n c -> 1 <= iters -> (forall i X, f i X = Ok (Array [v i X])) ->
  snd (optimize_given c e f (Some k) iters o) = Err ValueError /\ untouched (fst (optimize_given c e f (Some k) iters o)) o.
Proof.
  intros c e f v k iters o N K0 K1 KN I F. apply first_raises; [congruence|exact I|]. right. exists (map (v 0) (array_split (s_position (o_swarm o)) k)). split; [exact (arrays (f 0) (v 0) _ (F 0))|].
  destruct k as [|k]; [congruence|]. destruct (chunks _ (s_position (o_swarm o)) k) as (_ & LC & _). rewrite map_length. ftypes. rewrite LC. auto.
Qed.
Lemma given_number_pool : forall c e f k iters o, k <> 0 -> 1 <= iters -> (forall i X, exists x, f i X = Ok (Single x)) ->
  snd (optimize_given c e f (Some k) iters o) = Err ValueError /\ untouched (fst (optimize_given c e f (Some k) iters o)) o.
Proof.
  intros c e f k iters o K I F. apply first_raises; [congruence|exact I|]. left. unfold objective_given. destruct k as [|k]; [congruence|]. destruct (chunks _ (s_position (o_swarm o)) k) as (_ & LC & _).
  destruct (array_split (s_position (o_swarm o)) (S k)) as [|b bs]; [discriminate|]. clear LC.
  assert (A : exists x rs, mapM (f 0) (b :: bs) = Ok (Single x :: rs)).
  { cbn [mapM]. destruct (F 0 b) as (x & ->). cbn [bind]. assert (B : exists rs, mapM (f 0) bs = Ok rs). { induction bs as [|b' bs IH]; [exists []; reflexivity|]. cbn [mapM]. destruct (F 0 b') as (y & ->). cbn [bind]. destruct IH as (rs & ->). eexists. reflexivity. }
    destruct B as (rs & ->). exists x, rs. reflexivity. }
  destruct A as (x & rs & ->). reflexivity.
Qed.
Lemma map3_all : forall A (b : bool) n (l m : list A), length l = n -> length m = n -> map3 (fun (k : bool) x y => if negb k then x else y) (repeat b n) l m = if negb b then l else m.
Proof.
  intros A b. induction n as [|n IH]; intros l m L M.
  - destruct l; [|discriminate]. destruct m; [|discriminate]. destruct b; reflexivity.
  - destruct l as [|x l]; [discriminate|]. destruct m as [|y m]; [discriminate|]. cbn [repeat map3]. rewrite IH by (cbn in L, M; lia). destruct b; reflexivity.
Qed.
Lemma map2_all : forall (g : f64 -> f64 -> bool) a b n, map2 g (repeat a n) (repeat b n) = repeat (g a b) n.
Proof. intros g a b. induction n; [reflexivity|]. cbn [repeat map2]. f_equal. exact IHn. Qed.
Lemma pbest_all : forall (s : fswarm) n a x pp pc, s_current_cost s = repeat a n -> s_pbest_cost s = repeat x n -> compute_pbest s = Ok (pp, pc) ->
  (pp = s_pbest_pos s /\ pc = repeat x n) \/ (pp = s_position s /\ pc = repeat a n).
Proof.
  intros s n a x pp pc A X E. destruct (compute_pbest_lengths s pp pc E) as (_ & L2 & SS & _). apply same_shape_length in SS. unfold compute_pbest in E. cbv zeta in E. ftypes. rewrite A, X in E. rewrite X, repeat_length in L2.
  destruct (negb _); [discriminate|]. destruct (negb _); [discriminate|]. injection E as <- <-. change (@nlt F64num) with flt. rewrite map2_all.
  assert (L3 : length (s_pbest_pos s) = n) by (ftypes; congruence).
  pose proof (map3_all _ (flt a x) n (s_pbest_pos s) (s_position s) L3 L2) as M1. pose proof (map3_all _ (flt a x) n (repeat x n) (repeat a n) (repeat_length _ _) (repeat_length _ _)) as M2.
  destruct (flt a x); [right|left]; (split; [exact M1|exact M2]).
Qed.
Lemma argmin_all : forall (x : f64) n i, argmin_from (N := F64num) x 0 i (repeat x n) = 0.
Proof.
  intros x. induction n as [|n IH]; intros i; cbn [repeat argmin_from]; change (@nisnan F64num x) with (fisnan x); destruct (fisnan x) eqn:NX; try reflexivity.
  change (@nle F64num x x) with (fle x x). assert (R : fle x x = true) by (clear - NX; forder). rewrite R. apply IH.
Qed.
Definition uniform (n : nat) (o : ostate) : Prop := exists x, s_pbest_cost (o_swarm o) = repeat x n /\ (x = finf \/ In (s_pbest_pos (o_swarm o)) (o_pos_history o)).
Lemma uniform_run : forall c e iters o o' cost pos, (forall i X, exists x, e_obj e i X = Ok (repeat x (c_n c))) -> optimize c e None iters o = (o', Ok (cost, pos)) ->
  1 <= c_n c -> uniform (c_n c) o' /\ nth_error (s_pbest_pos (o_swarm o')) 0 = Some pos.
Proof.
  intros c e iters o o' cost pos F E N.
  destruct (optimize_rule c e None iters o (fun _ o1 _ => uniform (c_n c) o1) (fun _ o1 _ => uniform (c_n c) o1) (uniform (c_n c)) (fun _ _ => True)) with (o' := o') (r := Ok (cost, pos)) as [(_ & _ & Z)|[(_ & U & Z)|(_ & x & _ & Z)]]; try discriminate; auto.
  - destruct (started_facts c o) as (_ & _ & _ & _ & _ & _ & E7 & _). exists finf. rewrite E7. split; [reflexivity|left; reflexivity].
  - intros i o1 q _ (x & X1 & X2). pose proof (evaluate_cases c e None i o1 q) as EC.
    assert (G : forall o3 cost pp pc t bp bc np, Evald c e None i o1 o3 cost pp pc t bp bc np -> uniform (c_n c) o3).
    { intros o3 cost1 pp pc t bp bc np (E1 & E2 & _ & E4). destruct (F i (s_position (o_swarm o1))) as (a & A). cbn [compute_objective_function] in E1. assert (CO : cost1 = repeat a (c_n c)) by (pose proof (eq_trans (eq_sym E1) A) as Q; injection Q as Q; exact Q).
      destruct (pbest_all (set_current_cost (o_swarm o1) cost1) (c_n c) a x pp pc CO X1 E2) as [[-> ->]|[-> ->]]; subst o3.
      - exists x. split; [reflexivity|]. destruct X2 as [->|X2]; [left; reflexivity|right]. apply in_or_app. left. exact X2.
      - exists a. split; [reflexivity|]. right. apply in_or_app. right. left. reflexivity. }
    destruct (evaluate_swarm c e None i o1 q) as [o3 q3|o3|o3 x3]; [|  |exact Logic.I]; destruct EC as (cost1 & pp & pc & t & bp & bc & np & EV & _); exact (G _ _ _ _ _ _ _ _ EV).
  - intros i o1 q _ (x & X1 & X2). pose proof (update_cases c e iters i o1 q) as UC. destruct (update_swarm c e iters i o1 q) as [o3 q3|o3|o3 x3]; [|contradiction|exact Logic.I].
    destruct UC as (_ & CE & _). exists x. rewrite (ce_pc _ _ CE), (ce_pp _ _ CE), (ce_ph _ _ CE). auto.
  - split; [exact U|]. destruct U as (x & X1 & _). unfold final_result in Z. destruct (negb _); [discriminate|]. destruct (c_n c) as [|n]; [lia|].
    assert (AM : np_argmin (N := F64num) (s_pbest_cost (o_swarm o')) = Ok 0). { ftypes. rewrite X1. cbn [repeat np_argmin]. f_equal. apply argmin_all. }
    rewrite AM in Z. cbn [bind] in Z. match type of Z with _ = bind (of_option _ ?a) _ => change (a = Some pos); destruct a as [p|]; [|discriminate] end. cbn [of_option bind] in Z. injection Z as _ ->. reflexivity.
Qed.
Definition spread (n : nat) (f : nat -> fmatrix -> res given) : nat -> fmatrix -> res (list f64) := fun i X =>
  match f i X with Ok (Single x) => Ok (repeat x n) | Ok (Array [x]) => Ok (repeat x n) | Ok (Array l) => Ok l | Err x => Err x end.
Lemma spread_repeats : forall n f, repeats n f (spread n f).
Proof.
  intros n f i X. unfold spread. split; [intros x [E|E]; rewrite E; reflexivity|]. split; [|intros x E; rewrite E; reflexivity]. intros l L E. rewrite E. destruct l as [|a [|b l]]; try reflexivity. cbn in L. congruence.
Qed.
Lemma given_first : forall c e f iters o o' cost pos, 2 <= c_n c -> (forall i X, exists x, f i X = Ok (Single x) \/ f i X = Ok (Array [x])) ->
  optimize_given c e f None iters o = (o', Ok (cost, pos)) ->
  nth_error (s_pbest_pos (o_swarm o')) 0 = Some pos /\
  exists x, s_pbest_cost (o_swarm o') = repeat x (c_n c) /\ (x = finf \/ In (s_pbest_pos (o_swarm o')) (o_pos_history o')).
Proof.
  intros c e f iters o o' cost pos N F E. destruct (given_once c e f (spread (c_n c) f) iters o N (spread_repeats _ _)) as [S B]. rewrite E in S, B. cbn [fst snd] in S, B.
  destruct (optimize c (asking e (spread (c_n c) f)) None iters o) as [o2 r] eqn:E2. cbn [fst snd] in S, B. subst r.
  destruct (uniform_run c (asking e (spread (c_n c) f)) iters o o2 cost pos) as [U P]; [|exact E2|lia|].
  - intros i X. destruct (F i X) as (x & H). exists x. exact (proj1 (spread_repeats (c_n c) f i X) x H).
  - destruct (but_sc _ _ B) as (cs & ->). split; [exact P|exact U].
Qed.
