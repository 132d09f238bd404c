(** Concrete boxes, positions and velocities for the examples of PropertiesHandlers.v. *)
From Coq Require Import String ZArith List Arith Bool Reals Lra.
From Verif Require Import Prelude F64 F64Facts Num Np Handlers Swarms Operators SpecHandlers ListFacts HandlerFacts BhClaims Demo.
From Flocq Require Import Core IEEE754.BinarySingleNaN.
Import ListNotations.
Local Open Scope string_scope.
Local Open Scope list_scope.

(** Equality of matrices up to the sign of zeros. *)
Fixpoint feql (a b : list f64) : bool :=
  match a, b with [], [] => true | x :: a, y :: b => feq x y && feql a b | _, _ => false end.
Fixpoint feqm (a b : list (list f64)) : bool :=
  match a, b with [], [] => true | x :: a, y :: b => feql x y && feqm a b | _, _ => false end.
Definition gives (r : res (matrix F64num * option (matrix F64num))) (m : list (list f64)) : bool :=
  match r with Ok (p, _) => feqm p m | Err _ => false end.

(** Three particles against the box [-5,5] x [-5,5]: one above in the first dimension, one
    below in the second, one inside. *)
Definition h_pos : matrix F64num := [[F 7; F 1]; [F 2; F (-6)]; [F 3; F 4]].
Definition h_mem : matrix F64num := [[F 1; F 1]; [F 2; F (-2)]; [F 0; F 0]].
Definition h_draws : bh_draws F64num := mkBhDraws (N := F64num) [fhalf; fhalf] [fofZe 1 (-2); fhalf] 4.
Lemma h_pos_matrix : is_matrix 3 2 h_pos.
Proof. split; [reflexivity|repeat constructor]. Qed.
Lemma h_mem_matrix : is_matrix 3 2 h_mem.
Proof. split; [reflexivity|repeat constructor]. Qed.
Lemma h_box_dim : box_dim 2 d_bounds.
Proof. split; reflexivity. Qed.
(** A property of all columns of [d_bounds] from boolean tests on one. *)
Lemma h_columns : forall P : f64 -> f64 -> Prop, P (F (-5)) (F 5) -> forall j l u, column d_bounds j l u -> P l u.
Proof.
  intros P H j l u [A B]. destruct j as [|[|[|j]]]; cbn [nth_error b_lb b_ub d_bounds] in A, B; try discriminate;
    injection A as <-; injection B as <-; exact H.
Qed.
Lemma h_finite_box : finite_box d_bounds.
Proof.
  intros j l u C. revert j l u C. apply (h_columns (fun l u => ffinite l = true /\ ffinite u = true /\ fle l u = true)).
  vm_compute. auto.
Qed.
Lemma h_width : forall j l u, column d_bounds j l u -> ffinite (fsub u l) = true.
Proof. apply (h_columns (fun l u => ffinite (fsub u l) = true)). vm_compute. reflexivity. Qed.
Lemma h_unit : unit_draws 2 (bd_greater h_draws) /\ unit_draws 2 (bd_lower h_draws).
Proof.
  split; (split; [reflexivity|]); intros [|[|[|j]]] x H; cbn [nth_error bd_greater bd_lower h_draws] in H;
    try discriminate; injection H as <-; vm_compute; auto.
Qed.
(** The same box over the reals. *)
Definition r_bounds : bounds Rnum := mkBounds (N := Rnum) [(-5)%R; (-5)%R] [5%R; 5%R] true.
Definition r_pos : matrix Rnum := [[7%R; 1%R]; [2%R; (-6)%R]; [3%R; 4%R]].
Definition r_mem : matrix Rnum := [[1%R; 1%R]; [2%R; (-2)%R]; [0%R; 0%R]].
Lemma r_columns : forall P : R -> R -> Prop, P (-5)%R 5%R -> forall j l u, column r_bounds j l u -> P l u.
Proof.
  intros P H j l u [A B]. destruct j as [|[|[|j]]]; cbn [nth_error b_lb b_ub r_bounds] in A, B; try discriminate;
    injection A as <-; injection B as <-; exact H.
Qed.
Lemma r_facts : is_matrix 3 2 r_pos /\ is_matrix 3 2 r_mem /\ box_dim 2 r_bounds /\ b_arr r_bounds = true /\
  (forall j l u, column r_bounds j l u -> (l < u)%R) /\
  (forall i j m l u, entry r_mem i j = Some m -> column r_bounds j l u -> (l <= m <= u)%R).
Proof.
  split; [split; [reflexivity|repeat constructor]|]. split; [split; [reflexivity|repeat constructor]|].
  split; [split; reflexivity|]. split; [reflexivity|]. split.
  - apply (r_columns (fun l u => (l < u)%R)). lra.
  - intros i j m l u E C. revert E. revert j l u C.
    cut (forall j l u, column r_bounds j l u -> entry r_mem i j = Some m -> (l <= m <= u)%R); [auto|].
    intros j l u C E. revert C. cut ((-5 <= m <= 5)%R); [|clear l u].
    + intros K C. revert j l u C E. intros j l u C _. revert j l u C. apply (r_columns (fun l u => (l <= m <= u)%R)). exact K.
    + unfold entry in E. destruct i as [|[|[|[|i]]]]; cbn [nth_error r_mem] in E; try discriminate;
        destruct j as [|[|[|j]]]; cbn [nth_error] in E; try discriminate; injection E as <-; lra.
Qed.
Lemma r_below_above : above r_bounds [7%R; 1%R] /\ below r_bounds [2%R; (-6)%R] /\
  ~ below r_bounds [3%R; 4%R] /\ ~ above r_bounds [3%R; 4%R].
Proof.
  split; [|split; [|split]].
  - exists 0, 7%R, (-5)%R, 5%R. repeat split. cbn. apply Rlt_bool_true. lra.
  - exists 1, (-6)%R, (-5)%R, 5%R. repeat split. cbn. apply Rlt_bool_true. lra.
  - intros (j & x & l & u & X & C & E). revert j l u C X E.
    cut (forall j l u, column r_bounds j l u -> forall x, nth_error [3%R; 4%R] j = Some x -> @nlt Rnum x l = true -> False); [eauto|].
    intros j l u [A B] y X E. destruct j as [|[|[|j]]]; cbn [nth_error b_lb b_ub r_bounds] in A, B, X; try discriminate;
    injection A as <-; injection X as <-; cbn in E; rewrite Rlt_bool_false in E by lra; discriminate.
  - intros (j & x & l & u & X & C & E). revert j l u C X E.
    cut (forall j l u, column r_bounds j l u -> forall x, nth_error [3%R; 4%R] j = Some x -> @nlt Rnum u x = true -> False); [eauto|].
    intros j l u [A B] y X E. destruct j as [|[|[|j]]]; cbn [nth_error b_lb b_ub r_bounds] in A, B, X; try discriminate;
    injection B as <-; injection X as <-; cbn in E; rewrite Rlt_bool_false in E by lra; discriminate.
Qed.

(** Shrink at binary64: from 0 towards 9.9 in [-5,5] it ends above 5. *)
Definition shrink_box : bounds F64num := mkBounds (N := F64num) [F (-5)] [F 5] true.
Definition only_above (u : f64) (r : res (matrix F64num * option (matrix F64num))) : bool :=
  match r with Ok ([[x]], Some [[y]]) => flt u x && (Bool.eqb (feq x y) true) | _ => false end.
Lemma shrink_outside : only_above (F 5) (bh_call "shrink" h_draws (Some [[F 0]]) shrink_box [[fdec 99 10]]) = true.
Proof. vm_compute. reflexivity. Qed.
Lemma only_above_ok : forall u r, only_above u r = true -> exists x m, r = Ok ([[x]], m) /\ flt u x = true.
Proof.
  intros u [[[|[|x []] []] [[|[|y []] []]|]]|e] H; try discriminate. apply andb_prop in H. destruct H.
  exists x, (Some [[y]]). auto.
Qed.
Lemma one_column : forall (N : Num) (l0 u0 : N) j l u, column (mkBounds (N := N) [l0] [u0] true) j l u -> j = 0 /\ l = l0 /\ u = u0.
Proof.
  intros N l0 u0 j l u [A C]. destruct j as [|j]; cbn [nth_error b_lb b_ub] in A, C.
  - injection A as <-. injection C as <-. auto.
  - destruct j; discriminate.
Qed.
Lemma one_entry : forall (A : Type) (a : A) i y, entry [[a]] i 0 = Some y -> y = a.
Proof. intros A a [|[|i]] y H; try discriminate. injection H. auto. Qed.
Lemma shrink_refuted : exists (b : bounds F64num) (mem pos pos' : matrix F64num) mem' dr x,
  finite_box b /\ none_outside b mem /\
  bh_call "shrink" dr (Some mem) b pos = Ok (pos', mem') /\ entry pos' 0 0 = Some x /\ column b 0 (F (-5)) (F 5) /\ flt (F 5) x = true.
Proof.
  destruct (only_above_ok _ _ shrink_outside) as (x & m & E & K).
  exists shrink_box, [[F 0]], [[fdec 99 10]], [[x]], m, h_draws, x.
  split. { intros j l u C. destruct (one_column _ _ _ _ _ _ C) as (-> & -> & ->). vm_compute. auto. }
  split. { intros i j y l u Y C. destruct (one_column _ _ _ _ _ _ C) as (-> & -> & ->).
    rewrite (one_entry _ _ _ _ Y). vm_compute. auto. }
  split; [exact E|]. split; [reflexivity|]. split; [split; reflexivity|exact K].
Qed.
(** Endless reflections. *)
Lemma one_box_dim : forall N : Num, forall l u : N, box_dim 1 (mkBounds (N := N) [l] [u] true).
Proof. split; reflexivity. Qed.
Definition f1e30 : f64 := F 1000000000000000000000000000000.
Lemma f1e30_R : (2 ^ 56 * 1 < FR f1e30)%R.
Proof. erewrite FR_SF by (vm_compute; reflexivity). cbn [SF2R]. unfold F2R, bpow, SpecFloat.cond_Zopp. simpl. lra. Qed.
Lemma f1e30_fin : ffinite f1e30 = true.
Proof. vm_compute. reflexivity. Qed.
Lemma F0_R : FR (F 0) = 0%R.
Proof. fconst. Qed.
Lemma F1_R : FR (F 1) = 1%R.
Proof. fconst. Qed.
Lemma hang_1e30 : forall mem, hangs mem (mkBounds (N := F64num) [F 0] [F 1] true) [[f1e30]].
Proof.
  intros mem. pose proof f1e30_R as K.
  refine (reflective_hangs_far 1 1 mem _ _ 0 0 f1e30 (F 0) (F 1) _ _ _ _ _ f1e30_fin _ _ _ _); try reflexivity.
  - split; [reflexivity|repeat constructor].
  - split; reflexivity.
  - split; reflexivity.
  - rewrite F0_R, Rabs_R0, (Rabs_pos_eq (FR f1e30)); lra.
  - rewrite F1_R, Rabs_R1, (Rabs_pos_eq (FR f1e30)); lra.
Qed.
Lemma hang_inf : forall mem, hangs mem (mkBounds (N := F64num) [F 0] [F 1] true) [[finf]].
Proof.
  intros mem. refine (reflective_hangs_inf 1 1 mem _ _ 0 0 finf (F 0) (F 1) _ _ _ _ _ _ _ _ _ _); try reflexivity.
  - split; [reflexivity|repeat constructor].
  - split; reflexivity.
  - split; reflexivity.
  - left. reflexivity.
Qed.
Lemma hang_flat : forall mem, hangs mem (mkBounds (N := Rnum) [1%R] [1%R] true) [[2%R]].
Proof.
  intros mem. refine (reflective_hangs_flat 1 1 mem _ _ 0 0 2%R 1%R _ _ _ _ _ _); try reflexivity.
  - split; [reflexivity|repeat constructor].
  - split; reflexivity.
  - split; reflexivity.
  - lra.
Qed.
Lemma inside_example : length [F 3; F 4] = 2 /\ box_dim 2 d_bounds /\ good d_bounds [F 3; F 4] /\ nth_error h_pos 2 = Some [F 3; F 4] /\
  gives (bh_call "shrink" h_draws (Some h_mem) d_bounds h_pos) [[F 5; F 1]; [F 2; F (-5)]; [F 3; F 4]] = true.
Proof.
  split; [reflexivity|]. split; [exact h_box_dim|]. split; [|split; [reflexivity|vm_compute; reflexivity]].
  assert (R : row_lower (N := F64num) [F 3; F 4] d_bounds = false /\ row_greater (N := F64num) [F 3; F 4] d_bounds = false) by (vm_compute; auto).
  split; [apply (row_lower_false 2) | apply (row_greater_false 2)]; try exact h_box_dim; apply R.
Qed.
(** A swarm with a common best position. *)
Definition h_swarm : swarm F64num :=
  {| s_position := h_mem; s_velocity := h_pos; s_n := 3; s_d := 2; s_options := [("c1", PInt 1); ("c2", PInt 2); ("w", dec 1 2)];
     s_pbest_pos := h_pos; s_best_pos := BPVec (N := F64num) [F 3; F 4]; s_pbest_cost := []; s_best_cost := fone;
     s_best_np := true; s_current_cost := [] |}.
Definition h_vdraws : vel_draws F64num := mkVd (N := F64num) (repeat [fhalf; fhalf] 3) (repeat [fhalf; fhalf] 3).
