(** Concrete optimizers and runs, used by the examples beside the theorems and by the
    counterexamples.  Everything is computed at binary64. *)
From Coq Require Import String ZArith List Arith Bool.
From Verif Require Import Prelude F64 Num Np Handlers Swarms Operators Generators Topology Optimizers Spec.
Import ListNotations.
Local Open Scope string_scope.
Local Open Scope list_scope.

Definition is_ok {A} (r : res A) : bool := match r with Ok _ => true | Err _ => false end.
Lemma is_ok_ex : forall A (r : res A), is_ok r = true -> exists a, r = Ok a.
Proof. intros A [a|x] H; [eauto|discriminate]. Qed.

Definition F (z : Z) : f64 := fofZ z.
Definition dec (a b : Z) : pyval F64num := PFloat (fdec a b : F64num).

Definition d_options : options F64num :=
  [("c1", dec 5 10); ("c2", dec 3 10); ("w", dec 9 10); ("k", PInt 2); ("p", PInt 2); ("r", PInt 1)].
Definition d_bounds : bounds F64num := mkBounds (N := F64num) [F (-5); F (-5)] [F 5; F 5] true.

(** Sum of squares of a row, and the row-wise objective made of it. *)
Definition sq (r : frow) : f64 := fold_left (fun a x => fadd a (fmul x x)) r fzero.
Definition d_obj (_ : nat) (X : fmatrix) : res (list f64) := mapM (fun r => Ok (sq r)) X.
(** First coordinate. *)
Definition d_first (_ : nat) (X : fmatrix) : res (list f64) := Ok (map (fun r => nth 0 r fzero) X).

Definition d_config (k : opt_kind) (n d : nat) (b : option (bounds F64num)) (cl : option (clamp_t F64num))
    (bh vh : string) : config :=
  {| c_kind := k; c_n := n; c_d := d; c_options := d_options; c_bounds := b; c_clamp := cl;
     c_center := repeat fone d; c_ftol := fninf; c_ftol_iter := 1; c_init := None;
     c_bh := bh; c_vh := vh; c_oh := [] |}.

(** Distinct draws in [0,1): (i*7+j*3+s) mod 16 / 16. *)
Definition d_draw (s i j : nat) : f64 := fofZe (Z.of_nat ((i * 7 + j * 3 + s) mod 16)) (-4).
Definition d_mat (s n d : nat) : fmatrix := map (fun i => map (fun j => d_draw s i j) (seq 0 d)) (seq 0 n).
Definition d_cd (s n d : nat) : create_draws :=
  mkCd (d_mat s n d) (map (fun i => map (fun j => Nat.odd (i + j + s)) (seq 0 d)) (seq 0 n)) (d_mat (s + 5) n d).

(** Every particle's neighbours: itself and the next one. *)
Definition d_rows (n : nat) : list (list nat) := map (fun i => [i; (i + 1) mod n]) (seq 0 n).
Definition d_te (n : nat) : topo_env :=
  mkTe (fun _ _ _ => Ok (d_rows n)) (fun _ => Ok (d_rows n)) (map (fun i => [(i + 1) mod n]) (seq 0 n)).
Fixpoint left_tree (n : nat) : sumtree := match n with O => Leaf 0 | S m => Node (left_tree m) (Leaf n) end.
Definition d_env (n d : nat) (obj : nat -> fmatrix -> res (list f64)) : env :=
  {| e_obj := obj;
     e_vel := fun t => mkVd (N := F64num) (d_mat (t + 1) n d) (d_mat (t + 4) n d);
     e_bh := fun t => mkBhDraws (N := F64num) (repeat (d_draw t 1 1) d) (repeat (d_draw t 2 1) d) 8;
     e_oh := fun t => mkOhLib (N := F64num) (fun x => x) (fun x _ => x) (fun _ => d_draw t 0 0);
     e_top := fun t => d_te n;
     e_bits := fun t => map (fun j => d_draw t 3 j) (seq 0 d);
     e_exp := fun _ => fone;
     e_tree := fun m => left_tree (m - 1) |}.

Definition star : topology := mkTopo Star false None.
Definition topo (k : topo_kind) (st : bool) : topology := mkTopo k st None.

(** Construct and run. *)
Definition d_run (c : config) (top : topology) (dr : create_draws) (e : env) (pool : option nat) (iters : nat)
  : res (ostate * (f64 * frow)) :=
  do o <- construct c top dr;
  match optimize c e pool iters o with (o', Ok v) => Ok (o', v) | (_, Err x) => Err x end.
Lemma d_run_ok : forall c top dr e pool iters, is_ok (d_run c top dr e pool iters) = true ->
  exists o o' v, construct c top dr = Ok o /\ optimize c e pool iters o = (o', Ok v).
Proof.
  unfold d_run. intros c top dr e pool iters H. destruct (construct c top dr) as [o|x]; [|discriminate].
  cbn in H. destruct (optimize c e pool iters o) as [o' [v|x]] eqn:E; [|discriminate]. exists o, o', v. auto.
Qed.
Lemma construct_top : forall c top dr o, construct c top dr = Ok o -> Fresh c o /\ o_top o = top.
Proof.
  intros c top dr o H. split. eapply Fresh_construct; eauto. unfold construct in H.
  destruct (match c_kind c with LocalBest | Binary => _ | _ => _ end); [|discriminate]. cbn [bind] in H.
  destruct (Nat.eqb (c_ftol_iter c) 0); [discriminate|]. destruct (make_swarm c dr); [|discriminate].
  cbn [bind] in H. injection H as <-. reflexivity.
Qed.
(** A run, read off with a test of its outcome. *)
Definition d_test {A} (dflt : A) (r : res (ostate * (f64 * frow))) (P : ostate -> f64 -> frow -> A) : A :=
  match r with Ok (o', (cost, pos)) => P o' cost pos | Err _ => dflt end.
Lemma d_run_test : forall A (dflt : A) c top dr e pool iters (P : ostate -> f64 -> frow -> A) v,
  is_ok (d_run c top dr e pool iters) = true ->
  d_test dflt (d_run c top dr e pool iters) P = v ->
  exists o o' cost pos, construct c top dr = Ok o /\ Fresh c o /\ o_top o = top /\
    optimize c e pool iters o = (o', Ok (cost, pos)) /\ P o' cost pos = v.
Proof.
  intros A dflt c top dr e pool iters P v H1 H2. destruct (d_run_ok _ _ _ _ _ _ H1) as (o & o' & [cost pos] & E1 & E2).
  unfold d_run in H2. rewrite E1 in H2. cbn [bind] in H2. rewrite E2 in H2.
  destruct (construct_top _ _ _ _ E1). exists o, o', cost, pos. auto.
Qed.
(** Two calls in a row. *)
Definition d_run2 (c : config) (top : topology) (dr : create_draws) (e1 e2 : env) (pool : option nat) (i1 i2 : nat)
  : res (ostate * (f64 * frow)) :=
  do o <- construct c top dr;
  match optimize c e1 pool i1 o with
  | (o1, Ok _) => match optimize c e2 pool i2 o1 with (o2, Ok v) => Ok (o2, v) | (_, Err x) => Err x end
  | (_, Err x) => Err x
  end.
Lemma d_run2_test : forall c top dr e1 e2 pool i1 i2 (P : ostate -> f64 -> frow -> bool),
  d_test false (d_run2 c top dr e1 e2 pool i1 i2) P = true ->
  exists o o1 v1 o2 cost pos, construct c top dr = Ok o /\ Fresh c o /\ o_top o = top /\
    optimize c e1 pool i1 o = (o1, Ok v1) /\ optimize c e2 pool i2 o1 = (o2, Ok (cost, pos)) /\ P o2 cost pos = true.
Proof.
  intros c top dr e1 e2 pool i1 i2 P H. unfold d_run2 in H.
  destruct (construct c top dr) as [o|] eqn:E; [|discriminate]. cbn [bind] in H.
  destruct (optimize c e1 pool i1 o) as [o1 [v1|]] eqn:E1; [|discriminate].
  destruct (optimize c e2 pool i2 o1) as [o2 [[cost pos]|]] eqn:E2; [|discriminate]. cbn in H.
  destruct (construct_top _ _ _ _ E). exists o, o1, v1, o2, cost, pos. repeat split; auto.
Qed.

(** *** Runs used by the examples *)
Definition run_c (k : opt_kind) : config := d_config k 3 2 (Some d_bounds) None "nearest" "unmodified".
Definition run_e : env := d_env 3 2 d_obj.
Lemma star_run_ok : is_ok (d_run (run_c GlobalBest) star (d_cd 0 3 2) run_e None 4) = true.
Proof. vm_compute. reflexivity. Qed.
Lemma pool_run_ok : is_ok (d_run (run_c GlobalBest) star (d_cd 0 3 2) run_e (Some 2) 4) = true.
Proof. vm_compute. reflexivity. Qed.
Lemma ring_run_ok : is_ok (d_run (run_c LocalBest) (topo Ring false) (d_cd 0 3 2) run_e None 4) = true.
Proof. vm_compute. reflexivity. Qed.
(** A star run and its outcome. *)
Lemma star_demo : exists c o e o' cost pos, Fresh c o /\ Reachable c o /\ o_top o = star /\ c_ftol c = fninf /\
  optimize c e None 4 o = (o', Ok (cost, pos)).
Proof.
  destruct (d_run_test unit tt _ _ _ _ _ _ (fun _ _ _ => tt) tt star_run_ok) as (o & o' & cost & pos & C & F & T & E & _).
  - destruct (d_run _ _ _ _ _ _) as [[? [? ?]]|]; reflexivity.
  - exists (run_c GlobalBest), o, run_e, o', cost, pos. split; [exact F|]. split; [eapply Reach_construct; eauto|].
    split; [exact T|]. split; [reflexivity|exact E].
Qed.
Definition covers_b (n : nat) (t : topology) : bool :=
  match t_nb t with
  | Some nb => forallb (fun a => existsb (fun r => existsb (Nat.eqb a) r) (nb_rows nb)) (seq 0 n)
  | None => false
  end.
Lemma covers_b_ok : forall n t, covers_b n t = true -> exists nb, t_nb t = Some nb /\ covers n (nb_rows nb).
Proof.
  unfold covers_b. intros n t H. destruct (t_nb t) as [nb|]; [|discriminate]. exists nb. split; auto.
  intros a Ha. rewrite forallb_forall in H. specialize (H a (proj2 (in_seq n 0 a) (conj (Nat.le_0_l a) Ha))).
  apply existsb_exists in H. destruct H as (r & Ir & H). exists r. split; auto.
  apply existsb_exists in H. destruct H as (b & Ib & H). apply Nat.eqb_eq in H. subst. auto.
Qed.
Lemma ring_covers_ok : d_test false (d_run (run_c LocalBest) (topo Ring false) (d_cd 0 3 2) run_e None 4)
  (fun o' _ _ => covers_b 3 (o_top o')) = true.
Proof. vm_compute. reflexivity. Qed.
Lemma ring_demo : exists o o' cost pos nb, construct (run_c LocalBest) (topo Ring false) (d_cd 0 3 2) = Ok o /\
  Fresh (run_c LocalBest) o /\ o_top o = topo Ring false /\
  optimize (run_c LocalBest) run_e None 4 o = (o', Ok (cost, pos)) /\ t_nb (o_top o') = Some nb /\ covers 3 (nb_rows nb).
Proof.
  destruct (d_run_test _ _ _ _ _ _ _ _ _ _ ring_run_ok ring_covers_ok) as (o & o' & cost & pos & C & F & T & E & H).
  apply covers_b_ok in H. destruct H as (nb & H1 & H2). exists o, o', cost, pos, nb. auto 10.
Qed.
