(** Cases that meet the hypotheses of C77, and ties, for which the claim fails. *)
From Coq Require Import String ZArith List Arith Bool Lia Reals.
From Verif Require Import Prelude F64 F64Facts Num Np ListFacts Handlers Swarms Operators Generators Topology Optimizers Spec SpecLike SpecMirror SpecShuffle SpecEverybody TopoGraphs EverybodyTopo Everybody Demo ExamplesShuffle.
Import ListNotations.
Local Open Scope string_scope.
Local Open Scope list_scope.
Local Open Scope nat_scope.

(** Everybody is asked about. *)
Definition all_te (n : nat) : topo_env :=
  mkTe (fun _ _ _ => Ok (repeat (seq 0 n) n)) (fun _ => Ok (repeat (seq 0 n) n)) (map (fun i => filter (fun j => negb (Nat.eqb j i)) (seq 0 n)) (seq 0 n)).
Definition all_e (n d : nat) (obj : nat -> fmatrix -> res (list f64)) : env :=
  let e := d_env n d obj in mkEnv (e_obj e) (e_vel e) (e_bh e) (e_oh e) (fun _ => all_te n) (e_bits e) (e_exp e) (e_tree e).
Definition all_c (kd : opt_kind) (n d : nat) (k : Z) : config :=
  {| c_kind := kd; c_n := n; c_d := d; c_options := [("c1", dec 5 10); ("c2", dec 3 10); ("w", dec 9 10); ("k", PInt k); ("p", PInt 2); ("r", PInt 1)]; c_bounds := None; c_clamp := None;
     c_center := repeat fone d; c_ftol := fninf; c_ftol_iter := 1; c_init := None; c_bh := "nearest"; c_vh := "unmodified"; c_oh := [] |}.
(** Squared distance from (3, ..., 3). *)
Definition far (r : frow) : f64 := sq (map (fun x => fsub x (F 3)) r).
Lemma all_queries : forall n d obj p, queries_all (all_e n d obj) p n.
Proof.
  intros n d obj p t X L. exists (repeat (seq 0 n) n), (fun _ _ => 0%R). split; [reflexivity|]. split; [rewrite repeat_length; symmetry; exact L|].
  intros i row xi R _. apply nth_error_In, repeat_spec in R. subst row. split; [apply seq_NoDup|]. split; [apply seq_length|]. split; [intros j J; apply in_seq in J; lia|]. intros; apply Rle_refl.
Qed.
Lemma ball3 : counts_ball 1 1 3.
Proof. exact (delannoy_counts 1 1). Qed.
Lemma choice3 : Spec.choice_ok 3 2 (te_choice (all_te 3)).
Proof.
  split; [reflexivity|]. intros [|[|[|[|i]]]] row R; cbn in R; try discriminate; injection R as <-; (split; [repeat constructor; cbn; lia|]); (split; [reflexivity|]); intros j J; cbn in J; lia.
Qed.
Lemma sees_ring : sees_everybody (all_c LocalBest 3 2 3) (all_e 3 2 (fun _ X => Ok (map far X))) 3 2 Ring.
Proof. cbn [sees_everybody]. split; [lia|]. split; [left; reflexivity|]. exists 2%Z. split; [reflexivity|]. split; [reflexivity|]. apply all_queries. Qed.
Lemma sees_lattice : sees_everybody (all_c General 3 1 2) (all_e 3 1 (fun _ X => Ok (map far X))) 3 1 VonNeumann.
Proof. cbn [sees_everybody]. split; [lia|]. split; [reflexivity|]. exists 2%Z, 1. split; [reflexivity|]. split; [reflexivity|]. split; [exact ball3|]. apply all_queries. Qed.
Lemma sees_few : sees_everybody (all_c General 3 3 2) (all_e 3 3 (fun _ X => Ok (map far X))) 3 3 Pyramid.
Proof. cbn [sees_everybody]. lia. Qed.
Lemma sees_random : sees_everybody (all_c General 3 2 2) (all_e 3 2 (fun _ X => Ok (map far X))) 3 2 Random.
Proof. cbn [sees_everybody]. split; [lia|]. split; [reflexivity|]. split; [reflexivity|]. intros t. exact choice3. Qed.

(** The hypotheses of C77, met by two objects whose runs return after four iterations and in
    which the best position changes. *)
Definition met (k : topo_kind) (c : config) (kd : opt_kind) (dr : create_draws) (e : env) : Prop :=
  exists top top' o o' q cost pos, c_kind c <> Binary /\ kd <> Binary /\ construct c top dr = Ok o /\ construct (with_kind c kd) top' dr = Ok o' /\
    t_kind top = Star /\ t_nb top' = None /\ t_kind top' = k /\ s_n (o_swarm o) = c_n c /\ sees_everybody (with_kind c kd) e (c_n c) (s_d (o_swarm o)) k /\
    optimize c e None 4 o = (q, Ok (cost, pos)) /\ length (o_pos_history q) = 4 /\ untied e (o_pos_history q) /\
    exists a b, nth_error (o_cost_history q) 0 = Some a /\ nth_error (o_cost_history q) 3 = Some b /\ flt b a = true.
Definition drop (l : list f64) : bool := match l with [a; _; _; b] => flt b a | _ => false end.
Definition met_test (c : config) (kd : opt_kind) (k : topo_kind) (n d : nat) (dr : create_draws) (e : env) : bool :=
  match construct c star dr, construct (with_kind c kd) (topo k false) dr with
  | Ok o, Ok _ => Nat.eqb (s_n (o_swarm o)) n && Nat.eqb (s_d (o_swarm o)) d
  | _, _ => false
  end && is_ok (d_run c star dr e None 4) &&
  d_test false (d_run c star dr e None 4) (fun o _ _ => Nat.eqb (length (o_pos_history o)) 4 && distinct (evals e 0 (o_pos_history o)) && drop (o_cost_history o)).
Lemma met_test_ok : forall k c kd n d dr e, c_kind c <> Binary -> kd <> Binary -> c_n c = n -> sees_everybody (with_kind c kd) e n d k -> met_test c kd k n d dr e = true -> met k c kd dr e.
Proof.
  intros k c kd n d dr e CK CK' CN SE H. unfold met_test in H. apply andb_prop in H. destruct H as [H T]. apply andb_prop in H. destruct H as [H R].
  destruct (d_run_test _ _ _ _ _ _ _ _ _ _ R T) as (o & q & cost & pos & C & _ & _ & E & D). rewrite C in H. destruct (construct (with_kind c kd) (topo k false) dr) as [o'|] eqn:C'; [|discriminate].
  apply andb_prop in H. destruct H as [H1 H2]. apply Nat.eqb_eq in H1, H2. apply andb_prop in D. destruct D as [D D3]. apply andb_prop in D. destruct D as [D1 D2]. apply Nat.eqb_eq in D1.
  exists star, (topo k false), o, o', q, cost, pos. split; [exact CK|]. split; [exact CK'|]. split; [exact C|]. split; [exact C'|]. split; [reflexivity|]. split; [reflexivity|]. split; [reflexivity|]. split; [congruence|].
  split; [rewrite CN, H2; exact SE|]. split; [exact E|]. split; [exact D1|]. split; [apply distinct_untied; exact D2|].
  destruct (o_cost_history q) as [|a [|a1 [|a2 [|b [|a4 l]]]]]; try discriminate D3. exists a, b. split; [reflexivity|]. split; [reflexivity|exact D3].
Qed.
Lemma met_ring_test : met_test (all_c GlobalBest 3 2 3) LocalBest Ring 3 2 (d_cd 2 3 2) (all_e 3 2 (fun _ X => Ok (map far X))) = true.
Proof. vm_compute. reflexivity. Qed.
Lemma met_lattice_test : met_test (all_c GlobalBest 3 1 2) General VonNeumann 3 1 (d_cd 2 3 1) (all_e 3 1 (fun _ X => Ok (map far X))) = true.
Proof. vm_compute. reflexivity. Qed.
Lemma met_few_test : met_test (all_c GlobalBest 3 3 2) General Pyramid 3 3 (d_cd 2 3 3) (all_e 3 3 (fun _ X => Ok (map far X))) = true.
Proof. vm_compute. reflexivity. Qed.
Lemma met_random_test : met_test (all_c GlobalBest 3 2 2) General Random 3 2 (d_cd 2 3 2) (all_e 3 2 (fun _ X => Ok (map far X))) = true.
Proof. vm_compute. reflexivity. Qed.
Lemma gb_continuous : GlobalBest <> Binary. Proof. discriminate. Qed.
Lemma localbest_continuous : LocalBest <> Binary. Proof. discriminate. Qed.
Lemma general_continuous : General <> Binary. Proof. discriminate. Qed.
Lemma everybody_demo : forall k, k <> Star -> exists c kd dr e, met k c kd dr e.
Proof.
  intros [| | | |] K; [congruence| | | |].
  - exists (all_c GlobalBest 3 2 3), LocalBest, (d_cd 2 3 2), (all_e 3 2 (fun _ X => Ok (map far X))). exact (met_test_ok Ring (all_c GlobalBest 3 2 3) LocalBest 3 2 (d_cd 2 3 2) (all_e 3 2 (fun _ X => Ok (map far X))) gb_continuous localbest_continuous eq_refl sees_ring met_ring_test).
  - exists (all_c GlobalBest 3 1 2), General, (d_cd 2 3 1), (all_e 3 1 (fun _ X => Ok (map far X))). exact (met_test_ok VonNeumann (all_c GlobalBest 3 1 2) General 3 1 (d_cd 2 3 1) (all_e 3 1 (fun _ X => Ok (map far X))) gb_continuous general_continuous eq_refl sees_lattice met_lattice_test).
  - exists (all_c GlobalBest 3 3 2), General, (d_cd 2 3 3), (all_e 3 3 (fun _ X => Ok (map far X))). exact (met_test_ok Pyramid (all_c GlobalBest 3 3 2) General 3 3 (d_cd 2 3 3) (all_e 3 3 (fun _ X => Ok (map far X))) gb_continuous general_continuous eq_refl sees_few met_few_test).
  - exists (all_c GlobalBest 3 2 2), General, (d_cd 2 3 2), (all_e 3 2 (fun _ X => Ok (map far X))). exact (met_test_ok Random (all_c GlobalBest 3 2 2) General 3 2 (d_cd 2 3 2) (all_e 3 2 (fun _ X => Ok (map far X))) gb_continuous general_continuous eq_refl sees_random met_random_test).
Qed.

(** *** Ties *)
(** Two steps: the cost is 1 right of one half and 2 left of it. *)
Definition stairs (r : frow) : f64 := if flt (fofZe 1 (-1)) (nth 0 r fzero) then fone else F 2.
Definition tie_e : env := all_e 3 2 (fun _ X => Ok (map stairs X)).
Definition apart (h h' : list fmatrix) : bool :=
  existsb (fun p => existsb (fun ab => existsb (fun xy => feq (fst xy) (fst xy) && negb (feq (fst xy) (snd xy))) (combine (fst ab) (snd ab))) (combine (fst p) (snd p))) (combine h h').
Lemma combine_self : forall A (l : list A) x, In x (combine l l) -> fst x = snd x.
Proof. intros A. induction l as [|a l IH]; intros x X; [contradiction|]. destruct X as [<-|X]; [reflexivity|auto]. Qed.
Lemma apart_ok : forall h, apart h h = false.
Proof.
  intros h. destruct (apart h h) eqn:E; [|reflexivity]. unfold apart in E. apply existsb_exists in E. destruct E as ([p p'] & P & E). apply combine_self in P. cbn [fst snd] in P, E. subst p'. apply existsb_exists in E. destruct E as ([q q'] & Q & E). apply combine_self in Q. cbn [fst snd] in Q, E. subst q'.
  apply existsb_exists in E. destruct E as ([x x'] & X & E). apply combine_self in X. cbn [fst snd] in X, E. subst x'. apply andb_prop in E. destruct E as [A B]. rewrite A in B. discriminate.
Qed.
Definition ties_test (c : config) (kd : opt_kind) (dr : create_draws) (e : env) (iters : nat) : bool :=
  match construct c star dr, construct (with_kind c kd) (topo Ring false) dr with
  | Ok o, Ok o' => Nat.eqb (s_n (o_swarm o)) 3 && Nat.eqb (s_d (o_swarm o)) 2 && apart (o_pos_history (fst (optimize c e None iters o))) (o_pos_history (fst (optimize (with_kind c kd) e None iters o')))
  | _, _ => false
  end.
Lemma ties_apart : ties_test (all_c GlobalBest 3 2 3) LocalBest (d_cd 0 3 2) tie_e 3 = true.
Proof. vm_compute. reflexivity. Qed.
Lemma ties_part : exists c kd top top' dr e iters o o', c_kind c <> Binary /\ kd <> Binary /\ construct c top dr = Ok o /\ construct (with_kind c kd) top' dr = Ok o' /\
  t_kind top = Star /\ t_nb top' = None /\ s_n (o_swarm o) = c_n c /\ sees_everybody (with_kind c kd) e (c_n c) (s_d (o_swarm o)) (t_kind top') /\
  (forall i X, exists cs, e_obj e i X = Ok cs /\ Forall (fun x => x = fone \/ x = F 2) cs) /\
  ~ same_course (fst (optimize c e None iters o)) (fst (optimize (with_kind c kd) e None iters o')).
Proof.
  assert (G : forall c kd dr e iters, ties_test c kd dr e iters = true -> exists o o', construct c star dr = Ok o /\ construct (with_kind c kd) (topo Ring false) dr = Ok o' /\ s_n (o_swarm o) = 3 /\ s_d (o_swarm o) = 2 /\ ~ same_course (fst (optimize c e None iters o)) (fst (optimize (with_kind c kd) e None iters o'))).
  { intros c kd dr e iters H. unfold ties_test in H. destruct (construct c star dr) as [o|]; [|discriminate]. destruct (construct (with_kind c kd) (topo Ring false) dr) as [o'|]; [|discriminate]. exists o, o'. split; [reflexivity|]. split; [reflexivity|].
    apply andb_prop in H. destruct H as [H A]. apply andb_prop in H. destruct H as [H1 H2]. apply Nat.eqb_eq in H1, H2. split; [exact H1|]. split; [exact H2|]. intros [S _]. rewrite S in A. rewrite apart_ok in A. discriminate. }
  destruct (G _ _ _ _ _ ties_apart) as (o & o' & C & C' & N & D & S).
  exists (all_c GlobalBest 3 2 3), LocalBest, star, (topo Ring false), (d_cd 0 3 2), tie_e, 3, o, o'. split; [discriminate|]. split; [discriminate|]. split; [exact C|]. split; [exact C'|]. split; [reflexivity|]. split; [reflexivity|]. split; [exact N|].
  split; [rewrite D; cbn [c_n all_c topo t_kind sees_everybody]; split; [lia|]; split; [left; reflexivity|]; exists 2%Z; split; [reflexivity|]; split; [reflexivity|apply all_queries]|]. split; [|exact S].
  intros i X. exists (map stairs X). split; [reflexivity|]. apply Forall_forall. intros x IX. apply in_map_iff in IX. destruct IX as (r & <- & _). unfold stairs. destruct (flt _ _); auto.
Qed.
