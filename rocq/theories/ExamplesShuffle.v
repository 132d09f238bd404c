(** A case that meets the hypotheses of C76, and ties, for which the claim fails. *)
From Coq Require Import String ZArith List Arith Bool Lia Permutation.
From Verif Require Import Prelude F64 F64Facts Num Np ListFacts Handlers Swarms Operators Generators Topology Optimizers Spec SpecLike SpecMirror SpecShuffle ShuffleFacts Shuffle Demo.
Import ListNotations.
Local Open Scope string_scope.
Local Open Scope list_scope.
Local Open Scope nat_scope.

(** The first two of three particles change places. *)
Definition swap : list nat := [1; 0; 2].
Lemma swap_ok : Permutation (seq 0 (length swap)) swap.
Proof. apply perm_swap. Qed.
Definition dealt {A} (l : list A) (d : A) : list A := map (fun i => nth i l d) swap.
Lemma dealt_ok : forall A (l : list A) d, length l = 3 -> shuffled swap l (dealt l d).
Proof. intros A [|a [|b [|x [|y l]]]] d L; try discriminate. split; [reflexivity|]. repeat constructor. Qed.
Definition sh_te : topo_env := mkTe (fun _ _ _ => Ok [[0; 2]; [1; 0]; [2; 1]]) (fun _ => Ok [[0; 2]; [1; 0]; [2; 1]]) [[2]; [0]; [1]].
Definition sh_env (e : env) : env :=
  mkEnv (e_obj e) (fun t => mkVd (N := F64num) (dealt (vd_u1 (e_vel e t)) []) (dealt (vd_u2 (e_vel e t)) [])) (e_bh e) (e_oh e) (fun _ => sh_te) (e_bits e) (e_exp e) (e_tree e).
Lemma hood_ok : hoods_shuffled swap (d_rows 3) [[0; 2]; [1; 0]; [2; 1]].
Proof.
  exists [[1; 2]; [0; 1]; [2; 0]]. split; [split; [reflexivity|repeat constructor]|].
  repeat constructor; cbn; try lia; try apply Permutation_refl.
Qed.
Lemma choice_ok : hoods_shuffled swap (te_choice (d_te 3)) [[2]; [0]; [1]].
Proof.
  exists [[2]; [1]; [0]]. split; [split; [reflexivity|repeat constructor]|].
  repeat constructor; cbn; try lia; try apply Permutation_refl.
Qed.
Lemma sh_env_ok : forall f, env_shuffled swap (d_env 3 2 (fun _ X => Ok (map f X))) (sh_env (d_env 3 2 (fun _ X => Ok (map f X)))).
Proof.
  intros f. unfold env_shuffled. split; [|split; [|split; [|split; [|split; [|split; [|split; [|split]]]]]]]; try reflexivity.
  - intros i X X' H. cbn [sh_env d_env e_obj outcome_shuffled]. apply (sh_map swap swap_ok). exact H.
  - intros i. split; apply dealt_ok; reflexivity.
  - intros i p k X X' _. exact hood_ok.
  - intros i X X' _. exact hood_ok.
  - intros i. exact choice_ok.
Qed.
Definition sh_cd (d : create_draws) : create_draws := mkCd (dealt (cd_pos d) []) (dealt (cd_bits d) []) (dealt (cd_vel d) []).
Lemma sh_cd_ok : forall s, draws_shuffled swap (d_cd s 3 2) (sh_cd (d_cd s 3 2)).
Proof.
  intros s. assert (R : forall A (f : nat -> nat -> A), rect (map (fun i => map (fun j => f i j) (seq 0 2)) (seq 0 3))) by (intros A f; exists 2; repeat constructor).
  unfold draws_shuffled. split; [apply dealt_ok; reflexivity|]. split; [apply R|]. split; [apply dealt_ok; reflexivity|]. split; [apply R|]. apply dealt_ok. reflexivity.
Qed.

(** All evaluated positions with their costs, in a list. *)
Fixpoint evals (e : env) (t : nat) (h : list fmatrix) : list (frow * f64) :=
  match h with
  | [] => []
  | X :: h => match e_obj e t X with Ok cs => combine X cs | Err _ => [] end ++ evals e (S t) h
  end.
Lemma evals_in : forall e h t0 t X cs i p c, nth_error h t = Some X -> e_obj e (t0 + t) X = Ok cs -> nth_error X i = Some p -> nth_error cs i = Some c -> In (p, c) (evals e t0 h).
Proof.
  intros e h. induction h as [|Y h IH]; intros t0 [|t] X cs i p c H E P C; cbn in H; try discriminate; cbn [evals]; apply in_or_app.
  - left. injection H as ->. rewrite Nat.add_0_r in E. rewrite E. apply nth_error_In with i. rewrite nth_combine, P, C. reflexivity.
  - right. eapply (IH (S t0) t); eauto. replace (S t0 + t) with (t0 + S t) by lia. exact E.
Qed.
Fixpoint distinct (l : list (frow * f64)) : bool :=
  match l with [] => true | (_, c) :: l => flt c finf && forallb (fun q => negb (feq c (snd q)) && negb (feq (snd q) c)) l && distinct l end.
Lemma distinct_ok : forall l, distinct l = true -> (forall p c, In (p, c) l -> flt c finf = true) /\ (forall p c p' c', In (p, c) l -> In (p', c') l -> feq c c' = true -> p = p').
Proof.
  induction l as [|[p c] l IH]; intros D; [split; intros; contradiction|]. cbn [distinct] in D. apply andb_prop in D. destruct D as [D D3]. apply andb_prop in D. destruct D as [D1 D2]. destruct (IH D3) as [I1 I2]. rewrite forallb_forall in D2.
  assert (N : forall q d, In (q, d) l -> feq c d = false /\ feq d c = false) by (intros q d I; specialize (D2 _ I); apply andb_prop in D2; cbn [snd] in D2; destruct D2 as [A B]; apply negb_true_iff in A, B; split; assumption).
  split.
  - intros p' c' [E|I]; [apply pair_equal_spec in E; destruct E as [_ <-]; exact D1|eapply I1; eauto].
  - intros p1 c1 p2 c2 [E|I] [E'|I'] Q.
    + apply pair_equal_spec in E, E'. destruct E as [<- _], E' as [<- _]. reflexivity.
    + apply pair_equal_spec in E. destruct E as [_ <-]. destruct (N _ _ I') as [A _]. congruence.
    + apply pair_equal_spec in E'. destruct E' as [_ <-]. destruct (N _ _ I) as [_ A]. congruence.
    + eapply I2; eauto.
Qed.
Lemma distinct_untied : forall e h, distinct (evals e 0 h) = true -> untied e h.
Proof.
  intros e h D. destruct (distinct_ok _ D) as [D1 D2]. assert (G : forall p c, evaluated e h p c -> In (p, c) (evals e 0 h)) by (intros p c (t & X & cs & i & A & B & P & C); eapply (evals_in e h 0 t); eauto).
  split; [intros p c E; eapply D1; eauto|]. intros p c p' c' E E' Q. eapply D2; [apply G; exact E|apply G; exact E'|exact Q].
Qed.
Definition sh_e : env := d_env 3 2 (fun _ X => Ok (map sq X)).
Definition ring : topology := topo Ring false.
Lemma sh_run_ok : is_ok (d_run (run_c LocalBest) ring (d_cd 2 3 2) sh_e None 4) = true.
Proof. vm_compute. reflexivity. Qed.
(** All costs differ, and the particles have different best neighbours. *)
Lemma sh_run_test : d_test false (d_run (run_c LocalBest) ring (d_cd 2 3 2) sh_e None 4)
  (fun o _ _ => Nat.eqb (length (o_pos_history o)) 4 && distinct (evals sh_e 0 (o_pos_history o)) && match s_best_pos (o_swarm o) with BPMat (a :: b :: _) => negb (feq (nth 0 a fzero) (nth 0 b fzero)) | _ => false end) = true.
Proof. vm_compute. reflexivity. Qed.
Lemma ring_ok : topology_shuffled swap ring ring.
Proof. repeat split. Qed.
Lemma shuffle_demo : exists order c p top top' dr dr' e e' o o' q cost pos, Permutation (seq 0 (length order)) order /\ order <> seq 0 (length order) /\ c_n c = length order /\ env_shuffled order e e' /\
  init_shuffled order (c_init c) p /\ topology_shuffled order top top' /\ draws_shuffled order dr dr' /\ construct c top dr = Ok o /\ construct (with_init c p) top' dr' = Ok o' /\ state_shuffled order o o' /\
  optimize c e None 4 o = (q, Ok (cost, pos)) /\ untied e (skipn (length (o_pos_history o)) (o_pos_history q)) /\ length (o_pos_history q) = 4 /\
  exists a b m, s_best_pos (o_swarm q) = BPMat (a :: b :: m) /\ feq (nth 0 a fzero) (nth 0 b fzero) = false.
Proof.
  destruct (d_run_test _ _ _ _ _ _ _ _ _ _ sh_run_ok sh_run_test) as (o & q & cost & pos & C & FR & _ & E & D).
  apply andb_prop in D. destruct D as [D D3]. apply andb_prop in D. destruct D as [D1 D2]. apply Nat.eqb_eq in D1.
  pose proof (shuffle_construct swap (run_c LocalBest) None ring ring _ _ swap_ok I ring_ok (sh_cd_ok 2)) as B. rewrite C in B. cbn [built_shuffled] in B.
  destruct (construct (with_init (run_c LocalBest) None) ring (sh_cd (d_cd 2 3 2))) as [o'|x] eqn:C'; [|contradiction].
  assert (H0 : o_pos_history o = []).
  { clear -C. unfold construct in C. apply bind_Ok in C. destruct C as (u & _ & C). destruct (Nat.eqb _ _) in C; [discriminate|]. apply bind_Ok in C. destruct C as (s & _ & C). apply (f_equal (fun r => match r with Ok x => o_pos_history x | Err _ => [] end)) in C. symmetry. exact C. }
  exists swap, (run_c LocalBest), None, ring, ring, (d_cd 2 3 2), (sh_cd (d_cd 2 3 2)), sh_e, (sh_env sh_e), o, o', q, cost, pos.
  split; [exact swap_ok|]. split; [discriminate|]. split; [reflexivity|]. split; [apply sh_env_ok|]. split; [exact I|]. split; [exact ring_ok|]. split; [apply sh_cd_ok|]. split; [exact C|]. split; [exact C'|]. split; [exact B|]. split; [exact E|].
  split; [rewrite H0; apply distinct_untied; exact D2|]. split; [exact D1|]. destruct (s_best_pos (o_swarm q)) as [|v|[|a [|b m]]]; try discriminate D3. exists a, b, m. split; [reflexivity|]. apply negb_true_iff. exact D3.
Qed.

(** *** Ties *)
Definition flat_e : env := d_env 3 2 (fun _ X => Ok (map (fun _ => fone) X)).
Definition tie_test (c : config) (dr dr' : create_draws) (e e' : env) : bool :=
  match construct c star dr, construct (with_init c None) star dr' with
  | Ok o, Ok o' => match snd (optimize c e None 1 o), snd (optimize (with_init c None) e' None 1 o') with Ok (_, p), Ok (_, p') => feq (nth 0 p fzero) (nth 0 p fzero) && negb (feq (nth 0 p fzero) (nth 0 p' fzero)) | _, _ => false end
  | _, _ => false
  end.
Lemma ties_differ : tie_test (run_c GlobalBest) (d_cd 0 3 2) (sh_cd (d_cd 0 3 2)) flat_e (sh_env flat_e) = true.
Proof. vm_compute. reflexivity. Qed.
Lemma tie_test_ok : forall c dr dr' e e', tie_test c dr dr' e e' = true -> exists o o', construct c star dr = Ok o /\ construct (with_init c None) star dr' = Ok o' /\
  ~ result_shuffled (snd (optimize c e None 1 o)) (snd (optimize (with_init c None) e' None 1 o')).
Proof.
  intros c dr dr' e e' H. unfold tie_test in H. destruct (construct c star dr) as [o|]; [|discriminate]. destruct (construct (with_init c None) star dr') as [o'|]; [|discriminate]. exists o, o'. split; [reflexivity|]. split; [reflexivity|].
  destruct (snd (optimize c e None 1 o)) as [[x p]|], (snd (optimize (with_init c None) e' None 1 o')) as [[x' p']|]; try discriminate H. intros [_ Q]. rewrite Q in H. apply andb_prop in H. destruct H as [A B]. rewrite A in B. discriminate.
Qed.
Lemma shuffle_ties : exists order c p e e' o o', Permutation (seq 0 (length order)) order /\ c_n c = length order /\ env_shuffled order e e' /\ state_shuffled order o o' /\
  (forall i X, exists cs, e_obj e i X = Ok cs /\ Forall (fun x => x = fone) cs) /\
  ~ result_shuffled (snd (optimize c e None 1 o)) (snd (optimize (with_init c p) e' None 1 o')).
Proof.
  destruct (tie_test_ok _ _ _ _ _ ties_differ) as (o & o' & C & C' & N). assert (ST : topology_shuffled swap star star) by repeat split.
  pose proof (shuffle_construct swap (run_c GlobalBest) None star star _ _ swap_ok I ST (sh_cd_ok 0)) as B. rewrite C, C' in B. cbn [built_shuffled] in B.
  exists swap, (run_c GlobalBest), None, flat_e, (sh_env flat_e), o, o'. split; [exact swap_ok|]. split; [reflexivity|]. split; [apply sh_env_ok|]. split; [exact B|]. split; [|exact N].
  intros i X. exists (map (fun _ => fone) X). split; [reflexivity|]. apply Forall_forall. intros x IX. apply in_map_iff in IX. destruct IX as (r & <- & _). reflexivity.
Qed.
