(** Concrete cases for the options-handler and BinaryPSO properties. *)
From Coq Require Import String ZArith List Arith Bool Reals Lra Lia.
From Verif Require Import Prelude F64 F64Facts F64More Num Np Handlers Swarms Operators Generators Topology Optimizers
  Spec SpecHandlers SpecOpts ListFacts RunFacts RunMain OptFacts OptReal OptRun BinFacts Demo ExamplesMotion.
Import ListNotations.
Local Open Scope string_scope.
Local Open Scope list_scope.
Local Open Scope nat_scope.

Definition p_lib : oh_lib F64num := mkOhLib (N := F64num) (fun x => x) (fun x _ => x) (fun _ => fdec 1 4).
Definition p_kw (i m : Z) : oh_kwargs F64num := mkOk (N := F64num) (Some i) (Some m) None None None None.
(** Value of [opt] after one call. *)
Definition p_val (st : dict string) (k : oh_kwargs F64num) (opt : string) : option f64 :=
  match oh_call p_lib st d_options k with
  | Ok o => match dget o opt with Some v => Some (pnum v) | None => None end
  | Err _ => None
  end.
Definition p_is (x : option f64) (y : f64) : bool := match x with Some z => feq z y | None => false end.
(** lin_variation at half time takes w from 0.9 to the middle between 0.9 and 0.4; c1, which has
    no strategy, stays. *)
Lemma lin_example : p_is (p_val [("w", "lin_variation")] (p_kw 1 2) "w") (fadd (fdec 4 10) (fdiv (fmul (fsub (fdec 9 10) (fdec 4 10)) (fofZ 1)) (fofZ 2))) = true /\
  p_is (p_val [("w", "lin_variation")] (p_kw 1 2) "c1") (fdec 5 10) = true /\ is_ok (oh_call p_lib [("w", "lin_variation")] d_options (p_kw 1 2)) = true.
Proof. split; [|split]; vm_compute; reflexivity. Qed.
Lemma d_options_nodup : NoDup (dkeys d_options).
Proof. repeat (constructor; [cbn; intuition discriminate|]). constructor. Qed.
(** An unknown strategy; an option without a default end value; 'random' without end values. *)
Definition is_err {A} (x : exn) (r : res A) : bool := match r with Err KeyError => match x with KeyError => true | _ => false end | _ => false end.
Lemma errors_example : is_err KeyError (oh_call p_lib [("w", "nope")] d_options (p_kw 1 2)) = true /\
  is_err KeyError (oh_call p_lib [("k", "lin_variation")] d_options (p_kw 1 2)) = true /\
  is_err KeyError (oh_call p_lib [("w", "random")] d_options (p_kw 1 2)) = true.
Proof. split; [|split]; vm_compute; reflexivity. Qed.

(** *** A run with a strategy, and one with 'random' *)
Definition p_config (oh : dict string) : config :=
  {| c_kind := GlobalBest; c_n := 3; c_d := 2; c_options := d_options; c_bounds := None; c_clamp := None;
     c_center := repeat fone 2; c_ftol := fninf; c_ftol_iter := 1; c_init := None;
     c_bh := "periodic"; c_vh := "unmodified"; c_oh := oh |}.
Definition opt_is (opt : string) (y : f64) (o : ostate) : bool :=
  match dget (s_options (o_swarm o)) opt with Some v => feq (@pnum F64num v) y | None => false end.
Lemma p_run_lin : d_test false (d_run (p_config [("w", "lin_variation")]) star (d_cd 0 3 2) run_e None 4)
  (fun o' _ _ => opt_is "w" (fadd (fdec 4 10) (fdiv (fmul (fsub (fdec 9 10) (fdec 4 10)) (fofZ 1)) (fofZ 4))) o') = true.
Proof. vm_compute. reflexivity. Qed.
Lemma p_run_random : match construct (p_config [("w", "random")]) star (d_cd 0 3 2) with
  | Ok o => let (o', r) := optimize (p_config [("w", "random")]) run_e None 4 o in is_err KeyError r && Nat.eqb (length (o_pos_history o')) 1
  | Err _ => false end = true.
Proof. vm_compute. reflexivity. Qed.
Lemma p_pow : feq (l_pow (e_oh run_e 0) (fofZ (Z.of_nat 4)) (fdec 12 10)) fzero = false.
Proof. vm_compute. reflexivity. Qed.

(** *** Real cases *)
Lemma real_lib_ex : exists lib, real_lib lib.
Proof.
  exists (mkOhLib (N := Rnum) exp (fun x n : R => if Req_EM_T x 0 then 0%R else Rpower x n) (fun _ => 0%R)).
  split; [reflexivity|]. split.
  - intros x n P. cbn. destruct (Req_EM_T x 0); [lra|reflexivity].
  - intros n _. cbn. destruct (Req_EM_T 0 0); [reflexivity|lra].
Qed.

(** *** BinaryPSO *)
Definition b_ex (x : f64) : f64 := if flt x fzero then fhalf else ftwo.
Lemma b_ex_like : exp_like b_ex.
Proof.
  split.
  - intros a _. unfold b_ex. destruct (flt a fzero); vm_compute; reflexivity.
  - intros a b H. unfold b_ex. destruct (flt a fzero) eqn:A; destruct (flt b fzero) eqn:B; try (vm_compute; reflexivity). forder.
Qed.
Definition b_env (obj : nat -> fmatrix -> res (list f64)) : env :=
  {| e_obj := obj; e_vel := e_vel run_e; e_bh := e_bh run_e; e_oh := e_oh run_e; e_top := e_top run_e;
     e_bits := e_bits run_e; e_exp := b_ex; e_tree := e_tree run_e |}.
Definition b_config (init : option fmatrix) : config :=
  {| c_kind := Binary; c_n := 3; c_d := 2; c_options := d_options; c_bounds := None; c_clamp := None;
     c_center := repeat fone 2; c_ftol := fninf; c_ftol_iter := 1; c_init := init;
     c_bh := "periodic"; c_vh := "unmodified"; c_oh := [] |}.
(** Both bit values occur after the first iteration. *)
Lemma b_run : d_test false (d_run (b_config None) (topo Ring false) (d_cd 0 3 2) (b_env d_obj) None 4)
  (fun o' _ _ => existsb (existsb (existsb (fun x => feq x fone))) (skipn 1 (o_pos_history o')) &&
                 existsb (existsb (existsb (fun x => feq x fzero))) (skipn 1 (o_pos_history o'))) = true.
Proof. vm_compute. reflexivity. Qed.
Definition b_init : fmatrix := [[F 3; F 7]; [F 7; F 7]; [F 3; F 3]].
(** Negated sum of squares: the largest start position is the best. *)
Definition neg_obj (_ : nat) (X : fmatrix) : res (list f64) := mapM (fun r => Ok (fopp (sq r))) X.
Lemma b_run37 : d_test false (d_run (b_config (Some b_init)) (topo Ring false) (d_cd 0 3 2) (b_env neg_obj) None 4)
  (fun o' _ pos => Nat.eqb (length (o_pos_history o')) 4 && match pos with [a; b] => feq a (F 7) && feq b (F 7) | _ => false end) = true.
Proof. vm_compute. reflexivity. Qed.
Lemma sevens : forall pos : frow, match pos with [a; b] => feq a (F 7) && feq b (F 7) | _ => false end = true ->
  exists x, In x pos /\ feq x fzero = false /\ feq x fone = false.
Proof.
  intros [|a [|b [|]]] H2; try discriminate. apply andb_prop in H2. destruct H2 as [A _]. exists a. split; [left; reflexivity|].
  assert (Z1 : feq (F 7) fzero = false) by (vm_compute; reflexivity). assert (Z2 : feq (F 7) fone = false) by (vm_compute; reflexivity). split.
  - destruct (feq a fzero) eqn:Q; auto. exfalso. assert (feq (F 7) fzero = true) by forder. congruence.
  - destruct (feq a fone) eqn:Q; auto. exfalso. assert (feq (F 7) fone = true) by forder. congruence.
Qed.
Lemma two_valued_returned : exists c top dr e o o' cost pos p, c_kind c = Binary /\ c_init c = Some p /\ two_valued p /\
  construct c top dr = Ok o /\ optimize c e None 4 o = (o', Ok (cost, pos)) /\ length (o_pos_history o') = 4 /\
  exists x, In x pos /\ feq x fzero = false /\ feq x fone = false.
Proof.
  assert (K : is_ok (d_run (b_config (Some b_init)) (topo Ring false) (d_cd 0 3 2) (b_env neg_obj) None 4) = true).
  { pose proof b_run37 as H. destruct (d_run (b_config (Some b_init)) (topo Ring false) (d_cd 0 3 2) (b_env neg_obj) None 4); [reflexivity|discriminate]. }
  destruct (d_run_test _ _ _ _ _ _ _ _ _ _ K b_run37) as (o & o' & cost & pos & C & _ & _ & E & H).
  exists (b_config (Some b_init)), (topo Ring false), (d_cd 0 3 2), (b_env neg_obj), o, o', cost, pos, b_init.
  split; [reflexivity|]. split; [reflexivity|]. split.
  { exists (F 3), (F 7). intros i j x X. assert (Q : feq x (F 3) || feq x (F 7) = true).
    { refine (entry_all _ (fun x => feq x (F 3) || feq x (F 7)) b_init i j x _ X). vm_compute. reflexivity. }
    apply orb_prop. exact Q. }
  split; [exact C|]. split; [exact E|]. apply andb_prop in H. destruct H as [H1 H2]. split; [apply Nat.eqb_eq; exact H1|].
  apply sevens. exact H2.
Qed.
