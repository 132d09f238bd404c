(** Cases that meet the hypotheses of C85. *)
From Coq Require Import String ZArith List Arith Bool Lia.
From Verif Require Import Prelude F64 F64Facts F64More Num Np ListFacts Handlers Swarms Operators Generators Topology Optimizers DType Spec SpecHandlers SpecDType
  HandlerFacts Witness Demo ExamplesOpts ExamplesMirror.
Import ListNotations.
Local Open Scope string_scope.
Local Open Scope list_scope.
Local Open Scope nat_scope.

(** Whole numbers as first positions, inside [m_bounds] of ExamplesMirror. *)
Definition i_init : fmatrix := [[F (-2); F 1]; [F 4; F 3]].
Definition i_config (vh : string) : config :=
  {| c_kind := GlobalBest; c_n := 2; c_d := 2; c_options := d_options; c_bounds := Some m_bounds; c_clamp := None; c_center := repeat fone 2; c_ftol := fninf; c_ftol_iter := 1; c_init := Some i_init;
     c_bh := "nearest"; c_vh := vh; c_oh := [] |}.
Definition i_k : dconf := mkDc TFlt (fun _ => false).
Lemma i_unmodified : is_ok (d_run (i_config "unmodified") star (m_dr 3 15) m_e None 4) = true. Proof. vm_compute. reflexivity. Qed.
Lemma i_adjust : is_ok (d_run (i_config "adjust") star (m_dr 3 15) m_e None 4) = true. Proof. vm_compute. reflexivity. Qed.
Definition zero_one : fmatrix := [[fzero; fone]; [fone; fone]; [fzero; fzero]].
Lemma i_binary : is_ok (d_run (b_config (Some zero_one)) (topo Ring false) (d_cd 0 3 2) (b_env neg_obj) None 4) = true. Proof. vm_compute. reflexivity. Qed.
Lemma i_inside : any_out (N := F64num) i_init m_bounds = false. Proof. vm_compute. reflexivity. Qed.
Lemma i_finite : forallb (forallb ffinite) i_init = true. Proof. vm_compute. reflexivity. Qed.
Lemma i_rest : at_rest (i_config "adjust") 2 i_init.
Proof.
  split; [discriminate|]. split; [|split].
  - intros b B. injection B as <-. assert (D : box_dim 2 m_bounds) by (split; reflexivity). split; [exact D|]. intros i j x l u X C. exact (proj1 (any_out_false (N := F64num) 2 m_bounds i_init D) i_inside i j x l u X C).
  - exists 2. split; [reflexivity|repeat constructor].
  - intros i j y Y. pose proof i_finite as T. rewrite forallb_forall in T. unfold entry in Y. destruct (nth_error i_init i) as [r|] eqn:R; [|discriminate]. specialize (T r (nth_error_In _ _ R)). rewrite forallb_forall in T. exact (T y (nth_error_In _ _ Y)).
Qed.
Lemma refused_demo : exists c k e top dr o o2 v, construct c top dr = Ok o /\ c_init c <> None /\ 1 <= c_ftol_iter c /\ refused c k (new_types c TInt) /\ optimize c e None 4 o = (o2, Ok v).
Proof.
  destruct (d_run_ok _ _ _ _ _ _ i_unmodified) as (o & o' & [cost pos] & C & E). exists (i_config "unmodified"), i_k, m_e, star, (m_dr 3 15), o, o', (cost, pos).
  split; [exact C|]. split; [discriminate|]. split; [exact (le_n 1)|]. split; [|exact E]. right. split; [reflexivity|]. intros [T|[T _]]; discriminate T.
Qed.
Lemma bool_demo : exists c k e top dr o o2 v, construct c top dr = Ok o /\ c_kind c = Binary /\ refused c k (new_types c TBool) /\ t_pos (new_types c TInt) <> TBool /\ optimize c e None 4 o = (o2, Ok v).
Proof.
  destruct (d_run_ok _ _ _ _ _ _ i_binary) as (o & o' & [cost pos] & C & E). exists (b_config (Some zero_one)), i_k, (b_env neg_obj), (topo Ring false), (d_cd 0 3 2), o, o', (cost, pos).
  split; [exact C|]. split; [reflexivity|]. split; [left; split; reflexivity|]. split; [discriminate|exact E].
Qed.
Lemma construct_init : forall c top dr o p, c_kind c <> Binary -> c_init c = Some p -> construct c top dr = Ok o -> s_position (o_swarm o) = p.
Proof.
  intros c top dr o p K I C. unfold construct in C. apply bind_Ok in C. destruct C as (_ & _ & C). destruct (Nat.eqb _ _); [discriminate|]. apply bind_Ok in C. destruct C as (s & M & C). injection C as <-. cbn [o_swarm].
  unfold make_swarm in M. assert (G : forall A (a b : A), match c_kind c with Binary => a | _ => b end = b) by (intros; destruct (c_kind c); congruence). rewrite G in M. unfold create_swarm in M. rewrite I in M.
  apply bind_Ok in M. destruct M as (p' & P & M). apply bind_Ok in M. destruct M as (v & _ & M). injection M as <-. cbn [new_swarm s_position]. clear -P. unfold generate_swarm in P.
  repeat match type of P with context[match ?x with _ => _ end] => destruct x; try discriminate P end; congruence.
Qed.
Lemma adjust_demo : exists c k e top dr o o2 v, construct c top dr = Ok o /\ c_kind c <> Binary /\ c_vh c = "adjust" /\ c_clamp c = None /\ c_bounds c <> None /\ at_rest c 2 (s_position (o_swarm o)) /\
  t_pos (new_types c TInt) = TInt /\ takes_integers c k /\ optimize c e None 4 o = (o2, Ok v).
Proof.
  destruct (d_run_ok _ _ _ _ _ _ i_adjust) as (o & o' & [cost pos] & C & E). exists (i_config "adjust"), i_k, m_e, star, (m_dr 3 15), o, o', (cost, pos).
  split; [exact C|]. split; [discriminate|]. split; [reflexivity|]. split; [reflexivity|]. split; [discriminate|].
  assert (P : s_position (o_swarm o) = i_init) by (assert (K : c_kind (i_config "adjust") <> Binary) by discriminate; exact (construct_init _ _ _ _ _ K eq_refl C)).
  split; [rewrite P; exact i_rest|]. split; [reflexivity|]. split; [right; split; [reflexivity|left; reflexivity]|exact E].
Qed.
