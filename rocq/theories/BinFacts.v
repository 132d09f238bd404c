(** BinaryPSO: positions are bits, and the sampling rule. *)
From Coq Require Import String ZArith List Arith Bool Reals Lra Lia.
From Flocq Require Import IEEE754.BinarySingleNaN.
From Verif Require Import Prelude ListFacts F64 F64Facts F64More Num Np NpFacts Handlers Swarms Operators Generators Topology Optimizers
  Spec SpecHandlers SpecOpts RunFacts PbestFacts ShapeFacts HandlerFacts RunMain RunInv GenFacts StartRun Trajectory.
Import ListNotations.
Local Open Scope nat_scope.

Lemma nth_map_inv : forall A B (f : A -> B) l i y, nth_error (map f l) i = Some y -> exists x, nth_error l i = Some x /\ y = f x.
Proof. intros A B f l i y. rewrite nth_error_map. destruct (nth_error l i) as [x|]; cbn; [|discriminate]. intros H. injection H as <-. eauto. Qed.

(** *** One position update *)
Lemma binary_entry : forall ex u vel p, binary_position ex u vel = Ok p ->
  forall i j x, entry p i j = Some x ->
  exists v w, entry vel i j = Some v /\ nth_error u j = Some w /\
    x = (if flt w (fdiv fone (fadd fone (ex (fopp v)))) then fone else fzero).
Proof.
  unfold binary_position. intros ex u vel p H. destruct (forallb _ vel); [|discriminate]. injection H as <-.
  intros i j x X. destruct (entry_row _ _ _ _ X) as (r & R & Xj). apply nth_map_inv in R. destruct R as (rv & V & ->).
  apply nth_map2_inv in Xj. destruct Xj as (w & v & W & Vj & ->). exists v, w. split; [eapply entry_of; eauto|]. split; auto.
Qed.
Lemma binary_bits : forall ex u vel p, binary_position ex u vel = Ok p -> bits01 p.
Proof.
  intros ex u vel p H i j x X. destruct (binary_entry _ _ _ _ H _ _ _ X) as (v & w & _ & _ & ->).
  destruct (flt w _); [right|left]; vm_compute; reflexivity.
Qed.
(** Success, shape *)
Lemma binary_total : forall n d ex u vel, is_matrix n d vel -> length u = d ->
  exists p, binary_position ex u vel = Ok p /\ is_matrix n d p.
Proof.
  intros n d ex u vel M L. unfold binary_position.
  assert (Q : forallb (fun r => Nat.eqb (length r) (length u)) vel = true).
  { apply forallb_forall. intros r I. apply Nat.eqb_eq. destruct M as [_ M]. rewrite Forall_forall in M. specialize (M r I). ftypes. lia. }
  rewrite Q. eexists. split; [reflexivity|]. apply (map_is_matrix _ _ n d); auto. intros r R. rewrite map2_length. ftypes. lia.
Qed.
Lemma equal_velocity_equal_bit : forall ex u vel p, binary_position ex u vel = Ok p ->
  forall i i' j v x x', entry vel i j = Some v -> entry vel i' j = Some v -> entry p i j = Some x -> entry p i' j = Some x' -> x = x'.
Proof.
  intros ex u vel p H i i' j v x x' V V' X X'.
  destruct (binary_entry _ _ _ _ H _ _ _ X) as (v1 & w1 & A1 & B1 & ->).
  destruct (binary_entry _ _ _ _ H _ _ _ X') as (v2 & w2 & A2 & B2 & ->).
  pose proof (eq_trans (eq_sym A1) V) as Q1. injection Q1 as ->. pose proof (eq_trans (eq_sym A2) V') as Q2. injection Q2 as ->.
  pose proof (eq_trans (eq_sym B1) B2) as Q3. injection Q3 as ->. reflexivity.
Qed.

(** *** Whole calls *)
Lemma binary_run : forall c e pool iters o o' r, c_kind c = Binary -> optimize c e pool iters o = (o', r) ->
  exists hp hv, o_pos_history o' = o_pos_history o ++ hp /\ o_velocity_history o' = o_velocity_history o ++ hv /\
    length hp = length hv /\ length hp <= iters /\
    forall t p v, nth_error hp (S t) = Some p -> nth_error hv (S t) = Some v ->
      bits01 p /\ forall i j x, entry p i j = Some x -> exists y u, entry v i j = Some y /\ nth_error (e_bits e t) j = Some u /\
        x = (if flt u (fdiv fone (fadd fone (e_exp e (fopp y)))) then fone else fzero).
Proof.
  intros c e pool iters o o' r K E.
  destruct (match pool with Some O => true | _ => false end) eqn:EP.
  - destruct pool as [[|n]|]; try discriminate. unfold optimize in E. injection E as <- <-. exists [], [].
    unfold start_memory. rewrite K, !app_nil_r. split; [reflexivity|]. split; [reflexivity|]. split; [reflexivity|]. split; [cbn; lia|]. intros [|t] p v H; discriminate.
  - assert (NP : pool <> Some 0) by (destruct pool as [[|n]|]; congruence).
    destruct (optimize_trace _ _ _ _ _ _ _ NP E) as (k & tr & C & (Kk & L & P & V & _ & _ & St) & _).
    exists (map fst tr), (map snd tr). split; auto. split; auto. rewrite !map_length. split; auto. split; [lia|].
    intros t p v Hp Hv. rewrite nth_error_map in Hp, Hv. destruct (nth_error tr (S t)) as [b|] eqn:B; [|discriminate].
    injection Hp as <-. injection Hv as <-. destruct (nth_error tr t) as [a|] eqn:A.
    2: { apply nth_error_None in A. apply nth_error_lt in B. lia. }
    destruct (St t a b A B) as (o1 & o2 & opts & vm & bm & h & Ch & B' & _ & _ & _ & _ & _ & _ & U & _). rewrite K in U.
    destruct U as (_ & _ & U & _). split; [eapply binary_bits; eauto|]. apply (binary_entry _ _ _ _ U).
Qed.

(** *** From the constructor on *)
Definition bits_start (c : config) : Prop := forall p, c_init c = Some p -> bits01 p.
Record AllBits (o : ostate) : Prop := {
  ab_pos : bits01 (s_position (o_swarm o));
  ab_pb : bits01 (s_pbest_pos (o_swarm o));
  ab_hist : Forall bits01 (o_pos_history o) }.
Lemma bits01_row : forall m i r, bits01 m -> nth_error m i = Some r -> forall j x, nth_error r j = Some x -> feq x fzero = true \/ feq x fone = true.
Proof. intros m i r B R j x X. apply (B i j x). eapply entry_of; eauto. Qed.
Lemma pbest_bits : forall (s : fswarm) pp pc, compute_pbest s = Ok (pp, pc) -> bits01 (s_position s) -> bits01 (s_pbest_pos s) -> bits01 pp.
Proof.
  intros s pp pc H P Q i j x X. destruct (entry_row _ _ _ _ X) as (r & R & Xj).
  pose proof (compute_pbest_lengths _ _ _ H) as (L1 & L2 & L3 & L4 & L5). apply same_shape_length in L3. apply nth_error_lt in R as Li.
  destruct (nth_error_ex (s_current_cost s) i) as [new N]. { ftypes. lia. }
  destruct (nth_error_ex (s_pbest_cost s) i) as [old Oo]. { ftypes. lia. }
  destruct (nth_error_ex (s_position s) i) as [xn Xn]. { ftypes. lia. }
  destruct (nth_error_ex (s_pbest_pos s) i) as [xo Xo]. { ftypes. lia. }
  destruct (compute_pbest_nth _ _ _ _ _ _ _ _ H N Oo Xn Xo) as [K _].
  pose proof (eq_trans (eq_sym K) R) as Z. clear K R. destruct (flt new old); injection Z as ->.
  - exact (bits01_row _ _ _ P Xn _ _ Xj).
  - exact (bits01_row _ _ _ Q Xo _ _ Xj).
Qed.
Lemma bits_optimize : forall c e pool iters o o' r, c_kind c = Binary -> AllBits o -> optimize c e pool iters o = (o', r) -> AllBits o'.
Proof.
  intros c e pool iters o o' r K A E.
  destruct (optimize_rule c e pool iters o (fun _ o1 _ => AllBits o1) (fun _ o1 _ => AllBits o1) AllBits (fun o1 _ => AllBits o1)) with (o' := o') (r := r)
    as [(P & -> & ->)|[(P & Q & ->)|(P & x & Q & ->)]]; auto.
  - destruct (started_facts c o) as (_ & _ & _ & _ & E5 & _ & E7 & _). destruct A. constructor; rewrite ?E5, ?E7; auto.
  - intros i o1 q Hi [A1 A2 A3]. pose proof (evaluate_cases c e pool i o1 q) as EC.
    assert (G : forall o2 cost pp pc t bp bc np, Evald c e pool i o1 o2 cost pp pc t bp bc np -> AllBits o2).
    { intros o2 cost pp pc t bp bc np (_ & E2 & _ & ->). constructor; auto.
      - cbn. exact (pbest_bits _ _ _ E2 A1 A2).
      - cbn. apply Forall_app. split; auto. }
    destruct (evaluate_swarm c e pool i o1 q) as [o2 q2|o2|o2 x].
    + destruct EC as (cost & pp & pc & t & bp & bc & np & EV & _). eauto.
    + destruct EC as (cost & pp & pc & t & bp & bc & np & EV & _). eauto.
    + destruct EC as [x E1|cost x E1 E2|cost pp pc t x E1 E2 E3]; constructor; auto.
      cbn. exact (pbest_bits _ _ _ E2 A1 A2).
  - intros i o1 q Hi [A1 A2 A3]. pose proof (update_cases c e iters i o1 q) as UC.
    destruct (update_swarm c e iters i o1 q) as [o2 q2|o2|o2 x].
    + destruct UC as (_ & CE & opts & v & vm & p & bm & U & S & _). rewrite K in U. destruct U as (_ & _ & U & _).
      constructor.
      * rewrite S. cbn. eapply binary_bits; eauto.
      * rewrite S. exact A2.
      * rewrite (ce_ph _ _ CE). exact A3.
    + contradiction.
    + destruct UC as (CE & P). constructor.
      * rewrite P. exact A1.
      * rewrite (ce_pp _ _ CE). exact A2.
      * rewrite (ce_ph _ _ CE). exact A3.
  - destruct A. unfold start_memory. destruct (c_kind c); constructor; auto.
Qed.
Lemma bits_make : forall c dr s, c_kind c = Binary -> bits_start c -> make_swarm c dr = Ok s -> bits01 (s_position s) /\ s_pbest_pos s = s_position s.
Proof.
  unfold make_swarm. intros c dr s K B H. rewrite K in H. destruct (create_swarm_inv _ _ _ _ _ _ _ _ _ _ _ H) as (_ & _ & Q & G).
  split; auto. unfold generate_discrete_swarm in G. destruct (c_init c) as [p|] eqn:I.
  - destruct (Nat.leb _ 2); [|discriminate]. injection G as <-. apply B. exact I.
  - injection G as <-. intros i j x X. destruct (entry_row _ _ _ _ X) as (r & R & Xj).
    apply nth_map_inv in R. destruct R as (ui & _ & ->). apply nth_map_inv in Xj. destruct Xj as ([] & _ & ->); [right|left]; vm_compute; reflexivity.
Qed.
Lemma bits_reachable : forall c o, c_kind c = Binary -> bits_start c -> Reachable c o -> AllBits o.
Proof.
  intros c o K B R. induction R as [top dr o H|dr o0 o R IH H|e pool iters o0 o r R IH H].
  - destruct (construct_inv _ _ _ _ H) as (s & MS & -> & _). destruct (bits_make c dr s K B MS) as [P Q].
    constructor; cbn; auto. rewrite Q. auto.
  - destruct (reset_inv _ _ _ _ H) as (s & MS & ->). destruct (bits_make c dr s K B MS) as [P Q].
    constructor; cbn; auto. rewrite Q. auto.
  - eapply bits_optimize; eauto.
Qed.
(** C42 *)
Lemma binary_session : forall c o, c_kind c = Binary -> (forall p, c_init c = Some p -> bits01 p) -> Reachable c o ->
  bits01 (s_position (o_swarm o)) /\ bits01 (s_pbest_pos (o_swarm o)) /\ Forall bits01 (o_pos_history o).
Proof. intros c o K B R. destruct (bits_reachable c o K B R). auto. Qed.
Lemma binary_returned : forall c e pool iters o o' cost pos, c_kind c = Binary -> (forall p, c_init c = Some p -> bits01 p) -> Reachable c o ->
  optimize c e pool iters o = (o', Ok (cost, pos)) ->
  forall j x, nth_error pos j = Some x -> feq x fzero = true \/ feq x fone = true.
Proof.
  intros c e pool iters o o' cost pos K B R E. pose proof (bits_optimize _ _ _ _ _ _ _ K (bits_reachable c o K B R) E) as [_ A _].
  destruct (optimize_ok _ _ _ _ _ _ _ E) as (F & _). unfold final_result in F.
  destruct (negb (s_best_np (o_swarm o'))); [discriminate|]. apply bind_Ok in F. destruct F as (j & J & F).
  apply bind_Ok in F. destruct F as (p & P & F). injection F as _ ->.
  destruct (nth_error (s_pbest_pos (o_swarm o')) j) as [p'|] eqn:PJ; [|discriminate]. injection P as ->.
  eapply bits01_row; eauto.
Qed.

(** *** The sigmoid *)
Lemma fopp_key : forall x, fkey (fopp x) = (- fkey x)%R.
Proof. intros x. pose proof (fopp_R x) as H. destruct x as [s|[]| |s m e E]; try exact H; unfold fopp; cbn [fkey Bopp negb]; lra. Qed.
Lemma fopp_nan : forall x, fisnan (fopp x) = fisnan x.
Proof. intros [s|[]| |s m e E]; reflexivity. Qed.
Lemma fopp_le : forall a b, fle a b = true -> fle (fopp b) (fopp a) = true.
Proof.
  intros a b H. apply fle_spec in H. destruct H as (A & B & H). apply fle_spec. rewrite !fopp_nan, !fopp_key. repeat split; auto. lra.
Qed.
Lemma nonneg_cases : forall z, fle fzero z = true -> z = finf \/ (ffinite z = true /\ (0 <= FR z)%R).
Proof.
  intros z H. destruct z as [s|[]| |s m e E]; auto; try discriminate; right; split; auto.
  - cbn. lra.
  - apply (fle_fin fzero) in H; auto.
Qed.
Lemma one_plus_mono : forall a b, fle fzero a = true -> fle a b = true -> fle fone (fadd fone a) = true /\ fle (fadd fone a) (fadd fone b) = true.
Proof.
  intros a b Z H. assert (Z' : fle fzero b = true) by forder.
  assert (F1 : ffinite fone = true) by reflexivity.
  assert (I : fadd fone finf = finf) by reflexivity.
  destruct (nonneg_cases a Z) as [->|[Fa Pa]].
  - rewrite I. split; [reflexivity|]. destruct (nonneg_cases b Z') as [->|[Fb Pb]]; [rewrite I; reflexivity|].
    exfalso. destruct b; discriminate.
  - pose proof (fadd_round _ _ F1 Fa) as Ra. split; [apply (is_round_le_l _ _ _ Ra F1); lra|].
    destruct (nonneg_cases b Z') as [->|[Fb Pb]].
    + rewrite I. apply fle_finf. eapply is_round_notnan; eauto.
    + apply (is_round_mono _ _ _ _ Ra (fadd_round _ _ F1 Fb)). apply (fle_fin a b Fa Fb) in H. lra.
Qed.
Lemma one_over_mono : forall a b, fle fone a = true -> fle a b = true -> fle (fdiv fone b) (fdiv fone a) = true.
Proof.
  intros a b Z H. assert (Z0 : fle fzero a = true). { assert (fle fzero fone = true) by reflexivity. forder. }
  assert (Z' : fle fzero b = true) by forder. assert (Z1 : fle fone b = true) by forder.
  assert (F1 : ffinite fone = true) by reflexivity.
  assert (I : fdiv fone finf = fzero) by reflexivity.
  assert (NZ : forall x, ffinite x = true -> fle fone x = true -> (1 <= FR x)%R).
  { intros x Fx L. apply (fle_fin fone x F1 Fx) in L. rewrite fone_R in L. exact L. }
  destruct (nonneg_cases a Z0) as [->|[Fa Pa]].
  - destruct (nonneg_cases b Z') as [->|[Fb Pb]]; [rewrite I; reflexivity|]. exfalso. destruct b; discriminate.
  - pose proof (NZ a Fa Z) as A1. pose proof (fdiv_round fone a F1 Fa ltac:(lra)) as Ra. rewrite fone_R in Ra.
    destruct (nonneg_cases b Z') as [->|[Fb Pb]].
    + rewrite I. apply (is_round_le_l _ _ fzero Ra eq_refl). cbn. unfold Rdiv. rewrite Rmult_1_l. left. apply Rinv_0_lt_compat. lra.
    + pose proof (NZ b Fb Z1) as B1. pose proof (fdiv_round fone b F1 Fb ltac:(lra)) as Rb. rewrite fone_R in Rb.
      apply (is_round_mono _ _ _ _ Rb Ra). apply (fle_fin a b Fa Fb) in H. unfold Rdiv. rewrite !Rmult_1_l. apply Rinv_le_contravar; lra.
Qed.
Lemma sigmoid_mono : forall ex v v', exp_like ex -> fle v v' = true ->
  fle (fdiv fone (fadd fone (ex (fopp v)))) (fdiv fone (fadd fone (ex (fopp v')))) = true.
Proof.
  intros ex v v' [P M] H. pose proof (fopp_le _ _ H) as H'. pose proof (M _ _ H') as L.
  assert (Z : fle fzero (ex (fopp v')) = true). { apply P. rewrite fopp_nan. apply fle_spec in H. tauto. }
  destruct (one_plus_mono _ _ Z L) as [A B]. apply one_over_mono; auto.
Qed.
(** C43 at binary64: a larger velocity can only turn the bit on *)
Lemma binary_monotone : forall ex u vel vel' p p', exp_like ex -> binary_position ex u vel = Ok p -> binary_position ex u vel' = Ok p' ->
  forall i j v v' x x', entry vel i j = Some v -> entry vel' i j = Some v' -> fle v v' = true ->
    entry p i j = Some x -> entry p' i j = Some x' -> feq x fone = true -> feq x' fone = true.
Proof.
  intros ex u vel vel' p p' EX H H' i j v v' x x' V V' L X X' B.
  destruct (binary_entry _ _ _ _ H _ _ _ X) as (v1 & w1 & A1 & B1 & E1).
  destruct (binary_entry _ _ _ _ H' _ _ _ X') as (v2 & w2 & A2 & B2 & E2).
  pose proof (eq_trans (eq_sym A1) V) as Q1. injection Q1 as ->. pose proof (eq_trans (eq_sym A2) V') as Q2. injection Q2 as ->.
  pose proof (eq_trans (eq_sym B1) B2) as Q3. injection Q3 as ->.
  pose proof (sigmoid_mono ex v v' EX L) as SM. destruct (flt w2 (fdiv fone (fadd fone (ex (fopp v))))) eqn:F.
  - assert (G : flt w2 (fdiv fone (fadd fone (ex (fopp v')))) = true) by forder. rewrite G in E2. rewrite E2. reflexivity.
  - rewrite E1 in B. discriminate.
Qed.
(** C43 over the reals *)
Lemma sigmoid_real : forall x y : R, (0 < sigmoid (N := Rnum) exp x < 1)%R /\
  ((x < y)%R -> (sigmoid (N := Rnum) exp x < sigmoid (N := Rnum) exp y)%R).
Proof.
  intros x y. assert (D : forall z : R, @sigmoid Rnum exp z = (/ (1 + exp (- z)))%R).
  { intros z. unfold sigmoid. cbn. unfold Rdiv. rewrite Rmult_1_l. reflexivity. }
  rewrite !D. pose proof (exp_pos (- x)) as Px. pose proof (exp_pos (- y)) as Py. repeat split.
  - apply Rinv_0_lt_compat. lra.
  - rewrite <- Rinv_1. apply Rinv_lt_contravar; lra.
  - intros L. apply Rinv_lt_contravar. { apply Rmult_lt_0_compat; lra. } pose proof (exp_increasing (- y) (- x)). lra.
Qed.
