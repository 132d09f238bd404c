(** Personal bests: [compute_pbest] and the loop invariant about evaluations. *)
From Coq Require Import String ZArith List Arith Bool Lia.
From Verif Require Import Prelude ListFacts F64 F64Facts Num Np NpFacts Handlers Swarms Operators
  Generators Topology Optimizers Spec RunFacts.
Import ListNotations.

Lemma compute_pbest_lengths : forall (s : fswarm) pp pc, compute_pbest s = Ok (pp, pc) ->
  length (s_current_cost s) = length (s_pbest_cost s) /\
  length (s_position s) = length (s_pbest_cost s) /\
  same_shape (s_position s) (s_pbest_pos s) = true /\
  length pc = length (s_pbest_cost s) /\ length pp = length (s_pbest_cost s).
Proof.
  intros s pp pc H. unfold compute_pbest in H.
  destruct (Nat.eqb_spec (length (s_current_cost s)) (length (s_pbest_cost s))) as [E|E]; try discriminate.
  cbn [negb] in H. rewrite map2_length, E, Nat.min_id in H.
  destruct (Nat.eqb_spec (length (s_pbest_cost s)) (length (s_position s))) as [E'|E']; try discriminate.
  destruct (same_shape (s_position s) (s_pbest_pos s)) eqn:S; try discriminate.
  injection H as <- <-. rewrite !map3_length, map2_length. apply same_shape_length in S.
  repeat split; flia.
Qed.

Lemma compute_pbest_nth : forall (s : fswarm) pp pc a new old xnew xold,
  compute_pbest s = Ok (pp, pc) ->
  nth_error (s_current_cost s) a = Some new -> nth_error (s_pbest_cost s) a = Some old ->
  nth_error (s_position s) a = Some xnew -> nth_error (s_pbest_pos s) a = Some xold ->
  nth_error pp a = Some (if flt new old then xnew else xold) /\
  nth_error pc a = Some (if flt new old then new else old).
Proof.
  intros s pp pc a new old xnew xold H E1 E2 E3 E4. unfold compute_pbest in H.
  destruct (negb (length (s_current_cost s) =? length (s_pbest_cost s))); try discriminate.
  destruct (negb _); try discriminate. injection H as <- <-.
  ftypes. rewrite !nth_error_map3, !nth_error_map2. cbn [nlt F64num] in *. rewrite E1, E2, E3, E4. simpl.
  destruct (flt new old); auto.
Qed.

Lemma compute_pbest_total : forall (s : fswarm) n d,
  length (s_current_cost s) = n -> length (s_pbest_cost s) = n ->
  is_matrix n d (s_position s) -> is_matrix n d (s_pbest_pos s) ->
  exists pp pc, compute_pbest s = Ok (pp, pc).
Proof.
  intros s n d H1 H2 H3 H4. unfold compute_pbest.
  rewrite H1, H2, Nat.eqb_refl, map2_length, H1, H2, Nat.min_id.
  rewrite (is_matrix_same_shape n d _ _ H3 H4). destruct H3 as [H3 _]. rewrite H3, Nat.eqb_refl.
  simpl. eauto.
Qed.

(** *** Scores *)
Lemma compute_objective_scores : forall pool f X cs, pool <> Some 0 ->
  compute_objective_function (N := F64num) pool f X = Ok cs -> scores f pool X cs.
Proof.
  intros [k|] f X cs NP H; simpl in *; auto.
  apply bind_Ok in H. destruct H as (rs & E & H). injection H as <-.
  exists (array_split X k), rs. repeat split.
  - apply array_split_concat. congruence.
  - apply mapM_Ok; auto.
Qed.

(** *** Extending a log by one iteration *)
Lemma nth_error_snoc : forall {A} (l : list A) x i y, nth_error (l ++ [x]) i = Some y ->
  nth_error l i = Some y \/ (i = length l /\ y = x).
Proof.
  intros A l x i y H. destruct (Nat.lt_ge_cases i (length l)).
  - rewrite nth_error_app1 in H; auto.
  - rewrite nth_error_app2 in H by auto. destruct (i - length l) as [|[|]] eqn:E; simpl in H; try discriminate.
    right. split; [flia|congruence].
Qed.
Lemma nth_error_snoc_last : forall {A} (l : list A) x, nth_error (l ++ [x]) (length l) = Some x.
Proof. intros. rewrite nth_error_app2, Nat.sub_diag by auto. reflexivity. Qed.
Lemma nth_error_snoc_old : forall {A} (l : list A) x i y, nth_error l i = Some y -> nth_error (l ++ [x]) i = Some y.
Proof. intros. rewrite nth_error_app1; auto. eapply nth_error_lt; eauto. Qed.

Lemma logged_snoc : forall e pool h C X cs, logged e pool h C -> scores (e_obj e (length h)) pool X cs ->
  logged e pool (h ++ [X]) (C ++ [cs]).
Proof.
  intros e pool h C X cs [L H] S. split.
  - rewrite !app_length. simpl. flia.
  - intros t X' cs' E1 E2. apply nth_error_snoc in E1, E2.
    destruct E1 as [E1|[E1 ->]], E2 as [E2|[E2 ->]]; eauto.
    + apply nth_error_lt in E1. flia.
    + apply nth_error_lt in E2. flia.
    + subst t. auto.
Qed.

Lemma evaluated_snoc : forall h C X cs a t x v, length C = length h ->
  (evaluated (h ++ [X]) (C ++ [cs]) a t x v <->
   evaluated h C a t x v \/ (t = length h /\ nth_error X a = Some x /\ nth_error cs a = Some v)).
Proof.
  intros h C X cs a t x v L. split.
  - intros (X' & cs' & E1 & E2 & E3 & E4). apply nth_error_snoc in E1, E2.
    destruct E1 as [E1|[E1 ->]], E2 as [E2|[E2 ->]]; auto.
    + left. exists X', cs'. auto.
    + apply nth_error_lt in E1. flia.
    + apply nth_error_lt in E2. flia.
  - intros [(X' & cs' & E1 & E2 & E3 & E4)|(-> & E3 & E4)].
    + exists X', cs'. repeat split; auto using nth_error_snoc_old.
    + exists X, cs. repeat split; auto. apply nth_error_snoc_last. rewrite <- L. apply nth_error_snoc_last.
Qed.

Lemma evaluated_lt : forall h C a t x v, evaluated h C a t x v -> t < length h.
Proof. intros h C a t x v (X & cs & E & _). eapply nth_error_lt; eauto. Qed.

Lemma best_of_run_snoc : forall h C X cs a x0 x v xn vn, length C = length h ->
  best_of_run h C a x0 x v -> nth_error X a = Some xn -> nth_error cs a = Some vn ->
  best_of_run (h ++ [X]) (C ++ [cs]) a x0 (if flt vn v then xn else x) (if flt vn v then vn else v).
Proof.
  intros h C X cs a x0 x v xn vn L B EX EC.
  assert (SN := evaluated_snoc h C X cs a). 
  assert (NEW : forall y w, nth_error X a = Some y -> nth_error cs a = Some w -> y = xn /\ w = vn) by (split; congruence).
  destruct (flt vn v) eqn:F.
  - right. split.
    + destruct B as [(-> & _)|(B & _)]; auto. eapply flt_trans; eauto.
    + exists (length h). repeat split.
      * apply SN; auto.
      * intros t' y w H. apply SN in H; auto. destruct H as [H|(_ & H1 & H2)].
        -- destruct B as [(-> & _ & B)|(_ & t & _ & B & _)].
           ++ apply B in H. forder.
           ++ apply B in H. forder.
        -- destruct (NEW _ _ H1 H2) as [-> ->]. apply flt_irrefl.
      * intros t' y w Ht H. apply SN in H; auto. destruct H as [H|(H & _)]; [|flia].
        destruct (fisnan w) eqn:N; auto. left.
        destruct B as [(-> & _ & B)|(_ & t & _ & B & _)]; apply B in H; forder.
  - destruct B as [(-> & -> & B)|(B0 & t & B1 & B2 & B3)].
    + left. repeat split; auto. intros t y w H. apply SN in H; auto. destruct H as [H|(_ & H1 & H2)]; eauto.
      destruct (NEW _ _ H1 H2) as [-> ->]. auto.
    + right. split; auto. exists t. repeat split.
      * apply SN; auto.
      * intros t' y w H. apply SN in H; auto. destruct H as [H|(_ & H1 & H2)]; eauto.
        destruct (NEW _ _ H1 H2) as [-> ->]. auto.
      * intros t' y w Ht H. apply SN in H; auto. destruct H as [H|(H & _)]; eauto.
        apply evaluated_lt in B1. flia.
Qed.

Lemma best_of_run_notnan : forall h C a x0 x v, best_of_run h C a x0 x v -> fisnan v = false.
Proof. intros h C a x0 x v [(-> & _)|(H & _)]; [reflexivity|]. forder. Qed.

(** *** The invariant.  [o0] is the state at the start of the call. *)
Record PInv (c : config) (e : env) (pool : option nat) (o0 : ostate) (k : nat)
    (o : ostate) (h : list fmatrix) (C : list (list f64)) : Prop := {
  pi_len : length h = k;
  pi_hist : o_pos_history o = o_pos_history o0 ++ h;
  pi_log : logged e pool h C;
  pi_all : all_evaluated (c_n c) h C;
  pi_pc : length (s_pbest_cost (o_swarm o)) = c_n c;
  pi_pp : length (s_pbest_pos (o_swarm o)) = length (s_pbest_pos (o_swarm o0));
  pi_n : 0 < k -> length (s_pbest_pos (o_swarm o0)) = c_n c /\ Forall (fun X => length X = c_n c) h
                  /\ Forall (fun cs => length cs = c_n c) C;
  pi_best : forall a x0 x v, nth_error (s_pbest_pos (o_swarm o0)) a = Some x0 ->
     nth_error (s_pbest_pos (o_swarm o)) a = Some x -> nth_error (s_pbest_cost (o_swarm o)) a = Some v ->
     best_of_run h C a x0 x v
}.

Lemma PInv_start : forall c e pool o, PInv c e pool o 0 (started c o) [] [].
Proof.
  intros. destruct (started_facts c o) as (E1 & E2 & E3 & E4 & E5 & E6 & E7 & _).
  constructor; rewrite ?E5, ?E7; simpl; auto.
  - rewrite app_nil_r; auto.
  - split; auto. intros t X cs H. destruct t; discriminate.
  - intros t a H. simpl in H. flia.
  - apply repeat_length.
  - intros H. inversion H.
  - intros a x0 x v H1 H2 H3. left. apply nth_error_repeat_inv in H3. repeat split; auto.
    + congruence.
    + intros t y w (X & cs & H & _). destruct t; discriminate.
Qed.

Lemma PInv_eval : forall c e pool o0 k o h C o3 cost pp pc t bp bc np,
  pool <> Some 0 -> PInv c e pool o0 k o h C -> Evald c e pool k o o3 cost pp pc t bp bc np ->
  PInv c e pool o0 (S k) o3 (h ++ [s_position (o_swarm o)]) (C ++ [cost]).
Proof.
  intros c e pool o0 k o h C o3 cost pp pc t bp bc np NP I (E1 & E2 & E3 & ->).
  pose proof (compute_pbest_lengths _ _ _ E2) as (L1 & L2 & L3 & L4 & L5).
  pose proof (fun a new old xn xo => compute_pbest_nth _ _ _ a new old xn xo E2) as N.
  apply same_shape_length in L3. cbn in L1, L2, L3, L4, L5, N.
  destruct I as [I1 I2 I3 I4 I5 I6 I7 I8]. constructor; cbn.
  - rewrite app_length; simpl; flia.
  - rewrite I2, app_assoc. reflexivity.
  - apply logged_snoc; auto. rewrite I1. apply compute_objective_scores; auto.
  - intros t' a Ht Ha. rewrite app_length in Ht. simpl in Ht.
    destruct (Nat.eq_dec t' (length h)).
    + assert (Ha1 : a < length (s_position (o_swarm o))) by flia.
      assert (Ha2 : a < length cost) by flia.
      destruct (nth_error_ex _ _ Ha1) as [x Ex]. destruct (nth_error_ex _ _ Ha2) as [v Ev].
      exists x, v. apply evaluated_snoc; auto. apply I3.
    + destruct (I4 t' a) as (x & v & H); try flia. exists x, v. apply evaluated_snoc; auto. apply I3.
  - flia.
  - flia.
  - intros _. split; [flia|]. split.
    + apply Forall_app. split; [|constructor; auto; flia].
      destruct k; [destruct h; [constructor|discriminate]|]. apply I7. flia.
    + apply Forall_app. split; [|constructor; auto; flia].
      destruct k; [destruct I3; destruct h; [destruct C; [constructor|discriminate]|discriminate]|].
      apply I7. flia.
  - intros a x0 x v H0 Hx Hv.
    assert (Ha : a < length pc) by (eapply nth_error_lt; eauto).
    assert (A1 : a < length cost) by flia. assert (A2 : a < length (s_pbest_cost (o_swarm o))) by flia.
    assert (A3 : a < length (s_position (o_swarm o))) by flia.
    assert (A4 : a < length (s_pbest_pos (o_swarm o))) by flia.
    destruct (nth_error_ex _ _ A1) as [new F1]. destruct (nth_error_ex _ _ A2) as [old F2].
    destruct (nth_error_ex _ _ A3) as [xn F3]. destruct (nth_error_ex _ _ A4) as [xo F4].
    destruct (N _ _ _ _ _ F1 F2 F3 F4) as [G1 G2].
    rewrite G1 in Hx. rewrite G2 in Hv. injection Hx as <-. injection Hv as <-.
    apply best_of_run_snoc; auto. apply I3. 
Qed.

Lemma PInv_core : forall c e pool o0 k o o' h C, PInv c e pool o0 k o h C -> core_eq o o' ->
  PInv c e pool o0 k o' h C.
Proof.
  intros c e pool o0 k o o' h C [I1 I2 I3 I4 I5 I6 I7 I8] E. destruct E.
  constructor; rewrite ?ce_ph, ?ce_pp, ?ce_pc; auto.
Qed.

(** NaN-freeness is kept separately, because it also holds when the shapes disagree. *)
Lemma compute_pbest_nonan : forall (s : fswarm) pp pc, compute_pbest s = Ok (pp, pc) ->
  nonan (s_pbest_cost s) -> nonan pc.
Proof.
  intros s pp pc H N. pose proof (compute_pbest_lengths _ _ _ H) as (L1 & L2 & L3 & L4 & L5).
  apply same_shape_length in L3.
  apply Forall_forall. intros v Hv. apply In_nth_error in Hv. destruct Hv as [a Hv].
  assert (Ha : a < length pc) by (eapply nth_error_lt; eauto).
  assert (A1 : a < length (s_current_cost s)) by flia. assert (A2 : a < length (s_pbest_cost s)) by flia.
  assert (A3 : a < length (s_position s)) by flia.
  assert (A4 : a < length (s_pbest_pos s)) by flia.
  destruct (nth_error_ex _ _ A1) as [new F1]. destruct (nth_error_ex _ _ A2) as [old F2].
  destruct (nth_error_ex _ _ A3) as [xn F3]. destruct (nth_error_ex _ _ A4) as [xo F4].
  destruct (compute_pbest_nth _ _ _ _ _ _ _ _ H F1 F2 F3 F4) as [G1 G2].
  ftypes. rewrite G2 in Hv. injection Hv as <-. apply (nonan_nth _ _ _ N) in F2.
  destruct (flt new old) eqn:F; auto. forder.
Qed.

Lemma compute_pbest_decreases : forall (s : fswarm) pp pc a old v, compute_pbest s = Ok (pp, pc) ->
  nonan (s_pbest_cost s) ->
  nth_error (s_pbest_cost s) a = Some old -> nth_error pc a = Some v -> fle v old = true.
Proof.
  intros s pp pc a old v H N F2 Hv. pose proof (compute_pbest_lengths _ _ _ H) as (L1 & L2 & L3 & L4 & L5).
  apply same_shape_length in L3.
  assert (Ha : a < length pc) by (eapply nth_error_lt; eauto).
  assert (A1 : a < length (s_current_cost s)) by flia.
  assert (A3 : a < length (s_position s)) by flia.
  assert (A4 : a < length (s_pbest_pos s)) by flia.
  destruct (nth_error_ex _ _ A1) as [new F1].
  destruct (nth_error_ex _ _ A3) as [xn F3]. destruct (nth_error_ex _ _ A4) as [xo F4].
  destruct (compute_pbest_nth _ _ _ _ _ _ _ _ H F1 F2 F3 F4) as [G1 G2].
  ftypes. rewrite G2 in Hv. injection Hv as <-. pose proof (nonan_nth _ _ _ N F2).
  destruct (flt new old) eqn:F; forder.
Qed.
