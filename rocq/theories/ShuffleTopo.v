(** Neighbours and their bests under a renumbering of the particles (C76). *)
From Coq Require Import String ZArith List Arith Bool Lia Permutation.
From Verif Require Import Prelude ListFacts F64 F64Facts Num Np NpFacts Handlers Swarms Operators Generators Topology Optimizers Spec SpecLike SpecMirror SpecShuffle MirrorFacts Like HandlerFacts TopoGraphs ShuffleFacts.
Import ListNotations.
Local Open Scope string_scope.
Local Open Scope list_scope.
Local Open Scope nat_scope.

Lemma filter_perm : forall A (p : A -> bool) l l', Permutation l l' -> Permutation (filter p l) (filter p l').
Proof.
  intros A p l l' H. induction H as [|x l l' H IH|x y l|l l2 l3 H1 IH1 H2 IH2]; cbn; [constructor|destruct (p x); [constructor|]; exact IH| |eapply Permutation_trans; eassumption].
  destruct (p x), (p y); try apply Permutation_refl. apply perm_swap.
Qed.
Section T.
Variable order : list nat.
Hypothesis PO : Permutation (seq 0 (length order)) order.
Notation n := (length order).
Notation sh := (shuffled order).
Definition new (j : nat) : nat := nth j order j.
Lemma new_nth : forall j, j < n -> nth_error order j = Some (new j).
Proof. intros j L. unfold new. apply nth_error_nth'. exact L. Qed.
Lemma new_lt : forall j, j < n -> new j < n.
Proof. intros j L. apply (order_lt order PO). eapply nth_error_In. apply new_nth. exact L. Qed.
Lemma order_nodup : NoDup order.
Proof. eapply Permutation_NoDup; [exact PO|apply seq_NoDup]. Qed.
Lemma new_inj : forall i j, i < n -> j < n -> new i = new j -> i = j.
Proof. intros i j I J E. pose proof order_nodup as ND. rewrite NoDup_nth_error in ND. apply ND; [exact I|]. rewrite !new_nth by assumption. congruence. Qed.
Lemma new_onto : forall i, i < n -> exists j, j < n /\ new j = i.
Proof. intros i L. destruct (order_in order PO i L) as (k & K). pose proof (nth_error_lt _ _ _ K) as LK. exists k. split; [exact LK|]. rewrite (new_nth k LK) in K. congruence. Qed.
Lemma new_map : map new (seq 0 n) = order.
Proof. symmetry. unfold new. transitivity (map (fun i => nth i order 0) (seq 0 n)); [apply nth_seq_map|]. apply map_ext_in. intros i I. apply nth_indep. apply in_seq in I. lia. Qed.

(** *** The random graph *)
Lemma renumbered_in : forall row row' j, renumbered order row row' -> j < n -> (In j row' <-> In (new j) row).
Proof.
  intros row row' j [F P] J. split; intros I.
  - apply (Permutation_in _ (Permutation_sym P)). apply in_map_iff. exists j. split; [reflexivity|exact I].
  - apply (Permutation_in _ P) in I. apply in_map_iff in I. destruct I as (k & E & I). rewrite Forall_forall in F. replace j with k; [exact I|]. apply new_inj; auto.
Qed.
Lemma hood_row : forall rows rows' j, hoods_shuffled order rows rows' -> j < n -> exists r r', nth_error rows (new j) = Some r /\ nth_error rows' j = Some r' /\ renumbered order r r'.
Proof.
  intros rows rows' j (m & S & F) J. pose proof (sh_nth order _ _ _ _ _ S (new_nth j J)) as E. destruct (nth_error_ex m j) as (r & R); [rewrite (sh_len order _ _ _ S); exact J|].
  assert (X : exists r', nth_error rows' j = Some r' /\ renumbered order r r').
  { clear E S. revert j J R. induction F as [|a b m rows' AB F IH]; intros [|j] J R; cbn in *; try discriminate; [injection R as <-; eauto|]. apply (IH j); [lia|exact R]. }
  destruct X as (r' & X1 & X2). exists r, r'. repeat split; auto; try apply X2. congruence.
Qed.
Lemma drawn_sh : forall ch ch' i j, hoods_shuffled order ch ch' -> i < n -> j < n -> adj_drawn ch' i j = adj_drawn ch (new i) (new j).
Proof.
  intros ch ch' i j H I J. unfold adj_drawn, rowof. destruct (hood_row _ _ i H I) as (r & r' & R & R' & RR1). destruct (hood_row _ _ j H J) as (s & s' & S & S' & SS).
  rewrite (nth_error_nth _ _ [] R), (nth_error_nth _ _ [] R'), (nth_error_nth _ _ [] S), (nth_error_nth _ _ [] S'). apply bool_iff_eq. rewrite !orb_true_iff, !Nat.eqb_eq, !mem_In, (renumbered_in _ _ _ RR1 J), (renumbered_in _ _ _ SS I).
  assert (i = j <-> new i = new j) by (split; [congruence|apply new_inj; assumption]). tauto.
Qed.
Section G.
Variables adj adj' : nat -> nat -> bool.
Hypothesis HA : forall i j, i < n -> j < n -> adj' i j = adj (new i) (new j).
Lemma path_new : forall i j, i < n -> path n adj' i j -> path n adj (new i) (new j).
Proof.
  intros i j I P. induction P as [|j k P IH L E]; [constructor|]. pose proof (path_lt _ _ _ _ I P) as J. econstructor 2; [exact IH|apply new_lt; exact L|].
  rewrite <- !HA by assumption. exact E.
Qed.
Lemma path_old : forall i k, path n adj (new i) k -> i < n -> exists j, j < n /\ new j = k /\ path n adj' i j.
Proof.
  intros i k P I. remember (new i) as x eqn:X. induction P as [|j k P IH L E]; subst.
  - exists i. repeat split; [exact I|constructor].
  - destruct IH as (a & A & <- & PA). destruct (new_onto k L) as (b & B & <-). exists b. repeat split; [exact B|]. econstructor 2; [exact PA|exact B|]. rewrite !HA by assumption. exact E.
Qed.
Lemma path_sh : forall i j, i < n -> j < n -> (path n adj' i j <-> path n adj (new i) (new j)).
Proof. intros i j I J. split; [apply path_new; exact I|]. intros P. destruct (path_old _ _ P I) as (k & K & E & Q). apply new_inj in E; auto. subst. exact Q. Qed.
Lemma connected_sh : connected n adj' <-> connected n adj.
Proof.
  unfold connected. split; intros H i j I J.
  - destruct (new_onto i I) as (a & A & <-). destruct (new_onto j J) as (b & B & <-). apply path_sh; auto.
  - apply path_sh; auto using new_lt.
Qed.
Lemma joined_sh : forall i j, i < n -> j < n -> joined n adj' i j = joined n adj (new i) (new j).
Proof.
  intros i j I J. unfold joined. replace (reachable n adj' i j) with (reachable n adj (new i) (new j)); [rewrite HA by assumption; reflexivity|].
  apply bool_iff_eq. rewrite !reachable_path by auto using new_lt. symmetry. apply path_sh; assumption.
Qed.
End G.
Lemma rows_sh : forall adj adj', (forall i j, i < n -> j < n -> adj' i j = adj (new i) (new j)) -> hoods_shuffled order (random_rows n adj) (random_rows n adj').
Proof.
  intros adj adj' H. exists (map (fun i => filter (adj (new i)) (seq 0 n)) (seq 0 n)). unfold random_rows. split.
  - apply sh_intro; [exact PO|rewrite map_length, seq_length; reflexivity..|]. intros k i E. pose proof (nth_error_lt _ _ _ E) as K. rewrite (new_nth k K) in E. injection E as <-.
    rewrite !nth_error_map, !nth_error_nth' with (d := 0) by (rewrite seq_length; auto using new_lt). rewrite !seq_nth by auto using new_lt. reflexivity.
  - assert (G : forall l, (forall x, In x l -> x < n) -> Forall2 (renumbered order) (map (fun i => filter (adj (new i)) (seq 0 n)) l) (map (fun i => filter (adj' i) (seq 0 n)) l)).
    { induction l as [|i l IH]; intros L; cbn; constructor; [|apply IH; intros; apply L; right; assumption]. split.
      - apply Forall_forall. intros x I. apply filter_In in I. destruct I as [I _]. apply in_seq in I. lia.
      - transitivity (filter (adj (new i)) (map new (seq 0 n))); [rewrite new_map; apply filter_perm; exact PO|].
        change (map (fun j => nth j order j)) with (map new). apply Permutation_refl'. assert (B : forall l', (forall x, In x l' -> x < n) -> filter (adj (new i)) (map new l') = map new (filter (adj' i) l')).
          { induction l' as [|x l' IH']; intros M; [reflexivity|]. cbn. rewrite H; [|apply L; left; reflexivity|apply M; left; reflexivity]. destruct (adj (new i) (new x)); cbn; rewrite IH'; auto; intros; apply M; right; assumption. }
          apply B. intros x I. apply in_seq in I. lia. }
    apply G. intros x I. apply in_seq in I. lia.
Qed.
Lemma random_sh : forall k ch ch', hoods_shuffled order ch ch' -> RR (fun a a' => hoods_shuffled order (random_rows n a) (random_rows n a')) (random_adj 1 n k ch) (random_adj 1 n k ch').
Proof.
  intros k ch ch' H. pose proof (fun i j => drawn_sh ch ch' i j H) as HA.
  destruct (random_adj 1 n k ch) as [a|e] eqn:E, (random_adj 1 n k ch') as [a'|e'] eqn:E'.
  - cbn. apply random_adj_cases in E; [|lia]. apply random_adj_cases in E'; [|lia]. destruct E as [K E], E' as [_ E']. assert (N : 0 < n) by lia.
    assert (CC : components n (adj_drawn ch') = 1 <-> components n (adj_drawn ch) = 1) by (rewrite !components_connected by exact N; apply connected_sh; exact HA).
    destruct E as [(-> & E)|(-> & E)], E' as [(-> & E')|(-> & E')]; try (exfalso; tauto); apply rows_sh; [exact HA|]. apply joined_sh. exact HA.
  - exfalso. assert (K : (0 <= k <= Z.of_nat n - 1)%Z) by (apply random_adj_cases in E; [apply E|lia]). destruct (random_adj_total n k ch' K) as (a' & A). congruence.
  - exfalso. assert (K : (0 <= k <= Z.of_nat n - 1)%Z) by (apply random_adj_cases in E'; [apply E'|lia]). destruct (random_adj_total n k ch K) as (a & A). congruence.
  - cbn. destruct (Z_le_dec 0 k) as [K1|K1]; [destruct (Z_le_dec k (Z.of_nat n - 1)) as [K2|K2]|].
    + exfalso. destruct (random_adj_total n k ch (conj K1 K2)) as (a & A). congruence.
    + assert (Q : (k <? 0)%Z || (Z.of_nat n - 1 <? k)%Z = true) by (apply orb_true_iff; right; apply Z.ltb_lt; lia). unfold random_adj in E, E'. rewrite Q in E, E'. destruct (Nat.eqb n 0); congruence.
    + assert (Q : (k <? 0)%Z || (Z.of_nat n - 1 <? k)%Z = true) by (apply orb_true_iff; left; apply Z.ltb_lt; lia). unfold random_adj in E, E'. rewrite Q in E, E'. destruct (Nat.eqb n 0); congruence.
Qed.
Lemma complete_sh : hoods_shuffled order (repeat (seq 0 n) n) (repeat (seq 0 n) n).
Proof.
  exists (repeat (seq 0 n) n). split; [apply sh_repeat; exact PO|]. assert (R : renumbered order (seq 0 n) (seq 0 n)).
  { split; [apply Forall_forall; intros x I; apply in_seq in I; lia|]. change (map (fun j => nth j order j)) with (map new). rewrite new_map. exact PO. }
  generalize n at 2 4. intros m. induction m; cbn; constructor; assumption.
Qed.

(** *** Bests *)
(** Positions and costs of the personal bests in both runs, different positions having different costs. *)
Variables (P P' : fmatrix) (L L' : list f64).
Hypothesis HP : sh P P'.
Hypothesis HL : sh L L'.
Definition clear_best : Prop := nonan L /\ forall i j p q c d, nth_error P i = Some p -> nth_error P j = Some q -> nth_error L i = Some c -> nth_error L j = Some d -> feq c d = true -> p = q.
Definition twin (i i' : nat) : Prop := i < n /\ i' < n /\ nth_error P' i' = nth_error P i /\ exists c c', nth_error L i = Some c /\ nth_error L' i' = Some c' /\ same c c'.
Lemma pos_at : forall j, j < n -> nth_error P' j = nth_error P (new j).
Proof. intros j J. apply (sh_nth order); [exact HP|]. apply new_nth. exact J. Qed.
Lemma cost_at : forall j, j < n -> nth_error L' j = nth_error L (new j).
Proof. intros j J. apply (sh_nth order); [exact HL|]. apply new_nth. exact J. Qed.
Lemma nonan' : nonan L -> nonan L'.
Proof. intros NN. apply Forall_forall. intros x X. unfold nonan in NN. rewrite Forall_forall in NN. apply NN. eapply Permutation_in; [apply Permutation_sym; eapply sh_perm; eauto|exact X]. Qed.
Lemma feq_le : forall a b, fle a b = true -> fle b a = true -> feq a b = true.
Proof. intros a b A B. apply fle_spec in A. apply fle_spec in B. apply feq_spec. destruct A as (A1 & A2 & A3), B as (_ & _ & B3). repeat split; auto. Lra.lra. Qed.
Lemma twin_of : clear_best -> forall i i' c c', i < n -> i' < n -> nth_error L i = Some c -> nth_error L' i' = Some c' -> fle c c' = true -> fle c' c = true -> twin i i'.
Proof.
  intros [NN CB] i i' c c' I I' C C' H1 H2. pose proof (feq_le _ _ H1 H2) as EQ. split; [exact I|]. split; [exact I'|]. split; [|exists c, c'; repeat split; auto; left; exact EQ].
  rewrite (pos_at i' I'). rewrite (cost_at i' I') in C'. destruct HP as [LP _]. destruct (nth_error_ex P i) as (p & Ep); [lia|]. destruct (nth_error_ex P (new i')) as (q & Eq); [rewrite LP; apply new_lt; exact I'|].
  rewrite Ep, Eq. f_equal. symmetry. eapply (CB i (new i')); eauto.
Qed.
Lemma best_of_in : forall (C : list f64) row j, best_of C row = Ok j -> In j row /\ (nonan C -> exists c, nth_error C j = Some c /\ forall k d, In k row -> nth_error C k = Some d -> fle c d = true).
Proof.
  intros C row j H. unfold best_of in H. apply bind_Ok in H. destruct H as (cs & T & H). apply bind_Ok in H. destruct H as (a & A & H). apply of_option_Ok in H. split; [eapply nth_error_In; eauto|].
  intros NN. destruct (np_argmin_spec cs a (np_take_nonan _ _ _ NN T) A) as (x & X & M & _). apply np_take_Ok in T.
  assert (TT : forall i k, nth_error row i = Some k -> nth_error cs i = nth_error C k).
  { clear -T. induction T as [|k x row cs K T IH]; intros [|i] j E; cbn in *; try discriminate; [injection E as <-; congruence|auto]. }
  exists x. split; [rewrite <- (TT _ _ H); exact X|]. intros k d I D. apply In_nth_error in I. destruct I as (i & I). eapply M. rewrite (TT _ _ I). exact D.
Qed.
Lemma best_of_total : forall (C : list f64) row, row <> [] -> Forall (fun i => i < length C) row -> exists j, best_of C row = Ok j.
Proof.
  intros C row N F. destruct (np_take_ok C row F) as (cs & T). unfold best_of. rewrite T. cbn [bind]. assert (LC : length cs = length row) by (eapply mapM_length; exact T).
  destruct (np_argmin_ok cs) as (k & K); [destruct cs, row; cbn in LC; congruence|]. rewrite K. cbn [bind]. pose proof (np_argmin_lt _ _ K) as LK. destruct (nth_error_ex row k) as (j & J); [lia|]. rewrite J. cbn. eauto.
Qed.
Lemma best_of_sh : forall row row', renumbered order row row' -> RR (fun j j' => In j row /\ In j' row' /\ (clear_best -> twin j j')) (best_of L row) (best_of L' row').
Proof.
  intros row row' R. pose proof R as [F PM]. destruct row' as [|a row'].
  { cbn in PM. apply Permutation_sym, Permutation_nil in PM. subst. reflexivity. }
  assert (N : row <> []) by (intros ->; apply Permutation_nil in PM; discriminate).
  assert (F' : Forall (fun i => i < length L) row).
  { apply Forall_forall. intros x I. apply (Permutation_in _ PM) in I. apply in_map_iff in I. destruct I as (k & <- & I). rewrite Forall_forall in F. destruct HL as [-> _]. apply new_lt. auto. }
  assert (F2 : Forall (fun i => i < length L') (a :: row')) by (rewrite (sh_len order _ _ _ HL); exact F).
  destruct (best_of_total L row N F') as (j & J). destruct (best_of_total L' (a :: row')) as (j' & J'); [discriminate|exact F2|]. rewrite J, J'. cbn.
  apply best_of_in in J. apply best_of_in in J'. destruct J as [I M], J' as [I' M']. split; [exact I|]. split; [exact I'|]. intros CB. pose proof CB as [NN _].
  pose proof (nonan' NN) as NN'.
  destruct (M NN) as (c & C & MC). destruct (M' NN') as (c' & C' & MC'). rewrite Forall_forall in F, F'. destruct HL as [LL _].
  assert (Lj : j < n) by (rewrite <- LL; apply F'; exact I). assert (Lj' : j' < n) by (apply F; exact I').
  apply (twin_of CB j j' c c'); auto.
  - eapply MC; [|rewrite <- (cost_at j' Lj'); exact C']. apply (renumbered_in _ _ _ R Lj'). exact I'.
  - destruct (new_onto j Lj) as (k & K & E). eapply MC'; [|rewrite (cost_at k K), E; exact C]. apply (renumbered_in _ _ _ R K). rewrite E. exact I.
Qed.
Lemma bests_sh : forall rows rows', hoods_shuffled order rows rows' ->
  RR (fun bn bn' => length bn = n /\ length bn' = n /\ Forall (fun j => j < n) bn /\ Forall (fun j => j < n) bn' /\ (clear_best -> exists m, sh bn m /\ Forall2 twin m bn')) (mapM (best_of L) rows) (mapM (best_of L') rows').
Proof.
  intros rows rows' (m & S & F).
  assert (E1 : forall row row', renumbered order row row' -> forall e, best_of L row = Err e -> e = ValueError).
  { intros row row' R e H. pose proof (best_of_sh _ _ R) as B. rewrite H in B. destruct R as [F1 F2]. destruct row' as [|a row'].
    - cbn in F2. apply Permutation_sym, Permutation_nil in F2. subst. cbn in H. congruence.
    - destruct (best_of_total L' (a :: row')) as (j & J); [discriminate|rewrite (sh_len order _ _ _ HL); exact F1|]. rewrite J in B. contradiction. }
  assert (E2 : RR (fun bn bn' => Forall2 (fun j j' => j < n /\ j' < n /\ (clear_best -> twin j j')) bn bn') (mapM (best_of L) m) (mapM (best_of L') rows')).
  { clear S. induction F as [|r r' m rows' R F IH]; cbn [mapM]; [constructor|]. eapply RR_bind; [apply best_of_sh; exact R|]. intros j j' (J1 & J2 & J3).
    eapply RR_bind; [apply IH|]. intros x y XY. cbn. constructor; [|exact XY]. split; [|split; [|exact J3]].
    - destruct R as [F1 F2]. apply (Permutation_in _ F2) in J1. apply in_map_iff in J1. destruct J1 as (k & <- & K). rewrite Forall_forall in F1. apply new_lt. auto.
    - destruct R as [F1 _]. rewrite Forall_forall in F1. auto. }
  assert (RN : forall r, In r rows -> exists r', renumbered order r r').
  { intros r I. apply (Permutation_in _ (sh_perm order PO _ _ _ S)) in I. clear -F I. induction F as [|a b m rows' AB F IH]; [contradiction|]. destruct I as [->|I]; eauto. }
  destruct (mapM (best_of L) rows) as [bn|e] eqn:M.
  - apply mapM_Ok in M. destruct (sh_F2 order _ _ _ _ _ _ S M) as (bm & S2 & M2). apply mapM_Ok in M2. rewrite M2 in E2. destruct (mapM (best_of L') rows') as [bn'|e']; cbn in E2; [|contradiction]. cbn.
    split; [apply S2|]. split; [rewrite <- (Forall2_len _ _ _ E2); apply (sh_len order _ _ _ S2)|]. assert (FF : Forall (fun j => j < n) bm) by (clear -E2; induction E2; constructor; tauto).
    split; [apply Forall_forall; intros x X; rewrite Forall_forall in FF; apply FF; eapply Permutation_in; [eapply sh_perm; eauto|exact X]|]. split; [clear -E2; induction E2; constructor; tauto|].
    intros CB. exists bm. split; [exact S2|]. clear -E2 CB. induction E2; constructor; tauto.
  - destruct (mapM_err _ _ _ _ _ M) as (r & I & ER). destruct (RN r I) as (r' & R). pose proof (E1 _ _ R _ ER) as ->.
    destruct (mapM (best_of L) m) as [bm|e2] eqn:M2.
    + exfalso. apply mapM_Ok in M2. apply (Permutation_in _ (sh_perm order PO _ _ _ S)) in I. clear -M2 I ER. induction M2 as [|x y m bm X M2 IH]; [contradiction|]. destruct I as [->|I]; [congruence|auto].
    + destruct (mapM_err _ _ _ _ _ M2) as (s & I2 & ES). apply (Permutation_in _ (Permutation_sym (sh_perm order PO _ _ _ S))) in I2. destruct (RN s I2) as (s' & RS). pose proof (E1 _ _ RS _ ES) as ->.
      destruct (mapM (best_of L') rows'); cbn in E2; [contradiction|]. exact E2.
Qed.
Lemma min_same : forall (l l' : list f64) m m', nonan l -> nonan l' -> (forall x, In x l -> exists y, In y l' /\ same x y) -> (forall y, In y l' -> exists x, In x l /\ same x y) ->
  np_min (N := F64num) l = Ok m -> np_min (N := F64num) l' = Ok m' -> same m m'.
Proof.
  intros l l' m m' N N' H1 H2 E E'. destruct (np_min_spec _ _ N E) as (I & M & NM). destruct (np_min_spec _ _ N' E') as (I' & M' & NM'). left. apply feq_le.
  - destruct (H2 _ I') as (x & X & S). rewrite (le_same m m x m' (same_refl m) S). apply M. exact X.
  - destruct (H1 _ I) as (y & Y & S). rewrite (le_same m' m' y m (same_refl m') (same_sym _ _ S)). apply M'. exact Y.
Qed.
End T.
