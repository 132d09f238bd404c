(** Facts about the swarm generators. *)
From Coq Require Import String ZArith List Arith Bool Reals Lra Lia Permutation Sorted.
From Flocq Require Import Core IEEE754.BinarySingleNaN.
From Verif Require Import Prelude F64 F64Facts F64More Num Np Handlers Swarms Operators Generators Topology Optimizers
  Spec SpecHandlers ListFacts NpFacts ShapeFacts HandlerFacts BhFloat VelFacts.
Import ListNotations.
Local Open Scope list_scope.
Local Open Scope nat_scope.
#[local] Opaque fone fzero.

Lemma one_times : forall x, ffinite x = true -> ffinite (fmul fone x) = true /\ FR (fmul fone x) = FR x.
Proof.
  intros x F. pose proof (fmul_round fone x fone_fin F) as R. rewrite fone_R, Rmult_1_l in R.
  assert (F' : ffinite (fmul fone x) = true) by (apply (is_round_between _ _ x x R); auto; lra).
  split; auto. rewrite (is_round_finite_eq _ _ R F'). apply rnd_id.
Qed.
Lemma fzero_fin : ffinite fzero = true. Proof. reflexivity. Qed.
Lemma unit_width : feq (fsub fone fzero) fone = true.
Proof. vm_compute. reflexivity. Qed.
Lemma unit_width_fin : ffinite (fsub fone fzero) = true /\ FR (fsub fone fzero) = 1%R.
Proof.
  pose proof (fsub_round fone fzero fone_fin fzero_fin) as R. rewrite fone_R, fzero_R, Rminus_0_r in R.
  assert (F : ffinite (fsub fone fzero) = true) by (vm_compute; reflexivity). split; auto.
  rewrite (is_round_finite_eq _ _ R F), <- fone_R. apply rnd_id.
Qed.
Lemma scale_one : forall w x, ffinite w = true -> FR w = 1%R -> ffinite x = true -> ffinite (fmul w x) = true /\ FR (fmul w x) = FR x.
Proof.
  intros w x Fw W F. pose proof (fmul_round w x Fw F) as R. rewrite W, Rmult_1_l in R.
  assert (F' : ffinite (fmul w x) = true) by (apply (is_round_between _ _ x x R); auto; lra).
  split; auto. rewrite (is_round_finite_eq _ _ R F'). apply rnd_id.
Qed.
Lemma uniform01 : forall u, fle fzero u = true -> flt u fone = true -> feq (uniform fzero fone u) u = true.
Proof.
  intros u A B. destruct (unit_draw u A B) as [F U]. destruct unit_width_fin as [F1 W1]. unfold uniform.
  destruct (scale_one _ u F1 W1 F) as [F2 W2].
  pose proof (fadd_round fzero _ fzero_fin F2) as R. rewrite W2, fzero_R, Rplus_0_l in R.
  assert (F' : ffinite (fadd fzero (fmul (fsub fone fzero) u)) = true) by (apply (is_round_between _ _ u u R); auto; lra).
  apply feq_fin; auto. rewrite (is_round_finite_eq _ _ R F'). apply rnd_id.
Qed.
Lemma velocity01 : forall u, fle fzero u = true -> flt u fone = true -> feq (fadd (fmul (fsub fone fzero) u) fzero) u = true.
Proof.
  intros u A B. destruct (unit_draw u A B) as [F U]. destruct unit_width_fin as [F1 W1].
  destruct (scale_one _ u F1 W1 F) as [F2 W2]. destruct (zero_plus _ fzero F2 fzero_fin fzero_R) as [F3 W3].
  apply feq_fin; auto. congruence.
Qed.

Lemma map_is_matrix : forall (A B : Type) n d (f : list A -> list B) (m : list (list A)), is_matrix n d m ->
  (forall r, length r = d -> length (f r) = d) -> is_matrix n d (map f m).
Proof.
  intros A B n d f m [L F] H. split; [rewrite map_length; auto|]. rewrite Forall_map. eapply Forall_impl; [|exact F]. auto.
Qed.
Lemma map3_len : forall (A B C D : Type) (f : A -> B -> C -> D) a b c k, length a = k -> length b = k -> length c = k -> length (map3 f a b c) = k.
Proof. intros. rewrite map3_length. lia. Qed.
Lemma map4_len : forall (A B C D E : Type) (f : A -> B -> C -> D -> E) l a b c k, length l = k -> length a = k -> length b = k -> length c = k -> length (map4 f l a b c) = k.
Proof.
  intros A B C D E f l. induction l as [|x l IH]; intros [|y a] [|z b] [|w c] k; simpl; intros; try congruence; try lia.
  destruct k; [lia|]. f_equal. apply IH; lia.
Qed.

(** *** C25 *)
Lemma forallb_map2_true : forall (A B : Type) (f : A -> B -> bool) l m, (forall j x y, nth_error l j = Some x -> nth_error m j = Some y -> f x y = true) ->
  forallb (fun x => x) (map2 f l m) = true.
Proof.
  intros A B f. induction l as [|x l IH]; intros [|y m] H; simpl; auto.
  rewrite (H 0 x y eq_refl eq_refl). simpl. apply IH. intros j a b X Y. exact (H (S j) a b X Y).
Qed.
Lemma forallb_map2_inv : forall (A B : Type) (f : A -> B -> bool) l m, forallb (fun x => x) (map2 f l m) = true ->
  forall j x y, nth_error l j = Some x -> nth_error m j = Some y -> f x y = true.
Proof.
  intros A B f. induction l as [|a l IH]; intros [|b m] H j x y X Y; destruct j; simpl in *; try discriminate; apply andb_prop in H; destruct H as [H1 H2].
  - congruence.
  - eapply IH; eauto.
Qed.
Lemma repeat_nth : forall (A : Type) (a : A) n i, i < n -> nth_error (repeat a n) i = Some a.
Proof. intros A a. induction n; intros [|i] H; simpl; auto; try lia. apply IHn. lia. Qed.

Lemma generate_bounded : forall n d (b : bounds F64num) u, box_dim d b -> finite_box b ->
  (forall j l h, column b j l h -> ffinite (fsub h l) = true) -> unit_matrix n d u ->
  exists m, generate_swarm n d (Some b) (repeat fone d) None u = Ok m /\ is_matrix n d m /\ all_inside b m.
Proof.
  intros n d b u Bd FB W [M U]. unfold generate_swarm.
  rewrite repeat_length, Nat.eqb_refl. destruct Bd as [B1 B2]. unfold row in *. rewrite B1, B2, Nat.eqb_refl. cbn [andb negb].
  rewrite (forallb_map2_true _ _ (fun l h => ffinite (fsub h l))).
  2:{ intros j x y X Y. apply (W j x y). split; auto. }
  cbn [negb]. eexists. split; [reflexivity|]. split.
  { apply map_is_matrix; auto. intros r R. apply map4_len; auto. apply repeat_length. }
  intros i j x l h X C. destruct (entry_row _ _ _ _ X) as (r & R & Xj).
  rewrite nth_error_map in R. destruct (nth_error u i) as [ui|] eqn:Ui; [|discriminate]. injection R as <-.
  pose proof (is_matrix_nth _ _ _ _ _ M Ui) as Lu. destruct (nth_error_ex ui j) as [uj Uj].
  { apply nth_error_lt in Xj. rewrite (map4_len _ _ _ _ _ _ _ _ _ _ d) in Xj; auto; [lia|apply repeat_length]. }
  assert (J : j < d) by (apply nth_error_lt in Uj; lia).
  rewrite nth_error_map4, (repeat_nth _ _ _ _ J) in Xj. destruct C as [C1 C2]. ftypes. rewrite C1, C2, Uj in Xj. injection Xj as <-.
  destruct (FB j l h (conj C1 C2)) as (Fl & Fh & L). destruct (U i j uj (entry_of _ _ _ _ _ Ui Uj)) as [A1 A2].
  destruct (unit_draw uj A1 A2) as [Fu UU]. destruct (draw_in_r l h uj) as [P1 P2]; auto. { apply (W j l h (conj C1 C2)). }
  assert (Fd : ffinite (uniform l h uj) = true) by (apply (fle_between l _ h); auto).
  destruct (one_times _ Fd) as [F1 E1]. fold (uniform l h uj) in P1, P2.
  split; (apply fle_fin; [auto|auto|]); rewrite E1; apply fle_fin; auto.
Qed.
Lemma generate_overflow : forall n d (b : bounds F64num) center u j l h, box_dim d b -> length center = d -> column b j l h ->
  ffinite (fsub h l) = false -> generate_swarm n d (Some b) center None u = Err OverflowError.
Proof.
  intros n d b center u j l h [B1 B2] Lc [C1 C2] F. unfold generate_swarm, row in *. rewrite B1, B2, Lc, Nat.eqb_refl. cbn [andb negb].
  destruct (forallb (fun x => x) (map2 (fun l h : f64 => ffinite (fsub h l)) (b_lb b) (b_ub b))) eqn:E; auto.
  exfalso. pose proof (forallb_map2_inv _ _ (fun l h : f64 => ffinite (fsub h l)) _ _ E j l h C1 C2). cbn in H. congruence.
Qed.
Lemma generate_unbounded : forall n d center u, length center = d -> unit_matrix n d u ->
  exists m, generate_swarm n d None center None u = Ok m /\ is_matrix n d m /\
    forall i j x c, entry m i j = Some x -> nth_error center j = Some c ->
      exists w, x = fmul c w /\ fle fzero w = true /\ flt w fone = true.
Proof.
  intros n d center u Lc [M U]. unfold generate_swarm, row in *. rewrite Lc, Nat.eqb_refl. cbn [negb].
  eexists. split; [reflexivity|]. split.
  { apply map_is_matrix; auto. intros r R. rewrite map2_length. ftypes. lia. }
  intros i j x c X C. destruct (entry_row _ _ _ _ X) as (r & R & Xj).
  rewrite nth_error_map in R. destruct (nth_error u i) as [ui|] eqn:Ui; [|discriminate]. injection R as <-.
  apply nth_map2_inv in Xj. destruct Xj as (c' & uj & C' & Uj & ->).
  pose proof (eq_trans (eq_sym C) C') as Q. injection Q as <-.
  exists (uniform fzero fone uj). split; auto. destruct (U i j uj (entry_of _ _ _ _ _ Ui Uj)) as [A1 A2].
  pose proof (uniform01 uj A1 A2). split; forder.
Qed.
Lemma generate_init : forall n d (b : bounds F64num) center p u, box_dim d b -> is_matrix n d p ->
  (all_inside b p -> generate_swarm n d (Some b) center (Some p) u = Ok p) /\
  (~ all_inside b p -> generate_swarm n d (Some b) center (Some p) u = Err ValueError) /\
  generate_swarm n d None center (Some p) u = Ok p.
Proof.
  intros n d b center p u Bd M. pose proof (fit_box n d b p M Bd) as Fi. unfold generate_swarm.
  assert (K : all_within b p = true <-> all_inside b p).
  { unfold all_within. rewrite andb_true_iff, !forallb_forall. split.
    - intros [A B] i j x l h X [C1 C2]. destruct (entry_row _ _ _ _ X) as (r & R & Xj). pose proof (nth_error_In _ _ R) as I. split.
      + exact (forallb_map2_inv _ _ fle _ _ (A r I) j l x C1 Xj).
      + exact (forallb_map2_inv _ _ fle _ _ (B r I) j x h Xj C2).
    - intros H. split; intros r I; apply In_nth_error in I; destruct I as [i R]; apply forallb_map2_true; intros j x y X Y.
      + destruct (column_ex d b j Bd) as (l & h & C). { apply nth_error_lt in X. destruct Bd. ftypes. lia. }
        pose proof (eq_trans (eq_sym X) (proj1 C)) as Q. injection Q as ->. exact (proj1 (H i j y l h (entry_of _ _ _ _ _ R Y) C)).
      + destruct (column_ex d b j Bd) as (l & h & C). { apply nth_error_lt in Y. destruct Bd. ftypes. lia. }
        pose proof (eq_trans (eq_sym Y) (proj2 C)) as Q. injection Q as ->. exact (proj2 (H i j x l h (entry_of _ _ _ _ _ R X) C)). }
  rewrite Fi. cbn [negb]. split; [|split].
  - intros H. rewrite (proj2 K H). reflexivity.
  - intros H. destruct (all_within b p); auto. exfalso. apply H, K. reflexivity.
  - reflexivity.
Qed.

(** *** C26 *)
Lemma generate_velocity_clamped : forall n d (c : clamp_t F64num) u, length (fst c) = d -> length (snd c) = d -> unit_matrix n d u ->
  (forall j a b, clamp_column c j a b -> ffinite a = true /\ ffinite b = true /\ fle a b = true /\ ffinite (fsub b a) = true) ->
  exists m, generate_velocity d (Some c) u = Ok m /\ is_matrix n d m /\ all_in_clamp c m.
Proof.
  intros n d [mn mx] u L1 L2 [M U] H. cbn [fst snd] in *. unfold generate_velocity, row in *. rewrite L1, L2, Nat.eqb_refl. cbn [andb negb].
  eexists. split; [reflexivity|]. split.
  { apply map_is_matrix; auto. intros r R. apply map3_len; auto. }
  intros i j x a b X C. destruct (entry_row _ _ _ _ X) as (r & R & Xj).
  rewrite nth_error_map in R. destruct (nth_error u i) as [ui|] eqn:Ui; [|discriminate]. injection R as <-.
  pose proof (is_matrix_nth _ _ _ _ _ M Ui) as Lu. rewrite nth_error_map3 in Xj. pose proof C as [C1 C2]. cbn [fst snd] in C1, C2.
  ftypes. rewrite C1, C2 in Xj. destruct (nth_error ui j) as [uj|] eqn:Uj; [|discriminate]. injection Xj as <-.
  destruct (U i j uj (entry_of _ _ _ _ _ Ui Uj)) as [A1 A2]. destruct (unit_draw uj A1 A2) as [Fu UU].
  destruct (H j a b C) as (Fa & Fb & L & W). apply draw_in_l; auto.
Qed.
Lemma generate_velocity_free : forall n d u, unit_matrix n d u ->
  exists m, generate_velocity d None u = Ok m /\ is_matrix n d m /\
    forall i j x, entry m i j = Some x -> fle fzero x = true /\ flt x fone = true.
Proof.
  intros n d u [M U]. unfold generate_velocity. rewrite !repeat_length, Nat.eqb_refl. cbn [andb negb].
  eexists. split; [reflexivity|]. split.
  { apply map_is_matrix; auto. intros r R. apply map3_len; auto; apply repeat_length. }
  intros i j x X. destruct (entry_row _ _ _ _ X) as (r & R & Xj).
  rewrite nth_error_map in R. destruct (nth_error u i) as [ui|] eqn:Ui; [|discriminate]. injection R as <-.
  pose proof (is_matrix_nth _ _ _ _ _ M Ui) as Lu.
  assert (J : j < d). { apply nth_error_lt in Xj. rewrite (map3_len _ _ _ _ _ _ _ _ d) in Xj; auto; apply repeat_length. }
  rewrite nth_error_map3, !(repeat_nth _ _ _ _ J) in Xj. destruct (nth_error ui j) as [uj|] eqn:Uj; [|discriminate]. injection Xj as <-.
  destruct (U i j uj (entry_of _ _ _ _ _ Ui Uj)) as [A1 A2]. pose proof (velocity01 uj A1 A2). split; forder.
Qed.

(** *** C27 *)
Lemma discrete_binary : forall n d bits u, is_matrix n d bits ->
  exists m, generate_discrete_swarm true None bits u = Ok m /\ is_matrix n d m /\ bits01 m.
Proof.
  intros n d bits u M. eexists. split; [reflexivity|]. split.
  { apply (map_is_matrix _ _ n d (map bit)); auto. intros r R. rewrite map_length. auto. }
  intros i j x X. destruct (entry_row _ _ _ _ X) as (r & R & Xj).
  rewrite nth_error_map in R. destruct (nth_error bits i) as [ui|]; [|discriminate]. injection R as <-.
  rewrite nth_error_map in Xj. destruct (nth_error ui j) as [uj|]; [|discriminate]. injection Xj as <-.
  destruct uj; [right|left]; vm_compute; reflexivity.
Qed.
Lemma insert_by_perm : forall key i l, Permutation (insert_by key i l) (i :: l).
Proof.
  intros key i. induction l as [|j l IH]; simpl; auto. destruct (flt (key i) (key j)); auto.
  eapply perm_trans; [apply perm_skip; exact IH|]. apply perm_swap.
Qed.
Lemma argsort_perm : forall r : frow, Permutation (argsort r) (seq 0 (length r)).
Proof.
  intros r. unfold argsort. set (key := fun j => nth j r fzero).
  assert (G : forall l acc, Permutation (fold_left (fun acc i => insert_by key i acc) l acc) (l ++ acc)).
  { induction l as [|i l IH]; intros acc; simpl; auto. eapply perm_trans; [apply IH|].
    eapply perm_trans; [apply Permutation_app_head, insert_by_perm|]. apply Permutation_sym, Permutation_middle. }
  eapply perm_trans; [apply G|]. rewrite app_nil_r. auto.
Qed.
Lemma insert_by_sorted : forall key i l, fisnan (key i) = false -> (forall j, In j l -> fisnan (key j) = false) ->
  StronglySorted (fun a b => flt (key b) (key a) = false) l -> StronglySorted (fun a b => flt (key b) (key a) = false) (insert_by key i l).
Proof.
  intros key i l NI N S. induction S as [|j l S IH F]; cbn; [repeat constructor|].
  assert (NJ : fisnan (key j) = false) by (apply N; left; reflexivity).
  destruct (flt (key i) (key j)) eqn:E.
  - constructor; [constructor; assumption|]. constructor; [forder|]. rewrite Forall_forall in *. intros k K. specialize (F k K).
    assert (fisnan (key k) = false) by (apply N; right; exact K). forder.
  - constructor; [apply IH; intros; apply N; right; assumption|]. apply Forall_forall. intros k K.
    apply (Permutation_in _ (insert_by_perm key i l)) in K. destruct K as [<-|K]; [exact E|]. rewrite Forall_forall in F. apply F; exact K.
Qed.
Lemma argsort_sorted : forall r : frow, no_nan r -> StronglySorted (fun a b => flt (nth b r fzero) (nth a r fzero) = false) (argsort r).
Proof.
  intros r N. unfold argsort. set (key := fun j => nth j r fzero).
  assert (NK : forall j, fisnan (key j) = false).
  { intros j. unfold key. destruct (nth_in_or_default j r fzero) as [I|E]; [apply N; exact I|rewrite E; reflexivity]. }
  assert (G : forall l acc, StronglySorted (fun a b => flt (key b) (key a) = false) acc ->
     StronglySorted (fun a b => flt (key b) (key a) = false) (fold_left (fun acc i => insert_by key i acc) l acc)).
  { induction l as [|i l IH]; intros acc S; cbn; auto. apply IH. apply insert_by_sorted; auto. }
  apply G. constructor.
Qed.
Lemma StronglySorted_nth : forall A (R : A -> A -> Prop) l, StronglySorted R l -> forall i j x y, i < j -> nth_error l i = Some x -> nth_error l j = Some y -> R x y.
Proof.
  intros A R l S. induction S as [|a l S IH F]; intros [|i] [|j] x y L X Y; cbn in *; try discriminate; try lia.
  - injection X as <-. rewrite Forall_forall in F. apply F. eapply nth_error_In; eauto.
  - apply (IH i j); auto. lia.
Qed.
Lemma nth_map_row : forall A B (f : A -> B) l i y, nth_error (map f l) i = Some y -> exists x, nth_error l i = Some x /\ y = f x.
Proof. intros A B f l. induction l as [|a l IH]; intros [|i] y H; cbn in *; try discriminate; [injection H as <-; eauto|auto]. Qed.
Lemma discrete_permutation : forall n d bits (u : fmatrix), is_matrix n d u ->
  exists m, generate_discrete_swarm false None bits u = Ok m /\ is_matrix n d m /\
    forall i r, nth_error m i = Some r -> exists ui p, nth_error u i = Some ui /\ Permutation p (seq 0 d) /\ r = map (fun i => fofZ (Z.of_nat i)) p /\
      (no_nan ui -> forall a b j k x y, a < b -> nth_error p a = Some j -> nth_error p b = Some k ->
         nth_error ui j = Some x -> nth_error ui k = Some y -> flt y x = false).
Proof.
  intros n d bits u M. eexists. split; [reflexivity|]. split.
  { apply (map_is_matrix _ _ n d (fun r => map (fun i => fofZ (Z.of_nat i)) (argsort r))); auto. intros r R.
    rewrite map_length, (Permutation_length (argsort_perm r)), seq_length. auto. }
  intros i r I. destruct (nth_map_row _ _ _ _ _ _ I) as (x & IU & ->). exists x, (argsort x). split; [exact IU|]. split.
  - pose proof (is_matrix_nth _ _ _ _ _ M IU) as L. unfold row in *. rewrite <- L. apply argsort_perm.
  - split; [reflexivity|]. intros N a b j k xj xk AB A B XJ XK.
    pose proof (StronglySorted_nth _ _ _ (argsort_sorted x N) _ _ _ _ AB A B) as Q. cbv beta in Q.
    pose proof (nth_error_nth _ _ fzero XJ) as EJ. pose proof (nth_error_nth _ _ fzero XK) as EK.
    refine (eq_trans _ Q). rewrite <- EJ, <- EK. reflexivity.
Qed.
Lemma uniq_keys : forall l, (forall x, In x l -> fisnan x = false) ->
  NoDup (map fkey (uniq l)) /\ (forall x, In x (uniq l) -> In x l) /\ (forall x, In x l -> exists y, In y (uniq l) /\ fkey x = fkey y).
Proof.
  induction l as [|x l IH]; intros N; simpl. { split; [constructor|]. split; [auto|]. intros x []. }
  destruct IH as (I1 & I2 & I3). { intros y Y. apply N. right; auto. }
  destruct (existsb (feq x) l) eqn:E.
  - split; auto. split. { intros y Y. right. apply I2; auto. }
    intros y [<-|Y]; [|apply I3; auto]. apply existsb_exists in E. destruct E as (z & Z & E).
    apply feq_spec in E. destruct (I3 z Z) as (w & W & K). exists w. split; auto. rewrite <- K. apply E.
  - split; [|split].
    + simpl. constructor; auto. intros I. apply in_map_iff in I. destruct I as (y & K & Y).
      assert (X : existsb (feq x) l = true); [|congruence]. apply existsb_exists. exists y. split; [apply I2; auto|].
      apply feq_spec. split; [apply N; left; auto|]. split; [apply N; right; apply I2; auto|auto].
    + intros y [<-|Y]; [left; auto|right; apply I2; auto].
    + intros y [<-|Y]; [exists x; split; [left|]; auto|]. destruct (I3 y Y) as (w & W & K). exists w. split; [right|]; auto.
Qed.
Lemma entry_concat : forall (A : Type) (m : list (list A)) x, In x (concat m) <-> exists i j, entry m i j = Some x.
Proof.
  intros A m x. rewrite in_concat. split.
  - intros (r & R & X). apply In_nth_error in R, X. destruct R as [i R], X as [j X]. exists i, j. eapply entry_of; eauto.
  - intros (i & j & E). destruct (entry_row _ _ _ _ E) as (r & R & X). exists r. split; eapply nth_error_In; eauto.
Qed.
Lemma uniq_two : forall p : fmatrix, (forall i j x, entry p i j = Some x -> fisnan x = false) -> (length (uniq (concat p)) <= 2 <-> two_valued p).
Proof.
  intros p N.
  assert (N' : forall x, In x (concat p) -> fisnan x = false).
  { intros x X. apply entry_concat in X. destruct X as (i & j & X). eapply N; eauto. }
  destruct (uniq_keys (concat p) N') as (U1 & U2 & U3).
  split.
    - intros L. destruct (uniq (concat p)) as [|a [|b [|c l]]] eqn:E; simpl in L; try lia.
      + exists fzero, fzero. intros i j x X. destruct (U3 x) as (y & [] & _). apply entry_concat; eauto.
      + exists a, a. intros i j x X. destruct (U3 x) as (y & [<-|[]] & KK). { apply entry_concat; eauto. }
        left. apply feq_spec. split; [eapply N; eauto|]. split; auto. apply N', U2. left; auto.
      + exists a, b. intros i j x X. destruct (U3 x) as (y & [<-|[<-|[]]] & KK). { apply entry_concat; eauto. }
        * left. apply feq_spec. split; [eapply N; eauto|]. split; auto. apply N', U2. left; auto.
        * right. apply feq_spec. split; [eapply N; eauto|]. split; auto. apply N', U2. right; left; auto.
    - intros (a & b & H). rewrite <- (map_length fkey). change 2 with (length [fkey a; fkey b]). apply NoDup_incl_length; auto.
      intros k I. apply in_map_iff in I. destruct I as (x & <- & X). apply U2, entry_concat in X. destruct X as (i & j & X).
      destruct (H i j x X) as [Q|Q]; apply feq_spec in Q; destruct Q as (_ & _ & Q); rewrite Q; simpl; auto.
Qed.
Lemma discrete_init : forall bits u (p : fmatrix), (forall i j x, entry p i j = Some x -> fisnan x = false) ->
  (two_valued p -> generate_discrete_swarm true (Some p) bits u = Ok p) /\
  (~ two_valued p -> generate_discrete_swarm true (Some p) bits u = Err ValueError) /\
  generate_discrete_swarm false (Some p) bits u = Ok p.
Proof.
  intros bits u p N.
  pose proof (uniq_two p N) as K.
  unfold generate_discrete_swarm. split; [|split]; auto; intros H.
  - apply K in H. apply Nat.leb_le in H. rewrite H. reflexivity.
  - destruct (Nat.leb (length (uniq (concat p))) 2) eqn:E; auto. apply Nat.leb_le, K in E. contradiction.
Qed.
