(** Reordering the dimensions reorders the run (C74). *)
From Coq Require Import String ZArith List Arith Bool Permutation Lia.
From Verif Require Import Prelude ListFacts F64 F64Facts Num Np NpFacts Handlers Swarms Operators Generators Topology Optimizers Spec SpecHandlers SpecLike SpecReorder Like HandlerFacts GenFacts RunFacts.
Import ListNotations.
Local Open Scope string_scope.
Local Open Scope list_scope.
Local Open Scope nat_scope.

Section R.
Variable order : list nat.
Hypothesis PO : Permutation order (seq 0 (length order)).
Notation re := (reordered order).
Notation co := (columns order).
Let d := length order.

Lemma order_lt : forall j k, nth_error order j = Some k -> k < d.
Proof. intros j k H. apply nth_error_In in H. apply (Permutation_in _ PO) in H. apply in_seq in H. unfold d. lia. Qed.
Lemma order_some : forall j, j < d -> exists k, nth_error order j = Some k.
Proof. intros j H. apply nth_error_ex. exact H. Qed.

(** *** Rows *)
Lemma re_map2 : forall A B C (f : A -> B -> C) a a' b b', re a a' -> re b b' -> re (map2 f a b) (map2 f a' b').
Proof.
  intros A B C f a a' b b' (A1 & A2 & A3) (B1 & B2 & B3). split; [|split].
  - rewrite map2_length, A1, B1. apply Nat.min_id.
  - rewrite map2_length, A2, B2. apply Nat.min_id.
  - intros j k H. rewrite !nth_error_map2, (A3 j k H), (B3 j k H). reflexivity.
Qed.
Lemma re_map3 : forall A B C D (f : A -> B -> C -> D) a a' b b' c c', re a a' -> re b b' -> re c c' -> re (map3 f a b c) (map3 f a' b' c').
Proof.
  intros A B C D f a a' b b' c c' (A1 & A2 & A3) (B1 & B2 & B3) (C1 & C2 & C3). split; [|split].
  - rewrite map3_length, A1, B1, C1. rewrite !Nat.min_id. reflexivity.
  - rewrite map3_length, A2, B2, C2. rewrite !Nat.min_id. reflexivity.
  - intros j k H. rewrite !nth_error_map3, (A3 j k H), (B3 j k H), (C3 j k H). reflexivity.
Qed.
Lemma re_map4 : forall A B C D E (f : A -> B -> C -> D -> E) a a' b b' c c' g g', re a a' -> re b b' -> re c c' -> re g g' -> re (map4 f a b c g) (map4 f a' b' c' g').
Proof.
  intros A B C D E f a a' b b' c c' g g' (A1 & A2 & A3) (B1 & B2 & B3) (C1 & C2 & C3) (G1 & G2 & G3). split; [|split].
  - rewrite map4_length, A1, B1, C1, G1. rewrite !Nat.min_id. reflexivity.
  - rewrite map4_length, A2, B2, C2, G2. rewrite !Nat.min_id. reflexivity.
  - intros j k H. rewrite !nth_error_map4, (A3 j k H), (B3 j k H), (C3 j k H), (G3 j k H). reflexivity.
Qed.
Lemma re_map : forall A B (f : A -> B) a a', re a a' -> re (map f a) (map f a').
Proof. intros A B f a a' (A1 & A2 & A3). split; [|split]; rewrite ?map_length; auto. intros j k H. rewrite !nth_error_map, (A3 j k H). reflexivity. Qed.
Lemma re_len : forall A B (a a' : list A) (b b' : list B), re a a' -> re b b' -> length a = length b /\ length a' = length b'.
Proof. intros A B a a' b b' (A1 & A2 & _) (B1 & B2 & _). split; congruence. Qed.
Lemma re_eqb : forall A B (a a' : list A) (b b' : list B), re a a' -> re b b' -> Nat.eqb (length a') (length b') = Nat.eqb (length a) (length b).
Proof. intros A B a a' b b' (A1 & A2 & _) (B1 & B2 & _). rewrite A1, A2, B1, B2. reflexivity. Qed.
Lemma re_in : forall A (a a' : list A) x, re a a' -> (In x a <-> In x a').
Proof.
  intros A a a' x (A1 & A2 & A3). split; intros H; apply In_nth_error in H; destruct H as [i H].
  - pose proof (nth_error_lt _ _ _ H) as L. rewrite A1 in L. assert (I : In i order). { apply (Permutation_in _ (Permutation_sym PO)), in_seq. lia. }
    apply In_nth_error in I. destruct I as [j J]. apply (nth_error_In a' j). rewrite (A3 j i J). exact H.
  - pose proof (nth_error_lt _ _ _ H) as L. rewrite A2 in L. destruct (order_some i L) as [k K]. apply (nth_error_In a k). rewrite <- (A3 i k K). exact H.
Qed.
Lemma re_existsb : forall A (f : A -> bool) a a', re a a' -> existsb f a' = existsb f a.
Proof.
  intros A f a a' H. apply eq_true_iff_eq. rewrite !existsb_exists. split; intros (x & X & F); exists x; (split; [apply (re_in _ _ _ x H); exact X|exact F]).
Qed.
Lemma re_forallb : forall A (f : A -> bool) a a', re a a' -> forallb f a' = forallb f a.
Proof.
  intros A f a a' H. apply eq_true_iff_eq. rewrite !forallb_forall. split; intros F x X; apply F, (re_in _ _ _ x H), X.
Qed.
Lemma re_velocity : forall c1 c2 w (u1 u1' u2 u2' x x' v v' p p' b b' : frow), re u1 u1' -> re u2 u2' -> re x x' -> re v v' -> re p p' -> re b b' ->
  re (velocity_row (N := F64num) c1 c2 w u1 u2 x v p b) (velocity_row (N := F64num) c1 c2 w u1' u2' x' v' p' b').
Proof.
  intros c1 c2 w u1 u1' u2 u2' x x' v v' p p' b b' H1 H2 H3 H4 H5 H6.
  assert (E : forall u1 u2 x v p b, velocity_row (N := F64num) c1 c2 w u1 u2 x v p b =
    map2 (fun f y => f y) (map4 (fun a1 a2 a3 a4 => fun y => velocity_el (N := F64num) c1 c2 w a1 a2 a3 a4 (fst y) (snd y)) u1 u2 x v) (map2 pair p b)).
  { clear. intros u1. induction u1 as [|a1 u1 IH]; intros [|a2 u2] [|a3 x] [|a4 v] [|a5 p] [|a6 b]; try reflexivity. cbn. f_equal. apply IH. }
  rewrite !E. apply re_map2; [apply re_map4; assumption|apply re_map2; assumption].
Qed.

(** *** Matrices *)
Lemma co_len : forall A (m m' : list (list A)), co m m' -> length m' = length m.
Proof. intros A m m' H. symmetry. eapply Forall2_len; eauto. Qed.
Lemma co_map : forall A B (f f' : list A -> list B) m m', (forall r r', re r r' -> re (f r) (f' r')) -> co m m' -> co (map f m) (map f' m').
Proof. intros A B f f' m m' H F. induction F as [|r r' m m' R F IH]; cbn; constructor; auto. Qed.
Lemma co_map2 : forall A B C (f f' : list A -> list B -> list C) m m' n n', (forall r r' s s', re r r' -> re s s' -> re (f r s) (f' r' s')) ->
  co m m' -> co n n' -> co (map2 f m n) (map2 f' m' n').
Proof. intros A B C f f' m m' n n' H F. revert n n'. induction F as [|r r' m m' R F IH]; intros n n' G; [constructor|]. destruct G; cbn; constructor; auto. apply IH. exact G. Qed.
Lemma co_velocity : forall c1 c2 w (u1 u1' u2 u2' x x' v v' p p' b b' : fmatrix), co u1 u1' -> co u2 u2' -> co x x' -> co v v' -> co p p' -> co b b' ->
  co (velocity_mat (N := F64num) c1 c2 w u1 u2 x v p b) (velocity_mat (N := F64num) c1 c2 w u1' u2' x' v' p' b').
Proof.
  intros c1 c2 w u1 u1' u2 u2' x x' v v' p p' b b' H1. revert u2 u2' x x' v v' p p' b b'. induction H1 as [|r r' m m' R F IH]; intros u2 u2' x x' v v' p p' b b' H2 H3 H4 H5 H6; [constructor|].
  destruct H2; [constructor|]. destruct H3; [constructor|]. destruct H4; [constructor|]. destruct H5; [constructor|]. destruct H6; [constructor|]. cbn. constructor; [apply re_velocity; assumption|apply IH; assumption].
Qed.
Lemma co_forallb : forall A (f f' : list A -> bool) m m', (forall r r', re r r' -> f' r' = f r) -> co m m' -> forallb f' m' = forallb f m.
Proof. intros A f f' m m' H F. induction F as [|r r' m m' R F IH]; [reflexivity|]. cbn. rewrite (H _ _ R), IH. reflexivity. Qed.
Lemma co_existsb : forall A (f f' : list A -> bool) m m', (forall r r', re r r' -> f' r' = f r) -> co m m' -> existsb f' m' = existsb f m.
Proof. intros A f f' m m' H F. induction F as [|r r' m m' R F IH]; [reflexivity|]. cbn. rewrite (H _ _ R), IH. reflexivity. Qed.
Lemma co_same_shape : forall A B (m m' : list (list A)) (n n' : list (list B)), co m m' -> co n n' -> same_shape m' n' = same_shape m n.
Proof.
  intros A B m m' n n' H G. unfold same_shape. rewrite (co_len _ _ _ H), (co_len _ _ _ G). f_equal. revert n n' G.
  induction H as [|r r' m m' R F IH]; intros n n' G; [reflexivity|]. destruct G as [|s s' n n' S G]; [reflexivity|]. cbn.
  rewrite (IH n n' G). destruct R as (R1 & R2 & _), S as (S1 & S2 & _). rewrite R1, R2, S1, S2. reflexivity.
Qed.
Lemma co_nth : forall A (m m' : list (list A)) i, co m m' -> match nth_error m i, nth_error m' i with Some r, Some r' => re r r' | None, None => True | _, _ => False end.
Proof. intros A m m' i H. revert i. induction H as [|r r' m m' R F IH]; intros [|i]; cbn; auto. apply IH. Qed.
Lemma co_mapM : forall A B (f f' : list A -> res (list B)) m m', (forall r r', re r r' -> RR re (f r) (f' r')) -> co m m' -> RR co (mapM f m) (mapM f' m').
Proof.
  intros A B f f' m m' H F. induction F as [|r r' m m' R F IH]; cbn [mapM]; [constructor|]. eapply RR_bind; [apply H; exact R|]. intros a b E.
  eapply RR_bind; [exact IH|]. intros x y G. cbn. constructor; assumption.
Qed.
Lemma co_repeat : forall A (v v' : list A) n, re v v' -> co (repeat v n) (repeat v' n).
Proof. intros A v v' n H. induction n; cbn; constructor; auto. Qed.

(** *** Boundary strategies *)
Notation bl := (bounds_like order).
Lemma low_re : forall (r r' : frow) b b', re r r' -> bl b b' -> row_lower r' b' = row_lower r b.
Proof. intros r r' b b' R (L & U & _). unfold row_lower. apply re_existsb, re_map2; assumption. Qed.
Lemma great_re : forall (r r' : frow) b b', re r r' -> bl b b' -> row_greater r' b' = row_greater r b.
Proof. intros r r' b b' R (L & U & _). unfold row_greater. apply re_existsb, re_map2; assumption. Qed.
Lemma any_out_co : forall (m m' : fmatrix) b b', co m m' -> bl b b' -> any_out m' b' = any_out m b.
Proof. intros m m' b b' M B. unfold any_out. apply co_existsb with (2 := M). intros r r' R. rewrite (low_re _ _ _ _ R B), (great_re _ _ _ _ R B). reflexivity. Qed.
Lemma fit_co : forall (m m' : fmatrix) b b', co m m' -> bl b b' -> bounds_fit m' b' = bounds_fit m b.
Proof.
  intros m m' b b' M B. unfold bounds_fit. destruct B as ((L1 & L2 & _) & (U1 & U2 & _) & _). rewrite L1, L2, U1, U2. f_equal.
  apply co_forallb with (2 := M). intros r r' (R1 & R2 & _). rewrite R1, R2. reflexivity.
Qed.
Lemma map3_co : forall (f : f64 -> f64 -> f64 -> f64) (m m' : fmatrix) b b', co m m' -> bl b b' ->
  co (map (fun r => map3 f r (b_lb b) (b_ub b)) m) (map (fun r => map3 f r (b_lb b') (b_ub b')) m').
Proof. intros f m m' b b' M (L & U & _). apply co_map with (2 := M). intros r r' R. apply re_map3; assumption. Qed.
Lemma reflective_co : forall fuel (m m' : fmatrix) b b', co m m' -> bl b b' -> RR co (reflective_loop (N := F64num) fuel b m) (reflective_loop (N := F64num) fuel b' m').
Proof.
  induction fuel as [|fuel IH]; intros m m' b b' M B; cbn [reflective_loop]; rewrite (any_out_co _ _ _ _ M B); destruct (any_out m b); cbn; auto.
  apply IH; [|exact B]. apply (map3_co (reflect_el (N := F64num))); assumption.
Qed.
Notation mems := (mems (reordered order)).
Lemma bh_co : forall s dr dr' mem mem' b b' (m m' : fmatrix), s <> "shrink" -> co m m' -> bl b b' -> maybe co mem mem' ->
  re (bd_greater dr) (bd_greater dr') -> re (bd_lower dr) (bd_lower dr') -> bd_fuel dr' = bd_fuel dr ->
  RR mems (bh_call (N := F64num) s dr mem b m) (bh_call (N := F64num) s dr' mem' b' m').
Proof.
  intros s dr dr' mem mem' b b' m m' NS M B ME G L FU. unfold bh_call. destruct (bh_known s); [|reflexivity]. cbn [negb].
  rewrite (fit_co _ _ _ _ M B). destruct (bounds_fit m b); [|reflexivity]. cbn [negb].
  destruct (s =? "nearest")%string. { cbn. split; [apply (map3_co (nearest_el (N := F64num))); assumption|exact ME]. }
  destruct (s =? "reflective")%string.
  { apply RR_bind with (P := co); [|intros; cbn; split; assumption]. unfold reflective. rewrite FU, (any_out_co _ _ _ _ M B).
    replace (b_arr b') with (b_arr b) by (destruct B as (_ & _ & E); symmetry; exact E).
    destruct (any_out m b && negb (b_arr b)); [reflexivity|]. apply reflective_co; assumption. }
  destruct (String.eqb_spec s "shrink") as [E|_]; [contradiction|].
  destruct (s =? "random")%string.
  { apply RR_bind with (P := co); [|intros; cbn; split; assumption]. unfold random_bh.
    replace (forallb (fun r => Nat.eqb (length r) (length (bd_greater dr')) && Nat.eqb (length r) (length (bd_lower dr'))) m')
      with (forallb (fun r => Nat.eqb (length r) (length (bd_greater dr)) && Nat.eqb (length r) (length (bd_lower dr))) m).
    2: { symmetry. apply co_forallb with (2 := M). intros r r' (R1 & R2 & _). destruct G as (G1 & G2 & _), L as (L1 & L2 & _). rewrite R1, R2, G1, G2, L1, L2. reflexivity. }
    destruct (forallb _ m); [|reflexivity]. cbn. apply co_map with (2 := M). intros r r' R. rewrite (low_re _ _ _ _ R B), (great_re _ _ _ _ R B).
    destruct B as (B1 & B2 & _). unfold resample. destruct (row_lower r b); [apply re_map3; assumption|]. destruct (row_greater r b); [apply re_map3; assumption|exact R]. }
  destruct (s =? "intermediate")%string.
  { apply RR_bind with (P := co); [|intros; cbn; split; assumption]. unfold intermediate. destruct mem as [mm|], mem' as [mm'|]; cbn in ME; try contradiction; [|cbn; exact M]. change (co mm mm') in ME.
    replace (b_arr b') with (b_arr b) by (destruct B as (_ & _ & E); symmetry; exact E). destruct (negb (b_arr b)); [reflexivity|].
    rewrite (co_same_shape _ _ _ _ _ _ M ME). destruct (same_shape m mm); [|reflexivity]. cbn. apply co_map2 with (2 := M) (3 := ME).
    intros r r' q q' R Q. destruct B as (B1 & B2 & _). apply re_map4; assumption. }
  cbn. split; [apply (map3_co (periodic_el (N := F64num))); assumption|exact ME].
Qed.

(** *** Velocity strategies *)
Notation cl := (clamp_like order).
Lemma clamp_co : forall c c' (m m' : fmatrix), maybe cl c c' -> co m m' -> RR co (maybe_clamp (N := F64num) c m) (maybe_clamp (N := F64num) c' m').
Proof.
  intros [[a b]|] [[a' b']|] m m' C M; cbn in C; try contradiction; [|exact M]. destruct C as [A B]. cbn in A, B. unfold maybe_clamp, apply_clamp.
  replace (clamp_fit m' (a', b')) with (clamp_fit m (a, b)).
  - destruct (clamp_fit m (a, b)); [|reflexivity]. cbn. apply co_map with (2 := M). intros r r' R. apply re_map3; assumption.
  - symmetry. unfold clamp_fit. apply co_forallb with (2 := M). intros r r' R. cbn [fst snd]. apply f_equal2; apply re_eqb; assumption.
Qed.
Lemma vh_co : forall s c c' mem mem' p p' b b' z (m m' : fmatrix), maybe cl c c' -> maybe co mem mem' -> co p p' -> maybe bl b b' -> co m m' ->
  RR mems (vh_call (N := F64num) s c mem (mkVk (Some p) (Some b) z) m) (vh_call (N := F64num) s c' mem' (mkVk (Some p') (Some b') z) m').
Proof.
  intros s c c' mem mem' p p' b b' z m m' C ME P B M. unfold vh_call. destruct (vh_known s); [|reflexivity]. cbn [negb].
  destruct (s =? "unmodified")%string. { apply RR_bind with (P := co); [apply clamp_co; assumption|intros; cbn; split; assumption]. }
  destruct (s =? "adjust")%string.
  { unfold vh_adjust. cbn [vk_position]. destruct mem as [mm|], mem' as [mm'|]; cbn in ME; try contradiction; [|cbn; split; assumption]. change (co mm mm') in ME.
    rewrite (co_same_shape _ _ _ _ _ _ P ME). destruct (same_shape p mm); [|reflexivity]. cbn [negb]. apply RR_bind with (P := co); [|intros; cbn; split; assumption].
    apply clamp_co; [exact C|]. apply co_map2 with (2 := P) (3 := ME). intros. apply re_map2; assumption. }
  assert (VG : RR (fun x y => co (fst x) (fst y) /\ bl (snd x) (snd y)) (vk_get (N := F64num) (mkVk (Some p) (Some b) z)) (vk_get (N := F64num) (mkVk (Some p') (Some b') z))).
  { unfold vk_get. cbn [vk_position vk_bounds]. destruct b as [b|], b' as [b'|]; cbn in B; try contradiction; [|reflexivity].
    rewrite (fit_co _ _ _ _ P B). destruct (bounds_fit p b); [|reflexivity]. cbn. split; assumption. }
  destruct (s =? "invert")%string.
  { apply RR_bind with (P := co); [|intros; cbn; split; assumption]. unfold vh_invert. eapply RR_bind; [exact VG|]. intros [q e] [q' e'] [Q E]. cbn [fst snd] in Q, E. change (co q q') in Q.
    rewrite (co_same_shape _ _ _ _ _ _ M Q). destruct (same_shape m q); [|reflexivity]. cbn [negb]. apply clamp_co; [exact C|]. apply co_map2 with (2 := Q) (3 := M).
    intros r r' v v' R V. unfold invert_row. rewrite (low_re _ _ _ _ R E), (great_re _ _ _ _ R E). destruct (row_lower r e), (row_greater r e); repeat apply re_map; assumption. }
  apply RR_bind with (P := co); [|intros; cbn; split; assumption]. unfold vh_zero. eapply RR_bind; [exact VG|]. intros [q e] [q' e'] [Q E]. cbn [fst snd] in Q, E. change (co q q') in Q.
  rewrite (co_same_shape _ _ _ _ _ _ M Q). destruct (same_shape m q); [|reflexivity]. cbn. apply co_map2 with (2 := Q) (3 := M).
  intros r r' v v' R V. unfold zero_row. rewrite (low_re _ _ _ _ R E), (great_re _ _ _ _ R E). destruct (row_lower r e || row_greater r e); [apply re_map|]; assumption.
Qed.

Notation swl := (swarm_like (length order) (reordered order)).
Notation stl := (state_like (length order) (reordered order)).
Ltac sw H := destruct H as (HX & HV & HN & HD & HD' & HO & HP & HB & HC & HBC & HNP & HCC).
Ltac st H := destruct H as (HS & HT & HBM & HVM & HH1 & HH2 & HH3 & HH4 & HH5).
(** *** Velocity and position *)
Lemma velocity_co : forall dr dr' vh vm vm' s s' c c' b b', swl s s' -> co (vd_u1 dr) (vd_u1 dr') -> co (vd_u2 dr) (vd_u2 dr') -> maybe co vm vm' -> maybe cl c c' -> maybe bl b b' ->
  RR mems (compute_velocity (N := F64num) dr vh vm s c b) (compute_velocity (N := F64num) dr' vh vm' s' c' b').
Proof.
  intros dr dr' vh vm vm' s s' c c' b b' H U1 U2 VM C B. sw H. unfold compute_velocity. rewrite HO.
  destruct (num_of (s_options s) "c1") as [c1|e]; cbn [bind]; [|reflexivity]. destruct (num_of (s_options s) "c2") as [c2|e]; cbn [bind]; [|reflexivity].
  destruct (num_of (s_options s) "w") as [w|e]; cbn [bind]; [|reflexivity].
  assert (BR : RR co (best_rows (N := F64num) (length (s_position s)) (s_d s) (s_best_pos s)) (best_rows (N := F64num) (length (s_position s')) (s_d s') (s_best_pos s'))).
  { rewrite (co_len _ _ _ HX), HD, HD'. destruct (s_best_pos s) as [|v|m], (s_best_pos s') as [|v'|m']; cbn in HB; try contradiction; unfold best_rows.
    - destruct (length order) as [|[|]] eqn:L; try reflexivity. cbn. apply co_repeat. split; [|split]; try (symmetry; exact L). intros [|j] [|k] J; reflexivity.
    - cbn. apply co_repeat. exact HB.
    - exact HB. }
  eapply RR_bind; [exact BR|]. intros bst bst' E. change (co (bst : fmatrix) (bst' : fmatrix)) in E.
  rewrite (co_same_shape _ _ _ _ _ _ HX HP), (co_same_shape _ _ _ _ _ _ HX E), (co_same_shape _ _ _ _ _ _ HX HV), (co_same_shape _ _ _ _ _ _ HX U1), (co_same_shape _ _ _ _ _ _ HX U2).
  destruct (negb _); [reflexivity|]. apply vh_co; try assumption. apply co_velocity; assumption.
Qed.
Lemma position_co : forall dr dr' bh bm bm' s s' b b', bh <> "shrink" -> swl s s' -> re (bd_greater dr) (bd_greater dr') -> re (bd_lower dr) (bd_lower dr') -> bd_fuel dr' = bd_fuel dr ->
  maybe co bm bm' -> maybe bl b b' -> RR mems (compute_position (N := F64num) dr bh bm s b) (compute_position (N := F64num) dr' bh bm' s' b').
Proof.
  intros dr dr' bh bm bm' s s' b b' NS H G L FU BM B. sw H. unfold compute_position. rewrite (co_same_shape _ _ _ _ _ _ HX HV). destruct (negb _); [reflexivity|].
  assert (A : co (map2 (map2 (nadd (n := F64num))) (s_position s) (s_velocity s)) (map2 (map2 (nadd (n := F64num))) (s_position s') (s_velocity s'))).
  { apply co_map2 with (2 := HX) (3 := HV). intros. apply re_map2; assumption. }
  destruct b as [b|], b' as [b'|]; cbn in B; try contradiction; [|split; assumption]. apply bh_co; assumption.
Qed.
Lemma binary_co : forall ex ex' (u u' : frow) (v v' : fmatrix), (forall x, ex' x = ex x) -> re u u' -> co v v' -> RR co (binary_position ex u v) (binary_position ex' u' v').
Proof.
  intros ex ex' u u' v v' E U V. unfold binary_position.
  replace (forallb (fun r => Nat.eqb (length r) (length u')) v') with (forallb (fun r => Nat.eqb (length r) (length u)) v).
  2: { symmetry. apply co_forallb with (2 := V). intros r r' R. apply re_eqb; assumption. }
  destruct (forallb _ v); [|reflexivity]. cbn [RR]. apply co_map with (2 := V). intros r r' R.
  replace (map2 (fun ui w => bit (flt ui (sigmoid (N := F64num) ex' w))) u' r') with (map2 (fun ui w => bit (flt ui (sigmoid (N := F64num) ex w))) u' r').
  - apply re_map2; assumption.
  - clear - E. revert r'. induction u' as [|a u' IH]; intros [|b r']; [reflexivity..|]. cbn [map2]. f_equal; [|apply IH]. unfold sigmoid. rewrite E. reflexivity.
Qed.

Variables (c c' : config) (e e' : env).
Hypothesis HCFG : config_like order c c'.
Hypothesis HENV : env_like order e e'.
Hypothesis HNS : c_bh c <> "shrink".
Lemma re_size : forall r r' : frow, re r r' -> length r = length order /\ length r' = length order.
Proof. intros r r' (A & B & _). split; assumption. Qed.
Lemma optimize_re : forall pool iters o o', stl o o' ->
  stl (fst (optimize c e pool iters o)) (fst (optimize c' e' pool iters o')) /\ result_like (reordered order) (snd (optimize c e pool iters o)) (snd (optimize c' e' pool iters o')).
Proof.
  destruct HCFG as (K & Kn & _ & _ & Ko & Kb & Kc & _ & Kf & Ki & _ & Kbh & Kvh & Koh). destruct HENV as (EO & EV & EB & EOH & ET & EBI & EX & ETR).
  apply (optimize_co (length order) (reordered order) re_size c c' e e' K Kn Ko Kf Ki Koh EO EOH ET ETR).
  - intros i s s' vm vm' S M. rewrite Kvh. apply velocity_co; try assumption; [apply EV|apply EV|]. destruct (c_kind c); try exact Kb; exact I.
  - intros i s s' bm bm' _ S M. rewrite Kbh. destruct (EB i) as (E1 & E2 & E3). apply position_co; assumption.
  - intros i v v' _ V. apply binary_co; [exact EX|apply EBI|exact V].
Qed.
(** *** Construction *)
Lemma re_perm : forall A (a a' : list A), re a a' -> Permutation a a'.
Proof.
  intros A a a' (A1 & A2 & A3). destruct a as [|x0 a0] eqn:EA.
  - destruct a'; [constructor|]. cbn in A1, A2. congruence.
  - rewrite <- EA in *. assert (E1 : a = map (fun k => nth k a x0) (seq 0 (length order))).
    { rewrite <- A1. apply nth_error_ext. intros k. destruct (lt_dec k (length a)) as [L|L].
      - rewrite nth_error_map. replace (nth_error (seq 0 (length a)) k) with (Some k). 2: { rewrite (nth_error_nth' (seq 0 (length a)) 0) by (rewrite seq_length; exact L). rewrite seq_nth by exact L. reflexivity. } cbn. apply nth_error_nth'. exact L.
      - rewrite !(proj2 (nth_error_None _ _)); rewrite ?map_length, ?seq_length; [reflexivity|lia|lia]. }
    assert (E2 : a' = map (fun k => nth k a x0) order).
    { apply nth_error_ext. intros j. rewrite nth_error_map. destruct (nth_error order j) as [k|] eqn:J; cbn.
      - rewrite (A3 j k J). apply nth_error_nth'. pose proof (order_lt j k J) as L. unfold d in L. rewrite A1. exact L.
      - apply nth_error_None. rewrite A2. apply nth_error_None. exact J. }
    rewrite E1, E2. apply Permutation_map, Permutation_sym, PO.
Qed.
Lemma re_repeat : forall A (x : A), re (repeat x (length order)) (repeat x (length order)).
Proof.
  intros A x. split; [apply repeat_length|split; [apply repeat_length|]]. intros j k J. pose proof (order_lt j k J) as L. unfold d in L. pose proof (nth_error_lt _ _ _ J) as M.
  rewrite !nth_error_repeat by assumption. reflexivity.
Qed.
Lemma feq_sym : forall a b, feq a b = feq b a.
Proof. intros a b. apply eq_true_iff_eq. rewrite !feq_spec. intuition. Qed.
Lemma feq_trans : forall a b x, feq a b = true -> feq b x = feq a x.
Proof. intros a b x H. apply feq_spec in H. destruct H as (A & B & E). apply eq_true_iff_eq. rewrite !feq_spec, E. intuition. Qed.
Lemma existsb_perm : forall A (f : A -> bool) l l', Permutation l l' -> existsb f l = existsb f l'.
Proof.
  intros A f l l' H. apply eq_true_iff_eq. rewrite !existsb_exists. split; intros (x & X & E); exists x; (split; [|exact E]).
  - apply (Permutation_in _ H X).
  - apply (Permutation_in _ (Permutation_sym H) X).
Qed.
Lemma uniq_perm : forall l l', Permutation l l' -> length (uniq l) = length (uniq l').
Proof.
  intros l l' H. induction H as [|x l l' H IH|x y l|l l' l'' H1 IH1 H2 IH2]; [reflexivity| | |congruence].
  - cbn [uniq]. rewrite (existsb_perm _ _ _ _ H). destruct (existsb (feq x) l'); cbn; congruence.
  - cbn [uniq existsb]. rewrite (feq_sym y x). destruct (feq x y) eqn:E; cbn [orb].
    + assert (Q : existsb (feq y) l = existsb (feq x) l). { apply eq_true_iff_eq. rewrite !existsb_exists. split; intros (z & Z & F); exists z; (split; [exact Z|]); [rewrite <- (feq_trans _ _ z E)|rewrite (feq_trans _ _ z E)]; exact F. }
      rewrite Q. destruct (existsb (feq x) l); reflexivity.
    + destruct (existsb (feq y) l), (existsb (feq x) l); reflexivity.
Qed.
Lemma concat_perm : forall A (m m' : list (list A)), co m m' -> Permutation (concat m) (concat m').
Proof. intros A m m' H. induction H as [|r r' m m' R F IH]; [constructor|]. cbn. apply Permutation_app; [apply re_perm; exact R|exact IH]. Qed.

Lemma generate_co : forall n b b' (ce ce' : frow) init init' (u u' : fmatrix), maybe bl b b' -> re ce ce' -> maybe co init init' -> co u u' ->
  RR co (generate_swarm n (length order) b ce init u) (generate_swarm n (length order) b' ce' init' u').
Proof.
  intros n b b' ce ce' init init' u u' B C I U. unfold generate_swarm. destruct init as [p|], init' as [p'|]; cbn in I; try contradiction; destruct b as [b|], b' as [b'|]; cbn in B; try contradiction.
  - change (co p p') in I. rewrite (fit_co _ _ _ _ I B). destruct (negb _); [reflexivity|].
    replace (all_within b' p') with (all_within b p). { destruct (all_within b p); [exact I|reflexivity]. }
    destruct B as (B1 & B2 & _). symmetry. unfold all_within. f_equal; apply co_forallb with (2 := I); intros r r' R; apply re_forallb, re_map2; assumption.
  - exact I.
  - assert (E : forall (x x' : frow), re x x' -> Nat.eqb (length x') (length order) = Nat.eqb (length x) (length order)). { intros x x' (X1 & X2 & _). rewrite X1, X2. reflexivity. }
    pose proof (E _ _ C) as E1. pose proof (E _ _ (proj1 B)) as E2. pose proof (E _ _ (proj1 (proj2 B))) as E3. rewrite E1, E2, E3. destruct (negb _); [reflexivity|].
    destruct B as (B1 & B2 & _). rewrite (re_forallb _ (fun x => x) _ _ (re_map2 _ _ _ (fun l h => ffinite (fsub h l)) _ _ _ _ B1 B2)). destruct (negb _); [reflexivity|].
    cbn [RR]. apply co_map with (2 := U). intros r r' R. apply re_map4; assumption.
  - destruct C as (C1 & C2 & C3). rewrite C1, C2. destruct (negb _); [reflexivity|]. cbn [RR]. apply co_map with (2 := U). intros r r' R. apply re_map2; [split; [|split]; assumption|exact R].
Qed.
Lemma generate_velocity_co : forall k k' (u u' : fmatrix), maybe cl k k' -> co u u' -> RR co (generate_velocity (length order) k u) (generate_velocity (length order) k' u').
Proof.
  intros k k' u u' C U. unfold generate_velocity.
  assert (G : forall (a a' b b' : frow), re a a' -> re b b' ->
    RR co (if negb (Nat.eqb (length a) (length order) && Nat.eqb (length b) (length order)) then Err ValueError else Ok (map (map3 (fun a b x => fadd (fmul (fsub b a) x) a) a b) u))
      (if negb (Nat.eqb (length a') (length order) && Nat.eqb (length b') (length order)) then Err ValueError else Ok (map (map3 (fun a b x => fadd (fmul (fsub b a) x) a) a' b') u'))).
  { intros a a' b b' A B. pose proof A as (A1 & A2 & _). pose proof B as (B1 & B2 & _). rewrite A1, A2, B1, B2. destruct (negb _); [reflexivity|]. cbn [RR].
    apply co_map with (2 := U). intros r r' R. apply re_map3; assumption. }
  destruct k as [[a b]|], k' as [[a' b']|]; cbn in C; try contradiction; [destruct C; apply G; assumption|apply G; apply re_repeat].
Qed.
Lemma new_co : forall (p p' v v' : fmatrix) o, co p p' -> co v v' ->
  swl (new_swarm (N := F64num) finf (match p with [] => length order | r :: _ => length r end) p v o) (new_swarm (N := F64num) finf (match p' with [] => length order | r :: _ => length r end) p' v' o).
Proof.
  intros p p' v v' o P V. unfold swarm_like, new_swarm. cbn [s_position s_velocity s_n s_d s_options s_pbest_pos s_best_pos s_pbest_cost s_best_cost s_best_np s_current_cost].
  split; [exact P|]. split; [exact V|]. split; [apply co_len; exact P|]. split; [destruct P as [|r r' m m' R F]; [reflexivity|apply R]|]. split; [destruct P as [|r r' m m' R F]; [reflexivity|apply R]|].
  split; [reflexivity|]. split; [exact P|]. split; [exact I|]. repeat split.
Qed.
Lemma make_co : forall dr dr', draws_like order dr dr' -> RR swl (make_swarm c dr) (make_swarm c' dr').
Proof.
  intros dr dr' (D1 & D2 & D3). destruct HCFG as (K & Kn & Kd & Kd' & Ko & Kb & Kc & Kce & _ & _ & Ki & _ & _ & _). unfold make_swarm, create_swarm. rewrite K, Kn, Kd, Kd', Ko.
  assert (G : RR swl
    (do pos <- generate_swarm (c_n c) (length order) (c_bounds c) (c_center c) (c_init c) (cd_pos dr); do vel <- generate_velocity (length order) (c_clamp c) (cd_vel dr);
     let dim := match pos with [] => length order | r :: _ => length r end in Ok (new_swarm (N := F64num) finf dim pos vel (c_options c)))
    (do pos <- generate_swarm (c_n c) (length order) (c_bounds c') (c_center c') (c_init c') (cd_pos dr'); do vel <- generate_velocity (length order) (c_clamp c') (cd_vel dr');
     let dim := match pos with [] => length order | r :: _ => length r end in Ok (new_swarm (N := F64num) finf dim pos vel (c_options c)))).
  { eapply RR_bind; [apply generate_co; eassumption|]. intros p p' P. eapply RR_bind; [apply generate_velocity_co; eassumption|]. intros v v' V. cbn [RR]. apply new_co; assumption. }
  destruct (c_kind c); try exact G. eapply RR_bind with (P := co).
  - unfold generate_discrete_swarm. destruct (c_init c) as [p|], (c_init c') as [p'|]; cbn in Ki; try contradiction.
    + change (co p p') in Ki. rewrite <- (uniq_perm _ _ (concat_perm _ _ _ Ki)). destruct (Nat.leb _ _); [exact Ki|reflexivity].
    + cbn [RR]. apply co_map with (2 := D2). intros r r' R. apply re_map. exact R.
  - intros p p' P. eapply RR_bind; [apply generate_velocity_co; eassumption|]. intros v v' V. cbn [RR]. apply new_co; assumption.
Qed.
Lemma fresh_stl : forall s s' t b b' v v', swl s s' -> maybe co b b' -> maybe co v v' -> stl (mkOstate s t b v [] [] [] [] []) (mkOstate s' t b' v' [] [] [] [] []).
Proof. intros. unfold state_like. cbn [o_swarm o_top o_bmem o_vmem o_cost_history o_mean_pbest_history o_mean_neighbor_history o_pos_history o_velocity_history]. repeat (split; [first [assumption|reflexivity]|]). split; constructor. Qed.
Lemma construct_co : forall top dr dr', draws_like order dr dr' -> RR stl (construct c top dr) (construct c' top dr').
Proof.
  intros top dr dr' D. pose proof (make_co _ _ D) as M. destruct HCFG as (K & _ & _ & _ & Ko & _ & _ & _ & _ & Kf & _). unfold construct. rewrite K, Ko, Kf.
  destruct (match c_kind c with GlobalBest | General => _ | _ => _ end) as [z|x]; cbn [bind]; [|reflexivity]. destruct (Nat.eqb _ 0); [reflexivity|].
  eapply RR_bind; [exact M|]. intros s s' S. cbn [RR]. apply fresh_stl; [exact S|exact I|exact I].
Qed.
Lemma reset_co : forall dr dr' o o', draws_like order dr dr' -> stl o o' -> RR stl (reset c dr o) (reset c' dr' o').
Proof.
  intros dr dr' o o' D H. st H. unfold reset. eapply RR_bind; [apply make_co; exact D|]. intros s s' S. cbn [RR]. rewrite HT. apply fresh_stl; assumption.
Qed.
End R.

(** *** The results *)
Lemma reorder_construct : forall order c c' top dr dr', Permutation order (seq 0 (length order)) -> config_like order c c' -> draws_like order dr dr' ->
  built_like (length order) (reordered order) (construct c top dr) (construct c' top dr').
Proof. intros order c c' top dr dr' P C D. exact (construct_co order P c c' C top dr dr' D). Qed.
Lemma reorder_reset : forall order c c' dr dr' o o', Permutation order (seq 0 (length order)) -> config_like order c c' -> draws_like order dr dr' -> state_like (length order) (reordered order) o o' ->
  built_like (length order) (reordered order) (reset c dr o) (reset c' dr' o').
Proof. intros order c c' dr dr' o o' P C D S. exact (reset_co order P c c' C dr dr' o o' D S). Qed.
Lemma reorder_optimize : forall order c c' e e' pool iters o o', Permutation order (seq 0 (length order)) -> config_like order c c' -> env_like order e e' -> c_bh c <> "shrink" ->
  state_like (length order) (reordered order) o o' ->
  state_like (length order) (reordered order) (fst (optimize c e pool iters o)) (fst (optimize c' e' pool iters o')) /\
  result_like (reordered order) (snd (optimize c e pool iters o)) (snd (optimize c' e' pool iters o')).
Proof. intros order c c' e e' pool iters o o' P C E NS S. exact (optimize_re order P c c' e e' C E NS pool iters o o' S). Qed.
Lemma reorder_session : forall order c c' calls calls' o o' o1, Permutation order (seq 0 (length order)) -> config_like order c c' -> c_bh c <> "shrink" ->
  Forall2 (call_like order) calls calls' -> state_like (length order) (reordered order) o o' -> Session c o calls o1 -> exists o1', Session c' o' calls' o1' /\ state_like (length order) (reordered order) o1 o1'.
Proof.
  intros order c c' calls calls' o o' o1 P C NS F S H. revert calls' F. induction H as [o|o l o1 k o2 r H IH E]; intros calls' F.
  - inversion F; subst. exists o'. split; [constructor|exact S].
  - apply Forall2_app_inv_l in F. destruct F as (l' & k1 & F1 & F2 & ->). inversion F2 as [|a k' b b' K FN]; subst. inversion FN; subst.
    destruct (IH S l' F1) as (o1' & S1 & L1). destruct K as (KE & KP & KI).
    destruct (reorder_optimize order c c' (k_env k) (k_env k') (k_pool k) (k_iters k) o1 o1' P C KE NS L1) as [R _]. rewrite E in R. cbn [fst] in R.
    destruct (optimize c' (k_env k') (k_pool k) (k_iters k) o1') as [o2' r'] eqn:E'. cbn [fst] in R. exists o2'. split; [|exact R].
    eapply Session_snoc; [exact S1|]. rewrite KP, KI. exact E'.
Qed.
