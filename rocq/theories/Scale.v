(** Changing the units by powers of two changes the run by nothing else (C84). *)
From Coq Require Import String ZArith List Arith Bool Lia Reals.
From Flocq Require Import Core.
From Verif Require Import Prelude ListFacts F64 F64Facts Num Np NpFacts Handlers Swarms Operators Generators Topology Optimizers Spec SpecDyn SpecHandlers SpecLike SpecScale
  Like ScaleFacts RunFacts RunMain Prefixes HandlerFacts Entries Textbook Mirror Everybody Alone.
Import ListNotations.
Local Open Scope string_scope.
Local Open Scope list_scope.
Local Open Scope nat_scope.

(** *** Rows *)
Fixpoint onr (l m : Z) (ks : list Z) (r r' : frow) : Prop :=
  match ks, r, r' with
  | [], [], [] => True
  | k :: ks, x :: r, x' :: r' => on k l m x x' /\ onr l m ks r r'
  | _, _, _ => False
  end.
Lemma sca_len : forall ks (r r' : frow), scaled ks r r' -> length r = length ks /\ length r' = length ks.
Proof. induction ks as [|k ks IH]; intros [|x r] [|x' r'] H; cbn in H; try contradiction; [auto|]. destruct H as [_ H]. destruct (IH _ _ H) as [A B]. split; cbn [length]; apply f_equal; assumption. Qed.
Lemma onr_down : forall l m ks r r', onr l m ks r r' -> scaled ks r r'.
Proof. induction ks as [|k ks IH]; intros [|x r] [|x' r'] H; cbn in H |- *; try contradiction; [exact I|]. destruct H as [[A _] H]. split; [exact A|apply IH; exact H]. Qed.
Lemma onr_up : forall ks r r', scaled ks r r' -> Forall moderate r -> onr (-400) 400 ks r r'.
Proof.
  induction ks as [|k ks IH]; intros [|x r] [|x' r'] H F; cbn in H |- *; try contradiction; [exact I|]. destruct H as [A H]. inversion F as [|? ? G F']; subst. split; [split; assumption|apply IH; assumption].
Qed.
Lemma onr_le : forall l m l' m' ks r r', (l' <= l)%Z -> (m <= m')%Z -> onr l m ks r r' -> onr l' m' ks r r'.
Proof. intros l m l' m' ks r r' L M. revert r r'. induction ks as [|k ks IH]; intros [|x r] [|x' r'] H; cbn in H |- *; try contradiction; [exact I|]. destruct H as [A H]. split; [eapply on_le; eauto|apply IH; exact H]. Qed.

Section W.
Variable ks : list Z.
Hypothesis KS : factors ks.
Let d := length ks.
Notation re := (scaled ks).
Notation co := (Forall2 (scaled ks)).
Notation com l m := (Forall2 (onr l m ks)).
Notation kin := (fun k : Z => (-100 <= k <= 100)%Z).

Lemma onr_map2 : forall (f : f64 -> f64 -> f64) l m l2 m2 l3 m3 a a' b b', (forall k x x' y y', kin k -> on k l m x x' -> on k l2 m2 y y' -> on k l3 m3 (f x y) (f x' y')) ->
  onr l m ks a a' -> onr l2 m2 ks b b' -> onr l3 m3 ks (map2 f a b) (map2 f a' b').
Proof.
  intros f l m l2 m2 l3 m3 a a' b b' G. revert a a' b b'. clear d. induction KS as [|k ks0 K KS0 IH]; intros [|x a] [|x' a'] [|y b] [|y' b'] A B; cbn in A, B; try contradiction; [exact I|].
  destruct A as [X A], B as [Y B]. cbn. split; [apply G; assumption|apply IH; assumption].
Qed.
Lemma onr_map : forall (f : f64 -> f64) l m l3 m3 a a', (forall k x x', kin k -> on k l m x x' -> on k l3 m3 (f x) (f x')) -> onr l m ks a a' -> onr l3 m3 ks (map f a) (map f a').
Proof.
  intros f l m l3 m3 a a' G. revert a a'. clear d. induction KS as [|k ks0 K KS0 IH]; intros [|x a] [|x' a'] A; cbn in A; try contradiction; [exact I|].
  destruct A as [X A]. cbn. split; [apply G; assumption|apply IH; assumption].
Qed.
Lemma onr_box3 : forall (f : f64 -> f64 -> f64 -> f64) (Q : f64 -> f64 -> Prop) l m l3 m3 a a' p p' q q',
  (forall k x x' y y' z z', kin k -> on k l m x x' -> on k (-400) 400 y y' -> on k (-400) 400 z z' -> Q y z -> on k l3 m3 (f x y z) (f x' y' z')) ->
  onr l m ks a a' -> onr (-400) 400 ks p p' -> onr (-400) 400 ks q q' -> Forall2 Q p q -> onr l3 m3 ks (map3 f a p q) (map3 f a' p' q').
Proof.
  intros f Q l m l3 m3 a a' p p' q q' G. revert a a' p p' q q'. clear d. induction KS as [|k ks0 K KS0 IH]; intros [|x a] [|x' a'] [|y p] [|y' p'] [|z q] [|z' q'] A B C D; cbn in A, B, C; try contradiction; [exact I|].
  destruct A as [X A], B as [Y B], C as [Z C]. inversion D; subst. cbn. split; [apply G; assumption|apply IH; assumption].
Qed.
Lemma onr_box4 : forall (f : f64 -> f64 -> f64 -> f64 -> f64) l m l3 m3 a a' b b' p p' q q',
  (forall k x x' w w' y y' z z', kin k -> on k l m x x' -> on k (-400) 400 w w' -> on k (-400) 400 y y' -> on k (-400) 400 z z' -> on k l3 m3 (f x w y z) (f x' w' y' z')) ->
  onr l m ks a a' -> onr (-400) 400 ks b b' -> onr (-400) 400 ks p p' -> onr (-400) 400 ks q q' -> onr l3 m3 ks (map4 f a b p q) (map4 f a' b' p' q').
Proof.
  intros f l m l3 m3 a a' b b' p p' q q' G. revert a a' b b' p p' q q'. clear d. induction KS as [|k ks0 K KS0 IH]; intros [|x a] [|x' a'] [|w b] [|w' b'] [|y p] [|y' p'] [|z q] [|z' q'] A B C D; cbn in A, B, C, D; try contradiction; [exact I|].
  destruct A as [X A], B as [Y B], C as [Z C], D as [V D]. cbn. split; [apply G; assumption|apply IH; assumption].
Qed.
Lemma onr_velocity : forall c1 c2 w (u1 u2 x x' v v' p p' b b' : frow), grid (-60) 60 c1 -> grid (-60) 60 c2 -> grid (-60) 60 w -> Forall (grid (-60) 0) u1 -> Forall (grid (-60) 0) u2 -> length u1 = d -> length u2 = d ->
  onr (-400) 400 ks x x' -> onr (-400) 400 ks v v' -> onr (-400) 400 ks p p' -> onr (-400) 400 ks b b' ->
  onr (-520) 464 ks (velocity_row (N := F64num) c1 c2 w u1 u2 x v p b) (velocity_row (N := F64num) c1 c2 w u1 u2 x' v' p' b').
Proof.
  intros c1 c2 w u1 u2 x x' v v' p p' b b' C1 C2 W. unfold d. clear d. revert u1 u2 x x' v v' p p' b b'.
  induction KS as [|k ks0 K KS0 IH]; intros [|a1 u1] [|a2 u2] [|a3 x] [|a3' x'] [|a4 v] [|a4' v'] [|a5 p] [|a5' p'] [|a6 b] [|a6' b'] G1 G2 U1 U2 X V P B; cbn in U1, U2, X, V, P, B; try discriminate; try contradiction; [exact I|].
  destruct X as [X0 X], V as [V0 V], P as [P0 P], B as [B0 B]. inversion G1; subst. inversion G2; subst. cbn [velocity_row onr]. split; [apply velocity_on; assumption|].
  apply IH; try assumption; [exact (eq_add_S _ _ U1)|exact (eq_add_S _ _ U2)].
Qed.

(** *** Matrices *)
Lemma re_dim : forall r r' : frow, re r r' -> length r = d /\ length r' = d.
Proof. apply sca_len. Qed.
Lemma com_down : forall l m a a', com l m a a' -> co a a'.
Proof. intros l m a a' H. induction H; constructor; [eapply onr_down; eassumption|assumption]. Qed.
Lemma com_up : forall a a', co a a' -> Forall (Forall moderate) a -> com (-400) 400 a a'.
Proof. intros a a' H F. induction H; constructor; inversion F; subst; [apply onr_up; assumption|auto]. Qed.
Lemma com_le : forall l m l' m' a a', (l' <= l)%Z -> (m <= m')%Z -> com l m a a' -> com l' m' a a'.
Proof. intros l m l' m' a a' L M H. induction H; constructor; [eapply onr_le; eassumption|assumption]. Qed.
Lemma m_map : forall (f f' : frow -> frow) (P Q : frow -> frow -> Prop) (m m' : fmatrix), (forall r r', P r r' -> Q (f r) (f' r')) -> Forall2 P m m' -> Forall2 Q (map f m) (map f' m').
Proof. intros f f' P Q m m' H F. induction F as [|r r' m m' R F IH]; cbn; constructor; auto. Qed.
Lemma m_map2 : forall (f f' : frow -> frow -> frow) (P Q W : frow -> frow -> Prop) (m m' n n' : fmatrix), (forall r r' s s', P r r' -> Q s s' -> W (f r s) (f' r' s')) ->
  Forall2 P m m' -> Forall2 Q n n' -> Forall2 W (map2 f m n) (map2 f' m' n').
Proof. intros f f' P Q W m m' n n' H F. revert n n'. induction F as [|r r' m m' R F IH]; intros n n' G; [constructor|]. destruct G; cbn; constructor; [apply H; assumption|apply IH; assumption]. Qed.
Lemma m_velocity : forall c1 c2 w (u1 u2 x x' v v' p p' b b' : fmatrix), grid (-60) 60 c1 -> grid (-60) 60 c2 -> grid (-60) 60 w -> Forall (Forall (grid (-60) 0)) u1 -> Forall (Forall (grid (-60) 0)) u2 ->
  same_shape x u1 = true -> same_shape x u2 = true -> com (-400) 400 x x' -> com (-400) 400 v v' -> com (-400) 400 p p' -> com (-400) 400 b b' ->
  com (-520) 464 (velocity_mat (N := F64num) c1 c2 w u1 u2 x v p b) (velocity_mat (N := F64num) c1 c2 w u1 u2 x' v' p' b').
Proof.
  intros c1 c2 w u1 u2 x x' v v' p p' b b' C1 C2 W G1 G2 S1 S2 H. revert u1 u2 v v' p p' b b' G1 G2 S1 S2. induction H as [|r r' m m' R F IH]; intros u1 u2 v v' p p' b b' G1 G2 S1 S2 H4 H5 H6.
  - destruct u1; [|discriminate S1]. constructor.
  - destruct u1 as [|a1 u1]; [discriminate S1|]. destruct u2 as [|a2 u2]; [discriminate S2|]. unfold same_shape in S1, S2. cbn in S1, S2.
    apply andb_prop in S1. apply andb_prop in S2. destruct S1 as [L1 S1], S2 as [L2 S2]. apply andb_prop in S1. apply andb_prop in S2. destruct S1 as [E1 S1], S2 as [E2 S2].
    destruct H4 as [|? ? ? ? V ?]; [constructor|]. destruct H5 as [|? ? ? ? P ?]; [constructor|]. destruct H6 as [|? ? ? ? B ?]; [constructor|]. cbn [velocity_mat].
    destruct (re_dim _ _ (onr_down _ _ _ _ _ R)) as [D _]. apply Nat.eqb_eq in E1. apply Nat.eqb_eq in E2. inversion G1; subst. inversion G2; subst.
    constructor; [apply onr_velocity; try assumption; [exact (eq_trans (eq_sym E1) D)|exact (eq_trans (eq_sym E2) D)]|]. apply IH; try assumption; unfold same_shape; apply andb_true_intro; split; assumption.
Qed.
Lemma co_forallb : forall (f f' : frow -> bool) m m', (forall r r', re r r' -> f' r' = f r) -> co m m' -> forallb f' m' = forallb f m.
Proof. intros f f' m m' H F. induction F as [|r r' m m' R F IH]; [reflexivity|]. cbn. rewrite (H _ _ R), IH. reflexivity. Qed.
Lemma co_existsb : forall (f f' : frow -> bool) m m', (forall r r', re r r' -> f' r' = f r) -> co m m' -> existsb f' m' = existsb f m.
Proof. intros f f' m m' H F. induction F as [|r r' m m' R F IH]; [reflexivity|]. cbn. rewrite (H _ _ R), IH. reflexivity. Qed.
Lemma co_shape : forall (m m' n n' : fmatrix), co m m' -> co n n' -> same_shape m' n' = same_shape m n.
Proof. exact (col_shape d (scaled ks) re_dim). Qed.
Lemma co_draw : forall (m m' u : fmatrix), co m m' -> same_shape m' u = same_shape m u.
Proof.
  intros m m' u H. apply (shape_draw_gen f64 f64 d). induction H as [|r r' m m' R F IH]; constructor; [exact (re_dim _ _ R)|exact IH].
Qed.

(** *** Leaving the box *)
Notation bl := (scaled_bounds ks).
Notation cl := (scaled_clamp ks).
Lemma lower_re : forall ks0 (r r' b b' : frow), scaled ks0 r r' -> scaled ks0 b b' -> existsb (fun x => x) (map2 flt r' b') = existsb (fun x => x) (map2 flt r b).
Proof.
  induction ks0 as [|k ks0 IH]; intros [|x r] [|x' r'] [|y b] [|y' b'] A B; cbn in A, B; try contradiction; [reflexivity|]. destruct A as [X A], B as [Y B]. cbn. rewrite (lt_re _ _ _ _ _ X Y), (IH _ _ _ _ A B). reflexivity.
Qed.
Lemma greater_re : forall ks0 (r r' b b' : frow), scaled ks0 r r' -> scaled ks0 b b' -> existsb (fun x => x) (map2 (fun x u => flt u x) r' b') = existsb (fun x => x) (map2 (fun x u => flt u x) r b).
Proof.
  induction ks0 as [|k ks0 IH]; intros [|x r] [|x' r'] [|y b] [|y' b'] A B; cbn in A, B; try contradiction; [reflexivity|]. destruct A as [X A], B as [Y B]. cbn. rewrite (lt_re _ _ _ _ _ Y X), (IH _ _ _ _ A B). reflexivity.
Qed.
Lemma row_lower_re : forall (r r' : frow) b b', re r r' -> bl b b' -> row_lower r' b' = row_lower r b.
Proof. intros r r' b b' R (B & _). exact (lower_re _ _ _ _ _ R B). Qed.
Lemma row_greater_re : forall (r r' : frow) b b', re r r' -> bl b b' -> row_greater r' b' = row_greater r b.
Proof. intros r r' b b' R (_ & B & _). exact (greater_re _ _ _ _ _ R B). Qed.
Lemma any_re : forall (m m' : fmatrix) b b', co m m' -> bl b b' -> any_out m' b' = any_out m b.
Proof. intros m m' b b' M B. unfold any_out. apply co_existsb with (2 := M). intros r r' R. rewrite (row_lower_re _ _ _ _ R B), (row_greater_re _ _ _ _ R B). reflexivity. Qed.
Lemma fit_re : forall (m m' : fmatrix) b b', co m m' -> bl b b' -> bounds_fit m' b' = bounds_fit m b.
Proof.
  intros m m' b b' M B. unfold bounds_fit. destruct B as (B1 & B2 & _). destruct (sca_len _ _ _ B1) as (L1 & L3). destruct (sca_len _ _ _ B2) as (L2 & L4).
  assert (E : Nat.eqb (length (b_lb b')) (length (b_ub b')) = Nat.eqb (length (b_lb b)) (length (b_ub b))) by (apply f_equal2; congruence).
  apply f_equal2; [exact E|]. apply co_forallb with (2 := M). intros r r' R. destruct (re_dim _ _ R) as [R1 R2]. unfold d in R1, R2. apply f_equal2; congruence.
Qed.
Notation fine := (Forall (Forall moderate)).
Lemma bl_on : forall b b', bl b b' -> onr (-400) 400 ks (b_lb b) (b_lb b') /\ onr (-400) 400 ks (b_ub b) (b_ub b').
Proof. intros b b' (A & B & _ & C & D & _). split; apply onr_up; assumption. Qed.
Lemma box_on : forall (f : f64 -> f64 -> f64 -> f64) l m l3 m3 (x x' : fmatrix) b b',
  (forall k x x' y y' z z', kin k -> on k l m x x' -> on k (-400) 400 y y' -> on k (-400) 400 z z' -> flt y z = true -> on k l3 m3 (f x y z) (f x' y' z')) -> com l m x x' -> bl b b' ->
  com l3 m3 (map (fun r => map3 f r (b_lb b) (b_ub b)) x) (map (fun r => map3 f r (b_lb b') (b_ub b')) x').
Proof.
  intros f l m l3 m3 x x' b b' G X B. destruct (bl_on _ _ B) as [B1 B2]. destruct B as (_ & _ & _ & _ & _ & O). refine (m_map _ _ _ _ _ _ _ X). intros r r' R. exact (onr_box3 f _ _ _ _ _ _ _ _ _ _ _ G R B1 B2 O).
Qed.
Lemma reflective_on : forall fuel m (x x' : fmatrix) b b', (402 <= m)%Z -> (m + Z.of_nat fuel <= 880)%Z -> com (-522) m x x' -> bl b b' -> RR co (reflective_loop (N := F64num) fuel b x) (reflective_loop (N := F64num) fuel b' x').
Proof.
  induction fuel as [|fuel IH]; intros m x x' b b' M1 M2 X B; cbn [reflective_loop]; rewrite (any_re _ _ _ _ (com_down _ _ _ _ X) B); destruct (any_out x b); cbn [RR]; try (exact (com_down _ _ _ _ X)); auto.
  apply (IH (m + 1)%Z); [lia|lia| |exact B]. apply (box_on (reflect_el (N := F64num)) (-522) m); try assumption. intros. apply reflect_on; auto; lia.
Qed.
Lemma draws_row : forall (u : frow) b b', Forall (grid (-60) 0) u -> length u = d -> bl b b' -> onr (-522) 466 ks (resample (N := F64num) b u) (resample (N := F64num) b' u).
Proof.
  intros u b b' U L B. destruct (bl_on _ _ B) as [B1 B2]. clear B. unfold resample. generalize dependent (b_lb b). generalize dependent (b_lb b'). generalize dependent (b_ub b). generalize dependent (b_ub b').
  unfold d in L. clear d. revert u U L. induction KS as [|k ks0 K KS0 IH]; intros [|x u] U L [|y' p'] [|y p] B2 [|z' q'] [|z q] B1; cbn in L, B1, B2; try discriminate; try contradiction; [exact I|].
  inversion U; subst. destruct B1 as [Z B1], B2 as [Y B2]. cbn [map3 onr]. split; [|apply IH; try assumption; exact (eq_add_S _ _ L)]. cbn [nadd nmul nsub F64num]. apply resample_on; auto; lia.
Qed.
Lemma bh_on : forall s (dr : bh_draws F64num) mem mem' b b' (x x' : fmatrix), s <> "shrink" -> (s = "reflective" -> bd_fuel dr <= 400) -> Forall (grid (-60) 0) (bd_greater dr) -> Forall (grid (-60) 0) (bd_lower dr) ->
  com (-522) 466 x x' -> bl b b' -> maybe co mem mem' -> (forall mm, mem = Some mm -> fine mm) ->
  RR (mems (scaled ks)) (bh_call (N := F64num) s dr mem b x) (bh_call (N := F64num) s dr mem' b' x').
Proof.
  intros s dr mem mem' b b' x x' NS FU G1 G2 X B ME MF. pose proof (com_down _ _ _ _ X) as XC. unfold bh_call. destruct (bh_known s); [|reflexivity]. cbn [negb].
  rewrite (fit_re _ _ _ _ XC B). destruct (bounds_fit x b) eqn:FIT; [|reflexivity]. cbn [negb].
  destruct (s =? "nearest")%string. { split; [|exact ME]. apply (com_down (-522) 466). apply (box_on (nearest_el (N := F64num)) (-522) 466); try assumption. intros. apply nearest_on; auto; lia. }
  destruct (String.eqb_spec s "reflective") as [SR|_].
  { apply RR_bind with (P := co); [|intros; cbn; split; assumption]. unfold reflective. rewrite (any_re _ _ _ _ XC B).
    replace (b_arr b') with (b_arr b) by (destruct B as (_ & _ & E & _); symmetry; exact E).
    destruct (any_out x b && negb (b_arr b)); [reflexivity|]. specialize (FU SR). apply (reflective_on _ 466%Z); try assumption; lia. }
  destruct (String.eqb_spec s "shrink") as [E|_]; [contradiction|].
  destruct (s =? "random")%string.
  { apply RR_bind with (P := co); [|intros; cbn; split; assumption]. unfold random_bh.
    replace (forallb (fun r => Nat.eqb (length r) (length (bd_greater dr)) && Nat.eqb (length r) (length (bd_lower dr))) x') with (forallb (fun r => Nat.eqb (length r) (length (bd_greater dr)) && Nat.eqb (length r) (length (bd_lower dr))) x).
    2: { symmetry. apply co_forallb with (2 := XC). intros r r' R. destruct (re_dim _ _ R) as [R1 R2]. ftypes. rewrite R1, R2. reflexivity. }
    destruct (forallb _ x) eqn:FB; [|reflexivity]. cbn [negb RR]. rewrite forallb_forall in FB. clear FIT. induction X as [|r r' x x' R X IH]; [constructor|]. inversion XC as [|? ? ? ? RC XC']; subst.
    assert (LE : length r = length (bd_greater dr) /\ length r = length (bd_lower dr)).
    { specialize (FB r (or_introl eq_refl)). apply andb_prop in FB. destruct FB as [F1 F2]. apply Nat.eqb_eq in F1. apply Nat.eqb_eq in F2. auto. }
    destruct (re_dim _ _ RC) as [RD _]. cbn [map]. constructor; [|apply IH; [exact XC'|intros; apply FB; right; assumption]].
    rewrite (row_lower_re _ _ _ _ RC B), (row_greater_re _ _ _ _ RC B). destruct (row_lower r b); [|destruct (row_greater r b); [|exact RC]]; apply (onr_down (-522) 466); apply draws_row; try assumption; destruct LE as [LE1 LE2]; [exact (eq_trans (eq_sym LE2) RD)|exact (eq_trans (eq_sym LE1) RD)]. }
  destruct (s =? "intermediate")%string.
  { apply RR_bind with (P := co); [|intros; cbn; split; assumption]. unfold intermediate. destruct mem as [mm|], mem' as [mm'|]; cbn in ME; try contradiction; [|cbn; exact XC]. change (co mm mm') in ME.
    replace (b_arr b') with (b_arr b) by (destruct B as (_ & _ & E & _); symmetry; exact E). destruct (negb (b_arr b)); [reflexivity|].
    rewrite (co_shape _ _ _ _ XC ME). destruct (same_shape x mm); [|reflexivity]. cbn [negb RR]. destruct (bl_on _ _ B) as [B1 B2]. apply (com_down (-522) 466).
    refine (m_map2 _ _ _ _ _ _ _ _ _ _ X (com_up _ _ ME (MF _ eq_refl))). intros r r' q q' R Q. apply (onr_box4 (intermediate_el (N := F64num)) (-522) 466); try assumption. intros. apply intermediate_on; auto; lia. }
  split; [|exact ME]. apply (com_down (-522) 466). apply (box_on (periodic_el (N := F64num)) (-522) 466); try assumption. intros. apply periodic_on; auto; lia.
Qed.

(** *** Velocity strategies *)
Definition strong (x y : fmatrix * option fmatrix) : Prop := com (-522) 465 (fst x) (fst y) /\ maybe co (snd x) (snd y).
Lemma clamp_m : forall c c' (m m' : fmatrix), maybe cl c c' -> com (-522) 465 m m' -> RR (com (-522) 465) (maybe_clamp (N := F64num) c m) (maybe_clamp (N := F64num) c' m').
Proof.
  intros [[a b]|] [[a' b']|] m m' C M; cbn in C; try contradiction; [|exact M]. unfold scaled_clamp in C. cbn [fst snd] in C. destruct C as (C1 & C2 & C3 & C4).
  destruct (sca_len _ _ _ C1) as (L1 & L3). destruct (sca_len _ _ _ C2) as (L2 & L4). unfold maybe_clamp, apply_clamp.
  replace (clamp_fit m' (a', b')) with (clamp_fit m (a, b)).
  - destruct (clamp_fit m (a, b)); [|reflexivity]. cbn [RR]. refine (m_map _ _ _ _ _ _ _ M). intros r r' R. cbn [fst snd].
    apply (onr_box3 (clamp_el (N := F64num)) (fun _ _ => True) (-522) 465); try (apply onr_up; assumption); try assumption.
    + intros. apply clamp_on; auto; lia.
    + assert (LE : length a = length b) by congruence. clear -LE. revert b LE. induction a as [|x a IH]; intros [|y b] LE; try discriminate; constructor; [exact I|apply IH; exact (eq_add_S _ _ LE)].
  - symmetry. unfold clamp_fit. apply co_forallb with (2 := com_down _ _ _ _ M). intros r r' R. destruct (re_dim _ _ R) as [R1 R2]. unfold d in R1, R2. cbn [fst snd]. apply f_equal2; apply f_equal2; congruence.
Qed.
Lemma vh_on : forall s c c' mem mem' p p' b b' (m m' : fmatrix), maybe cl c c' -> maybe co mem mem' -> (forall mm, mem = Some mm -> fine mm) -> com (-400) 400 p p' -> maybe bl b b' -> com (-520) 464 m m' ->
  RR strong (vh_call (N := F64num) s c mem (mkVk (Some p) (Some b) None) m) (vh_call (N := F64num) s c' mem' (mkVk (Some p') (Some b') None) m').
Proof.
  intros s c c' mem mem' p p' b b' m m' C ME MF P B M0. pose proof (com_down _ _ _ _ P) as PC. assert (M : com (-522) 465 m m') by (apply (com_le (-520) 464); auto; lia). pose proof (com_down _ _ _ _ M) as MC.
  unfold vh_call. destruct (vh_known s); [|reflexivity]. cbn [negb].
  destruct (s =? "unmodified")%string. { apply RR_bind with (P := com (-522) 465); [apply clamp_m; assumption|intros; cbn; split; assumption]. }
  destruct (s =? "adjust")%string.
  { unfold vh_adjust. cbn [vk_position]. destruct mem as [mm|], mem' as [mm'|]; cbn in ME; try contradiction; [|cbn; split; assumption]. change (co mm mm') in ME.
    rewrite (co_shape _ _ _ _ PC ME). destruct (same_shape p mm); [|reflexivity]. cbn [negb]. apply RR_bind with (P := com (-522) 465); [|intros; cbn; split; assumption].
    apply clamp_m; [exact C|]. refine (m_map2 _ _ _ _ _ _ _ _ _ _ P (com_up _ _ ME (MF _ eq_refl))). intros r r' q q' R Q. apply (onr_map2 fsub (-400) 400 (-400) 400); try assumption.
    intros. apply on_le with (-400)%Z (400 + 1)%Z; try lia. apply on_sub; auto; lia. }
  assert (VG : RR (fun x y => (x = (p, match b with Some q => q | None => snd x end) /\ com (-400) 400 (fst x) (fst y)) /\ bl (snd x) (snd y)) (vk_get (N := F64num) (mkVk (Some p) (Some b) None)) (vk_get (N := F64num) (mkVk (Some p') (Some b') None))).
  { unfold vk_get. cbn [vk_position vk_bounds]. destruct b as [b|], b' as [b'|]; cbn in B; try contradiction; [|reflexivity].
    rewrite (fit_re _ _ _ _ PC B). destruct (bounds_fit p b); [|reflexivity]. cbn. split; [split; [reflexivity|assumption]|assumption]. }
  destruct (s =? "invert")%string.
  { apply RR_bind with (P := com (-522) 465); [|intros; cbn; split; assumption]. unfold vh_invert. eapply RR_bind; [exact VG|]. intros [q e] [q' e'] [[_ Q] E]. cbn [fst snd] in Q, E. pose proof (com_down _ _ _ _ Q) as QC.
    rewrite (co_shape _ _ _ _ MC QC). destruct (same_shape m q); [|reflexivity]. cbn [negb]. apply clamp_m; [exact C|]. refine (m_map2 _ _ _ _ _ _ _ _ _ _ Q M0).
    intros r r' v v' R V. unfold invert_row. pose proof (onr_down _ _ _ _ _ R) as RC. cbn [vk_z]. rewrite (row_lower_re _ _ _ _ RC E), (row_greater_re _ _ _ _ RC E).
    assert (H : forall l v v', (-521 <= l <= -520)%Z -> onr l 464 ks v v' -> onr (l - 1) 464 ks (map (fun x : f64 => fmul (fopp (fdec 1 2)) x) v) (map (fun x : f64 => fmul (fopp (fdec 1 2)) x) v')).
    { clear -KS. intros l v v' LL V. refine (onr_map _ _ _ _ _ _ _ _ V). intros k x x' K X. replace (l - 1)%Z with (-1 + l)%Z by lia. apply (on_mul k K (-1) 0 l 464); try lia; [|exact X]. pose proof grid_half as (G1 & (z & G2) & G3). unfold grid. split; [|split]; [assert (FO : forall x, ffinite x = true -> ffinite (fopp x) = true) by (intros [| | |]; auto); apply FO; exact G1|exists (- z)%Z; rewrite F64More.fopp_R, G2, opp_IZR; ring|rewrite F64More.fopp_R, Rabs_Ropp; exact G3]. }
    change (ndec (n := F64num) 1 2) with (fdec 1 2). cbn [nmul nopp F64num].
    destruct (row_lower r e), (row_greater r e).
    - apply (onr_le (-521 - 1) 464); try lia. apply H; [lia|]. apply (H (-520)%Z); [lia|exact V].
    - apply (onr_le (-520 - 1) 464); try lia. apply H; [lia|exact V].
    - apply (onr_le (-520 - 1) 464); try lia. apply H; [lia|exact V].
    - apply (onr_le (-520) 464); try lia. exact V. }
  apply RR_bind with (P := com (-522) 465); [|intros; cbn; split; assumption]. unfold vh_zero. eapply RR_bind; [exact VG|]. intros [q e] [q' e'] [[_ Q] E]. cbn [fst snd] in Q, E. pose proof (com_down _ _ _ _ Q) as QC.
  rewrite (co_shape _ _ _ _ MC QC). destruct (same_shape m q); [|reflexivity]. cbn [negb RR]. refine (m_map2 _ _ _ _ _ _ _ _ _ _ Q M).
  intros r r' v v' R V. unfold zero_row. pose proof (onr_down _ _ _ _ _ R) as RC. rewrite (row_lower_re _ _ _ _ RC E), (row_greater_re _ _ _ _ RC E). destruct (row_lower r e || row_greater r e); [|exact V].
  change (nofZ (n := F64num) 0) with (fofZ 0). refine (onr_map _ _ _ _ _ _ _ _ V). intros k x x' _ _. destruct (ObjFloat.fofZ_exact 0) as [F0 E0]; [lia|].
  split; [split; [exact F0|split; [exact F0|]]|split; [exact F0|split]]; rewrite ?E0; [cbn; ring|exists 0%Z; cbn; ring|rewrite Rabs_R0; apply bpow_ge_0].
Qed.

(** *** Velocity and position *)
Notation swl := (swarm_like (length ks) (scaled ks)).
Notation stl := (state_like (length ks) (scaled ks)).
Ltac sw H := destruct H as (HX & HV & HN & HD & HD' & HO & HP & HB & HC & HBC & HNP & HCC).
Definition fine_best (b : fbestpos) : Prop := match b with BPEmpty => True | BPVec v => Forall moderate v | BPMat m => fine m end.
Lemma com_repeat : forall (v v' : frow) n, onr (-400) 400 ks v v' -> com (-400) 400 (repeat v n) (repeat v' n).
Proof. intros v v' n H. induction n; cbn; constructor; auto. Qed.
Lemma velocity_sc : forall (dr : vel_draws F64num) vh vm vm' (s s' : fswarm) c c' b b', Forall (Forall (grid (-60) 0)) (vd_u1 dr) -> Forall (Forall (grid (-60) 0)) (vd_u2 dr) ->
  (forall key x, In key ["w"; "c1"; "c2"] -> num_of (N := F64num) (s_options s) key = Ok x -> grid (-60) 60 x) -> swl s s' -> maybe co vm vm' -> (forall mm, vm = Some mm -> fine mm) ->
  fine (s_position s) -> fine (s_velocity s) -> fine (s_pbest_pos s) -> fine_best (s_best_pos s) -> maybe cl c c' -> maybe bl b b' ->
  RR strong (compute_velocity (N := F64num) dr vh vm s c b) (compute_velocity (N := F64num) dr vh vm' s' c' b').
Proof.
  intros dr vh vm vm' s s' c c' b b' G1 G2 CO H VM VF FX FV FP FB C B. sw H. unfold compute_velocity. rewrite HO.
  destruct (num_of (s_options s) "c1") as [c1|e] eqn:E1; cbn [bind]; [|reflexivity]. destruct (num_of (s_options s) "c2") as [c2|e] eqn:E2; cbn [bind]; [|reflexivity].
  destruct (num_of (s_options s) "w") as [w|e] eqn:E3; cbn [bind]; [|reflexivity].
  assert (BR : RR (com (-400) 400) (best_rows (N := F64num) (length (s_position s)) (s_d s) (s_best_pos s)) (best_rows (N := F64num) (length (s_position s')) (s_d s') (s_best_pos s'))).
  { rewrite (col_len (scaled ks) _ _ HX), HD, HD'. destruct (s_best_pos s) as [|v|m], (s_best_pos s') as [|v'|m']; cbn in HB, FB; try contradiction; unfold best_rows.
    - clear d. clear -ks. destruct ks as [|? [|]]; try reflexivity. cbn [RR length]. induction (length (s_position s)); cbn; constructor; [exact I|assumption].
    - cbn [RR]. apply com_repeat. apply onr_up; assumption.
    - cbn [RR]. apply com_up; assumption. }
  eapply RR_bind; [exact BR|]. intros bst bst' E. pose proof (com_down _ _ _ _ E) as EC.
  rewrite (co_shape _ _ _ _ HX HP), (co_shape _ _ _ _ HX EC), (co_shape _ _ _ _ HX HV), (co_draw _ _ (vd_u1 dr) HX), (co_draw _ _ (vd_u2 dr) HX).
  destruct (same_shape (s_position s) (s_pbest_pos s) && same_shape (s_position s) bst && same_shape (s_position s) (s_velocity s)); [|reflexivity]. cbn [andb].
  destruct (same_shape (s_position s) (vd_u1 dr)) eqn:U1; [|reflexivity]. destruct (same_shape (s_position s) (vd_u2 dr)) eqn:U2; [|reflexivity]. cbn [andb negb].
  apply vh_on; try assumption; [apply com_up; assumption|]. apply m_velocity; try assumption; try (apply com_up; assumption); [apply (CO "c1"); [right; left; reflexivity|exact E1]|apply (CO "c2"); [right; right; left; reflexivity|exact E2]|apply (CO "w"); [left; reflexivity|exact E3]].
Qed.
Lemma position_sc : forall (dr : bh_draws F64num) bh bm bm' (s s' : fswarm) b b', bh <> "shrink" -> (bh = "reflective" -> bd_fuel dr <= 400) -> Forall (grid (-60) 0) (bd_greater dr) -> Forall (grid (-60) 0) (bd_lower dr) ->
  fine (s_position s) -> co (s_position s) (s_position s') -> com (-522) 465 (s_velocity s) (s_velocity s') -> maybe co bm bm' -> (forall mm, bm = Some mm -> fine mm) -> maybe bl b b' ->
  RR (mems (scaled ks)) (compute_position (N := F64num) dr bh bm s b) (compute_position (N := F64num) dr bh bm' s' b').
Proof.
  intros dr bh bm bm' s s' b b' NS FU G1 G2 FX HX HV BM BF B. unfold compute_position. rewrite (co_shape _ _ _ _ HX (com_down _ _ _ _ HV)). destruct (negb _); [reflexivity|].
  assert (A : com (-522) 466 (map2 (map2 (nadd (n := F64num))) (s_position s) (s_velocity s)) (map2 (map2 (nadd (n := F64num))) (s_position s') (s_velocity s'))).
  { refine (m_map2 _ _ _ _ _ _ _ _ _ _ (com_up _ _ HX FX) HV). intros r r' v v' R V. apply (onr_map2 fadd (-400) 400 (-522) 465); try assumption. intros k x x' y y' K X Y. apply (on_add k K (-522) 465); try lia; [|exact Y]. apply on_le with (-400)%Z 400%Z; try lia. exact X. }
  destruct b as [b|], b' as [b'|]; cbn in B; try contradiction; [|split; [exact (com_down _ _ _ _ A)|assumption]]. apply bh_on; assumption.
Qed.

(** *** The loop *)
Variables (c c' : config) (e e' : env) (iters : nat) (pool : option nat).
Hypothesis HCF : scaled_config ks c c'.
Hypothesis HEF : scaled_env ks e e'.
Hypothesis NB : c_kind c <> Binary.
Hypothesis NS : c_bh c <> "shrink".
Hypothesis ND : NoDup (dkeys (c_options c)).
Hypothesis MD : moderate_draws e.
Hypothesis MC : moderate_coefficients c e iters.
Hypothesis FEW : few_reflections c e.
Variables (hp hv : list fmatrix).
Hypothesis MH : forall X, In X hp \/ In X hv -> fine X.

(** What is known about the first run beside the record. *)
Record Good (o : ostate) : Prop := mkGood {
  g_p : s_pbest_pos (o_swarm o) = s_position (o_swarm o) \/ fine (s_pbest_pos (o_swarm o));
  g_b : fine_best (s_best_pos (o_swarm o));
  g_bm : forall mm, o_bmem o = Some mm -> mm = s_position (o_swarm o) \/ fine mm;
  g_vm : forall mm, o_vmem o = Some mm -> mm = s_position (o_swarm o) \/ fine mm }.
Lemma fine_e : forall m : fmatrix, fine m <-> all_e (fun _ => moderate) m.
Proof.
  intros m. split; intros H.
  - intros i j x X. destruct (entry_row _ _ _ _ X) as (r & R & Rj). rewrite Forall_forall in H. specialize (H r (nth_error_In _ _ R)). rewrite Forall_forall in H. exact (H x (nth_error_In _ _ Rj)).
  - apply Forall_forall. intros r R. apply Forall_forall. intros x X. apply In_nth_error in R. destruct R as (i & R). apply In_nth_error in X. destruct X as (j & X). exact (row_entries _ _ _ _ H R j x X).
Qed.
Lemma fine_best_e : forall b, fine_best b <-> best_e (fun _ => moderate) b.
Proof.
  intros [|v|m]; unfold fine_best.
  - split; [intros _ i j x X; discriminate X|auto].
  - split; intros H; [intros i j x X; rewrite Forall_forall in H; exact (H x (nth_error_In _ _ X))|]. apply Forall_forall. intros x X. apply In_nth_error in X. destruct X as (j & X). exact (H 0 j x X).
  - apply fine_e.
Qed.
Lemma good_evaluate : forall i o o3 cost pp pc t bp bc np, Good o -> fine (s_position (o_swarm o)) -> Evald c e pool i o o3 cost pp pc t bp bc np -> Good o3 /\ fine (s_pbest_pos (o_swarm o3)).
Proof.
  intros i o o3 cost pp pc t bp bc np [P B BM VM] F (O & Q & G & ->).
  assert (PP : all_e (fun _ => moderate) pp).
  { refine (pbest_entries _ _ _ _ Q _ _); cbn [set_current_cost s_position s_pbest_pos]; apply fine_e; [exact F|]. destruct P as [Z|Z]; [rewrite Z; exact F|exact Z]. }
  pose proof (gbest_entries (fun _ => moderate) _ _ _ _ _ _ _ _ G PP (proj1 (fine_best_e _) B)) as GB.
  split; [constructor; cbn|cbn; apply fine_e; exact PP]; [right; apply fine_e; exact PP|apply fine_best_e; exact GB|exact BM|exact VM].
Qed.
Lemma RR_impl : forall A B (P Q : A -> B -> Prop) x y, (forall a b, P a b -> Q a b) -> RR P x y -> RR Q x y.
Proof. intros A B P Q [a|x] [b|y] H; cbn; auto. Qed.
Lemma strong_mems : forall x y, strong x y -> mems (scaled ks) x y.
Proof. intros x y [A B]. split; [exact (com_down _ _ _ _ A)|exact B]. Qed.
Lemma draws_m : forall i, Forall (Forall (grid (-60) 0)) (vd_u1 (e_vel e i)) /\ Forall (Forall (grid (-60) 0)) (vd_u2 (e_vel e i)).
Proof.
  intros i. destruct MD as [D _]. split; apply Forall_forall; intros r R; apply Forall_forall; intros x X; apply In_nth_error in R; destruct R as (a & R); apply In_nth_error in X; destruct X as (b & X);
    apply (D i a b); [left|right]; exact (entry_of _ _ _ _ _ R X).
Qed.
Lemma draws_r : forall i, Forall (grid (-60) 0) (bd_greater (e_bh e i)) /\ Forall (grid (-60) 0) (bd_lower (e_bh e i)).
Proof. intros i. destruct MD as [_ D]. split; apply Forall_forall; intros r R; apply (D i); auto. Qed.
Lemma coefficients_ok : forall i opts key x, oh_call (e_oh e i) (c_oh c) (c_options c) (mkOk (Some (Z.of_nat i)) (Some (Z.of_nat iters)) None None None None) = Ok opts ->
  In key ["w"; "c1"; "c2"] -> num_of (N := F64num) opts key = Ok x -> grid (-60) 60 x.
Proof.
  intros i opts key x H IN E. unfold num_of in E. destruct (dget opts key) as [q|] eqn:D; [|discriminate]. cbn in E. injection E as <-. exact (MC i key _ IN (coefficient_ok c e iters i opts key q ND H D)).
Qed.
Lemma velocity_step : forall i o o' opts, stl o o' -> Good o -> fine (s_position (o_swarm o)) -> fine (s_velocity (o_swarm o)) -> fine (s_pbest_pos (o_swarm o)) ->
  oh_call (e_oh e i) (c_oh c) (c_options c) (mkOk (Some (Z.of_nat i)) (Some (Z.of_nat iters)) None None None None) = Ok opts ->
  RR strong (compute_velocity (N := F64num) (e_vel e i) (c_vh c) (o_vmem o) (set_options (o_swarm o) opts) (c_clamp c) (c_bounds c))
    (compute_velocity (N := F64num) (e_vel e' i) (c_vh c') (o_vmem o') (set_options (o_swarm o') opts) (c_clamp c') (c_bounds c')).
Proof.
  intros i o o' opts H [P B BM VM] FX FV FP OH. destruct H as (HS & _ & _ & HVM & _). pose proof (swl_options (length ks) (scaled ks) _ _ opts HS) as S1.
  destruct HCF as (_ & _ & _ & _ & _ & Kb & Kc & _ & _ & _ & Kvh & _). destruct HEF as (_ & EV & _). rewrite Kvh, EV. destruct (draws_m i) as [D1 D2].
  apply velocity_sc; try assumption.
  - intros key x IN E. exact (coefficients_ok i opts key x OH IN E).
  - intros mm E. destruct (VM mm E) as [->|F]; assumption.
Qed.
Lemma update_sc : forall i o o' q, stl o o' -> Good o -> fine (s_position (o_swarm o)) -> fine (s_velocity (o_swarm o)) -> fine (s_pbest_pos (o_swarm o)) ->
  Like.steps (length ks) (scaled ks) (update_swarm c e iters i o q) (update_swarm c' e' iters i o' q).
Proof.
  intros i o o' q H G FX FV FP. pose proof HCF as (K & Kn & _ & _ & Ko & Kb & Kc & Kf & Ki & Kbh & Kvh & Koh). pose proof HEF as (EO & EV & EB & EOH & ET & ETR).
  assert (BN : forall T (x y : T), match c_kind c with Binary => x | _ => y end = y) by (intros; destruct (c_kind c); congruence).
  apply (update_at (length ks) (scaled ks) c c' e e' K Ko Koh EOH iters i o o' q H).
  - intros opts OH. rewrite !BN. eapply RR_impl; [exact strong_mems|]. apply velocity_step; auto.
  - intros opts v vm v' vm' _ OH V V' _. rewrite !BN in V, V'. pose proof (velocity_step i o o' opts H G FX FV FP (OH NB)) as S. rewrite V, V' in S. destruct S as [S _]. cbn [fst] in S.
    rewrite Kbh, EB. destruct (draws_r i) as [D1 D2]. destruct H as (HS & _ & HBM & _). sw HS. destruct G as [GP GB BM VM].
    apply position_sc; try assumption; [intros R; apply FEW; exact R|]. intros mm E. destruct (BM mm E) as [->|F]; assumption.
  - intros v v' B. contradiction.
Qed.
Lemma bh_memory : forall s (dr : bh_draws F64num) mem b (x p : fmatrix) m, bh_call (N := F64num) s dr mem b x = Ok (p, m) -> m = mem \/ m = Some p.
Proof.
  intros s dr mem b x p m H. unfold bh_call in H. destruct (negb (bh_known s)); [discriminate|]. destruct (negb (bounds_fit x b)); [discriminate|]. destruct (s =? "nearest")%string; [left; congruence|].
  destruct (s =? "reflective")%string; [apply bind_Ok in H; destruct H as (y & _ & H); left; congruence|]. destruct (s =? "shrink")%string; [apply bind_Ok in H; destruct H as (y & _ & H); right; congruence|].
  destruct (s =? "random")%string; [apply bind_Ok in H; destruct H as (y & _ & H); left; congruence|]. destruct (s =? "intermediate")%string; [apply bind_Ok in H; destruct H as (y & _ & H); right; congruence|]. left; congruence.
Qed.
Lemma position_memory : forall (dr : bh_draws F64num) bh mem (s : fswarm) b p m, compute_position (N := F64num) dr bh mem s b = Ok (p, m) -> m = mem \/ m = Some p.
Proof. intros dr bh mem s b p m H. unfold compute_position in H. destruct (negb _); [discriminate|]. destruct b as [b|]; [exact (bh_memory _ _ _ _ _ _ _ H)|left; congruence]. Qed.
Lemma vh_memory : forall s c mem (p : fmatrix) b z (v v' : fmatrix) m, vh_call (N := F64num) s c mem (mkVk (Some p) b z) v = Ok (v', m) -> m = mem \/ m = Some p.
Proof.
  intros s c0 mem p b z v v' m H. unfold vh_call in H. destruct (negb (vh_known s)); [discriminate|]. destruct (s =? "unmodified")%string; [apply bind_Ok in H; destruct H as (y & _ & H); left; congruence|].
  destruct (s =? "adjust")%string.
  { unfold vh_adjust in H. cbn [vk_position] in H. destruct mem as [mm|]; [|right; congruence]. destruct (negb _); [discriminate|]. apply bind_Ok in H; destruct H as (y & _ & H). right; congruence. }
  destruct (s =? "invert")%string; apply bind_Ok in H; destruct H as (y & _ & H); left; congruence.
Qed.
Lemma velocity_memory : forall (dr : vel_draws F64num) vh mem (s : fswarm) c b v m, compute_velocity (N := F64num) dr vh mem s c b = Ok (v, m) -> m = mem \/ m = Some (s_position s).
Proof.
  intros dr vh mem s c0 b v m H. unfold compute_velocity in H. repeat (apply bind_Ok in H; destruct H as (? & _ & H)). destruct (negb _); [discriminate|]. exact (vh_memory _ _ _ _ _ _ _ _ _ H).
Qed.
Lemma good_update : forall i o o2 opts v vm p bm, Good o -> fine (s_position (o_swarm o)) -> fine (s_pbest_pos (o_swarm o)) -> core_eq o o2 -> Updated c e iters i o o2 opts v vm p bm -> Good o2 /\ fine (s_pbest_pos (o_swarm o2)).
Proof.
  intros i o o2 opts v vm p bm [P B BM VM] FX FP CE U.
  assert (U0 : compute_velocity (e_vel e i) (c_vh c) (o_vmem o) (set_options (o_swarm o) opts) (c_clamp c) (c_bounds c) = Ok (v, vm) /\
    compute_position (e_bh e i) (c_bh c) (o_bmem o) (set_velocity (set_options (o_swarm o) opts) v) (c_bounds c) = Ok (p, bm)) by (unfold Updated in U; destruct (c_kind c); try congruence; apply U).
  assert (U1 : o_swarm o2 = set_position (set_velocity (set_options (o_swarm o) opts) v) p /\ o_vmem o2 = vm /\ o_bmem o2 = bm) by (unfold Updated in U; apply U).
  clear U. destruct U0 as [UV UP]. destruct U1 as (D1 & D2 & D3). rewrite <- (ce_pp _ _ CE) in FP. split; [|exact FP]. constructor.
  - right. exact FP.
  - rewrite (ce_bp _ _ CE). exact B.
  - rewrite D3, D1. cbn [set_position s_position]. intros mm E. destruct (position_memory _ _ _ _ _ _ _ UP) as [M|M]; [|left; congruence]. right. rewrite M in E. destruct (BM mm E) as [->|F]; assumption.
  - rewrite D2. intros mm E. right. destruct (velocity_memory _ _ _ _ _ _ _ _ UV) as [M|M]; [rewrite M in E; destruct (VM mm E) as [->|F]; assumption|]. rewrite M in E. injection E as <-. exact FX.
Qed.
Lemma loop_sc : forall m i o o' q, stl o o' -> Good o ->
  SpecDyn.prefix (o_pos_history (Prefixes.end_state (opt_loop c e pool iters m i o q))) hp -> SpecDyn.prefix (o_velocity_history (Prefixes.end_state (opt_loop c e pool iters m i o q))) hv ->
  Like.ends (length ks) (scaled ks) (opt_loop c e pool iters m i o q) (opt_loop c' e' pool iters m i o' q) /\
  match opt_loop c e pool iters m i o q with LDone z => moderate_bests z | LRaise _ _ => True end.
Proof.
  pose proof HCF as (K & Kn & _ & _ & Ko & Kb & Kc & Kf & Ki & Kbh & Kvh & Koh). pose proof HEF as (EO & EV & EB & EOH & ET & ETR).
  induction m as [|m IH]; intros i o o' q H G PF VF; [split; [exact H|]; cbn; destruct G as [A B _ _]; split; assumption|]. cbn [opt_loop] in PF, VF |- *.
  pose proof (fun i o q => loop_grows c e pool iters m i o q) as LG. unfold iteration in PF, VF |- *.
  pose proof (evaluate_co (length ks) (scaled ks) re_dim c c' e e' K Ko Kf Ki EO ET ETR pool i o o' q H) as E. pose proof (evaluate_cases c e pool i o q) as EC.
  assert (REC : forall o3 cost pp pc t bp bc np, Evald c e pool i o o3 cost pp pc t bp bc np -> SpecDyn.prefix (o_pos_history o3) hp -> SpecDyn.prefix (o_velocity_history o3) hv -> fine (s_position (o_swarm o)) /\ fine (s_velocity (o_swarm o))).
  { intros o3 cost pp pc t bp bc np (_ & _ & _ & ->) (r1 & P1) (r2 & P2). split; apply MH; [left; rewrite P1|right; rewrite P2]; apply in_or_app; left; cbn; apply in_or_app; right; left; reflexivity. }
  destruct (evaluate_swarm c e pool i o q) as [a p|a|a x], (evaluate_swarm c' e' pool i o' q) as [a' p'|a'|a' x']; cbn [Like.steps] in E; try contradiction.
  3: { split; [exact E|exact I]. }
  2: { split; [exact E|]. cbn [Prefixes.end_state] in PF, VF. destruct EC as (cost & pp & pc & t & bp & bc & np & EC & _). destruct (REC _ _ _ _ _ _ _ _ EC PF VF) as [FX _].
       destruct (good_evaluate _ _ _ _ _ _ _ _ _ _ G FX EC) as [[A B _ _] _]. split; assumption. }
  destruct E as [E ->]. destruct EC as (cost & pp & pc & t & bp & bc & np & EC & _).
  pose proof (update_cases c e iters i a p) as UC.
  assert (PA : SpecDyn.prefix (o_pos_history a) hp /\ SpecDyn.prefix (o_velocity_history a) hv).
  { destruct (update_swarm c e iters i a p) as [b p2|b|b x]; [|contradiction|].
    - destruct UC as (_ & CE & _). destruct (LG (Datatypes.S i) b p2) as (_ & _ & _ & L1 & L2). rewrite (ce_ph _ _ CE) in L1. rewrite (ce_vh _ _ CE) in L2.
      destruct L1 as (x1 & L1), L2 as (x2 & L2), PF as (y1 & PF), VF as (y2 & VF). rewrite L1, <- app_assoc in PF. rewrite L2, <- app_assoc in VF. split; eexists; eassumption.
    - destruct UC as (CE & _). cbn [Prefixes.end_state] in PF, VF. rewrite (ce_ph _ _ CE) in PF. rewrite (ce_vh _ _ CE) in VF. split; assumption. }
  destruct (REC _ _ _ _ _ _ _ _ EC (proj1 PA) (proj2 PA)) as [FX FV]. destruct (good_evaluate _ _ _ _ _ _ _ _ _ _ G FX EC) as [GA FP].
  assert (SX : s_position (o_swarm a) = s_position (o_swarm o) /\ s_velocity (o_swarm a) = s_velocity (o_swarm o)) by (destruct EC as (_ & _ & _ & ->); split; reflexivity). destruct SX as [SX SV].
  rewrite <- SX in FX. rewrite <- SV in FV. pose proof (update_sc i a a' p E GA FX FV FP) as U.
  destruct (update_swarm c e iters i a p) as [b p2|b|b x], (update_swarm c' e' iters i a' p) as [b' p2'|b'|b' x']; cbn [Like.steps] in U; try contradiction.
  - destruct U as [U ->]. destruct UC as (_ & CE & opts & v & vm & x & bm & UC). apply IH; [exact U| |exact PF|exact VF]. exact (proj1 (good_update _ _ _ _ _ _ _ _ GA FX FP CE UC)).
  - split; [exact U|exact I].
Qed.
End W.

(** *** The results *)
Lemma scale_construct : forall ks c c' top dr dr' o o', scaled_config ks c c' -> construct c top dr = Ok o -> construct c' top dr' = Ok o' ->
  Forall2 (scaled ks) (s_position (o_swarm o)) (s_position (o_swarm o')) -> Forall2 (scaled ks) (s_velocity (o_swarm o)) (s_velocity (o_swarm o')) ->
  state_like (length ks) (scaled ks) o o' /\ moderate_bests o.
Proof.
  assert (G : forall c top dr o, construct c top dr = Ok o -> exists p v, o = mkOstate (new_swarm (N := F64num) finf (match p with [] => c_d c | r :: _ => length r end) p v (c_options c)) top None None [] [] [] [] []).
  { intros c top dr o H. unfold construct in H. destruct (match c_kind c with LocalBest | Binary => _ | _ => _ end); [|discriminate]. cbn [bind] in H. destruct (Nat.eqb _ _); [discriminate|].
    destruct (make_swarm c dr) as [s|] eqn:M; [|discriminate]. cbn [bind] in H. injection H as <-.
    assert (C : forall n d ds bi op b ce init cl s, create_swarm n d ds bi op b ce init cl dr = Ok s -> exists p v, s = new_swarm (N := F64num) finf (match p with [] => d | r :: _ => length r end) p v op).
    { clear. intros n d ds bi op b ce init cl s H. unfold create_swarm in H. destruct (if ds then _ else _) as [p|]; [|discriminate]. cbn [bind] in H. destruct (generate_velocity d cl (cd_vel dr)) as [v|]; [|discriminate].
      cbn [bind] in H. injection H as <-. exists p, v. reflexivity. }
    unfold make_swarm in M. destruct (c_kind c); destruct (C _ _ _ _ _ _ _ _ _ _ M) as (p & v & ->); exists p, v; reflexivity. }
  intros ks c c' top dr dr' o o' HC H H' P V. destruct (G _ _ _ _ H) as (p & v & ->). destruct (G _ _ _ _ H') as (p' & v' & ->). destruct HC as (_ & _ & D & D' & Ko & _).
  split; [|split; [left; reflexivity|exact I]]. cbn [o_swarm new_swarm s_position s_velocity] in P, V. unfold state_like, swarm_like, new_swarm. cbn [o_swarm o_top o_bmem o_vmem o_cost_history o_mean_pbest_history o_mean_neighbor_history o_pos_history o_velocity_history s_position s_velocity s_n s_d s_options s_pbest_pos s_best_pos s_pbest_cost s_best_cost s_best_np s_current_cost].
  split; [|repeat (split; [first [reflexivity|exact I]|]); split; constructor].
  split; [exact P|]. split; [exact V|]. split; [exact (col_len (scaled ks) _ _ P)|]. split; [destruct P as [|r r' m m' R F]; [exact D|exact (proj1 (sca_len _ _ _ R))]|].
  split; [destruct P as [|r r' m m' R F]; [exact D'|exact (proj2 (sca_len _ _ _ R))]|]. split; [exact Ko|]. split; [exact P|]. split; [exact I|]. repeat split.
Qed.
Lemma scale_optimize : forall ks c c' e e' pool iters o o', factors ks -> scaled_config ks c c' -> scaled_env ks e e' -> c_kind c <> Binary -> c_bh c <> "shrink" -> NoDup (dkeys (c_options c)) ->
  moderate_draws e -> moderate_coefficients c e iters -> few_reflections c e -> state_like (length ks) (scaled ks) o o' -> moderate_bests o -> moderate_record (fst (optimize c e pool iters o)) ->
  state_like (length ks) (scaled ks) (fst (optimize c e pool iters o)) (fst (optimize c' e' pool iters o')) /\
  result_like (scaled ks) (snd (optimize c e pool iters o)) (snd (optimize c' e' pool iters o')) /\
  forall cost pos, snd (optimize c e pool iters o) = Ok (cost, pos) -> moderate_bests (fst (optimize c e pool iters o)).
Proof.
  intros ks c c' e e' pool iters o o' KS HC HE NB NS ND MD MC FW H MB MR. pose proof HC as (K & Kn & _ & _ & Ko & Kb & Kc & Kf & Ki & Kbh & Kvh & Koh).
  pose proof (Like.start_co (length ks) (scaled ks) c c' K o o' H) as S0.
  assert (S1 : state_like (length ks) (scaled ks) (started c o) (started c' o')).
  { unfold started, start_pbest. rewrite Kn. apply Like.stl_swarm; [exact S0|]. unfold set_pbest_cost. apply Like.swl_pbest; [apply S0|]. destruct S0 as (HS & _). apply HS. }
  assert (SM : forall o, start_memory c o = with_vmem (with_bmem o (Some (s_position (o_swarm o)))) (Some (s_position (o_swarm o)))) by (intros; unfold start_memory; destruct (c_kind c); congruence).
  assert (GS : Good (started c o)).
  { unfold started. rewrite SM. destruct MB as [M1 M2]. constructor; cbn; [exact M1|exact M2|intros mm E; left; congruence|intros mm E; left; congruence]. }
  destruct pool as [[|n]|]; [split; [exact S0|]; split; [reflexivity|discriminate]| |].
  1: set (pool := Some (Datatypes.S n)) in *. 2: set (pool := @None nat) in *.
  1, 2: assert (PN : pool <> Some 0) by discriminate; rewrite (optimize_loop _ _ _ _ _ PN) in MR |- *; rewrite (optimize_loop c' _ _ _ _ PN);
    set (hp := o_pos_history (Prefixes.end_state (opt_loop c e pool iters iters 0 (started c o) []))); set (hv := o_velocity_history (Prefixes.end_state (opt_loop c e pool iters iters 0 (started c o) [])));
    assert (MH : forall X, In X hp \/ In X hv -> Forall (Forall moderate) X) by (unfold hp, hv; intros X IN; apply MR; destruct (opt_loop c e pool iters iters 0 (started c o) []); exact IN);
    destruct (loop_sc ks KS c c' e e' iters pool HC HE NB NS ND MD MC FW hp hv MH iters 0 _ _ [] S1 GS (ex_intro _ [] (eq_sym (app_nil_r _))) (ex_intro _ [] (eq_sym (app_nil_r _)))) as [L LB];
    destruct (opt_loop c e pool iters iters 0 (started c o) []) as [z|z x], (opt_loop c' e' pool iters iters 0 (started c' o') []) as [z'|z' x']; cbn [Like.ends] in L; try contradiction; cbn [fst snd];
    [split; [exact L|split; [apply (Like.final_co (length ks)); exact L|intros; exact LB]]|destruct L as [L ->]; split; [exact L|split; [reflexivity|discriminate]]].
Qed.
Lemma moderate_range : forall x, ffinite x = true -> FR x = 0%R \/ (bpow radix2 (-347) <= Rabs (FR x) <= bpow radix2 400)%R -> moderate x.
Proof.
  intros x F H. destruct H as [H|[H1 H2]].
  - split; [exact F|]. split; [exists 0%Z; rewrite H; ring|]. rewrite H, Rabs_R0. apply bpow_ge_0.
  - split; [exact F|]. split; [|exact H2]. pose proof (F64Facts.rnd_id x) as E. rewrite <- E. assert (N : FR x <> 0%R) by (intros Z; rewrite Z, Rabs_R0 in H1; pose proof (bpow_gt_0 radix2 (-347)); apply (Rlt_irrefl 0); eapply Rlt_le_trans; eauto).
    apply mult_le with (cexp radix2 F64Facts.fexp64 (FR x)); [|exists (ZnearestE (scaled_mantissa radix2 F64Facts.fexp64 (FR x))); reflexivity].
    assert (G : (-347 < mag radix2 (FR x))%Z) by (apply lt_bpow with radix2; eapply Rle_lt_trans; [exact H1|apply bpow_mag_gt]). revert G. unfold cexp. generalize (mag_val radix2 (FR x) (mag radix2 (FR x))). intros g G. rewrite F64More.fexp64_FLT. unfold FLT_exp. change F64.prec with 53%Z. lia.
Qed.
