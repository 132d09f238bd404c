(** Mirroring dimensions mirrors the run (C75). *)
From Coq Require Import String ZArith List Arith Bool Lia.
From Verif Require Import Prelude ListFacts F64 F64Facts Num Np NpFacts Handlers Swarms Operators Generators Topology Optimizers Spec SpecHandlers SpecLike SpecMirror Like MirrorFacts RunFacts.
Import ListNotations.
Local Open Scope string_scope.
Local Open Scope list_scope.
Local Open Scope nat_scope.

(** *** Rows *)
Lemma mir_len : forall fl (r r' : frow), mirrored fl r r' -> length r = length fl /\ length r' = length fl.
Proof. induction fl as [|m fl IH]; intros [|x r] [|x' r'] H; cbn in H; try contradiction; [auto|]. destruct H as [_ H]. destruct (IH _ _ H) as [A B]. split; cbn [length]; apply f_equal; assumption. Qed.
Lemma box_len : forall fl (l h l' h' : frow), mirrored_box fl l h l' h' -> length l = length fl /\ length h = length fl /\ length l' = length fl /\ length h' = length fl.
Proof.
  induction fl as [|m fl IH]; intros [|x l] [|y h] [|x' l'] [|y' h'] H; cbn in H; try contradiction; [auto|]. destruct H as (_ & _ & H). destruct (IH _ _ _ _ H) as (A & B & C & D).
  repeat split; cbn [length]; apply f_equal; assumption.
Qed.
Lemma mir_map2 : forall (f f' : f64 -> f64 -> f64) fl a a' b b', (forall m x x' y y', turned m x x' -> turned m y y' -> turned m (f x y) (f' x' y')) ->
  mirrored fl a a' -> mirrored fl b b' -> mirrored fl (map2 f a b) (map2 f' a' b').
Proof.
  intros f f' fl a a' b b' G. revert a a' b b'. induction fl as [|m fl IH]; intros [|x a] [|x' a'] [|y b] [|y' b'] A B; cbn in A, B; try contradiction; [exact I|].
  destruct A as [X A], B as [Y B]. cbn. split; [apply G; assumption|apply IH; assumption].
Qed.
Lemma mir_map : forall (f f' : f64 -> f64) fl a a', (forall m x x', turned m x x' -> turned m (f x) (f' x')) -> mirrored fl a a' -> mirrored fl (map f a) (map f' a').
Proof.
  intros f f' fl a a' G. revert a a'. induction fl as [|m fl IH]; intros [|x a] [|x' a'] A; cbn in A; try contradiction; [exact I|].
  destruct A as [X A]. cbn. split; [apply G; assumption|apply IH; assumption].
Qed.
Lemma mir_box3 : forall (f : f64 -> f64 -> f64 -> f64) fl a a' l h l' h', (forall m x x' l h l' h', turned m x x' -> edge m l h l' h' -> flt h l = false -> turned m (f x l h) (f x' l' h')) ->
  mirrored fl a a' -> mirrored_box fl l h l' h' -> mirrored fl (map3 f a l h) (map3 f a' l' h').
Proof.
  intros f fl a a' l h l' h' G. revert a a' l h l' h'. induction fl as [|m fl IH]; intros [|x a] [|x' a'] [|p l] [|q h] [|p' l'] [|q' h'] A B; cbn in A, B; try contradiction; [exact I|].
  destruct A as [X A], B as (Y & P & B). cbn. split; [apply G; assumption|apply IH; assumption].
Qed.
Lemma mir_box4 : forall (f : f64 -> f64 -> f64 -> f64 -> f64) fl a a' b b' l h l' h',
  (forall m x x' y y' l h l' h', turned m x x' -> turned m y y' -> edge m l h l' h' -> flt h l = false -> turned m (f x y l h) (f x' y' l' h')) ->
  mirrored fl a a' -> mirrored fl b b' -> mirrored_box fl l h l' h' -> mirrored fl (map4 f a b l h) (map4 f a' b' l' h').
Proof.
  intros f fl a a' b b' l h l' h' G. revert a a' b b' l h l' h'. induction fl as [|m fl IH]; intros [|x a] [|x' a'] [|y b] [|y' b'] [|p l] [|q h] [|p' l'] [|q' h'] A C B; cbn in A, B, C; try contradiction; [exact I|].
  destruct A as [X A], C as [Y C], B as (Z & P & B). cbn. split; [apply G; assumption|apply IH; assumption].
Qed.
Lemma mir_velocity : forall c1 c2 w fl (u1 u2 x x' v v' p p' b b' : frow), length u1 = length fl -> length u2 = length fl -> mirrored fl x x' -> mirrored fl v v' -> mirrored fl p p' -> mirrored fl b b' ->
  mirrored fl (velocity_row (N := F64num) c1 c2 w u1 u2 x v p b) (velocity_row (N := F64num) c1 c2 w u1 u2 x' v' p' b').
Proof.
  intros c1 c2 w. induction fl as [|m fl IH]; intros [|a1 u1] [|a2 u2] [|a3 x] [|a3' x'] [|a4 v] [|a4' v'] [|a5 p] [|a5' p'] [|a6 b] [|a6' b'] U1 U2 X V P B; cbn in U1, U2, X, V, P, B; try discriminate; try contradiction; [exact I|].
  destruct X as [X0 X], V as [V0 V], P as [P0 P], B as [B0 B]. cbn [velocity_row mirrored]. split; [|apply IH; [exact (eq_add_S _ _ U1)|exact (eq_add_S _ _ U2)|assumption..]].
  unfold velocity_el. cbn [nadd nsub nmul F64num]. apply turned_add; [apply turned_add|]; apply turned_mul; try assumption; apply turned_sub; assumption.
Qed.

Lemma shape_draw_gen : forall A B d (m m' : list (list A)) (u : list (list B)), Forall2 (fun r r' => length r = d /\ length r' = d) m m' -> same_shape m' u = same_shape m u.
Proof.
  intros A B d m m' u H. unfold same_shape. rewrite <- (Forall2_len _ _ _ H). f_equal. revert u. induction H as [|r r' m m' R F IH]; intros u; [reflexivity|]. destruct u as [|a u]; [reflexivity|]. cbn.
  rewrite (IH u). destruct R as [R1 R2]. rewrite R1, R2. reflexivity.
Qed.

Section M.
Variable flips : list bool.
Notation re := (mirrored flips).
Notation co := (Forall2 (mirrored flips)).
Notation bl := (mirrored_bounds flips).
Notation cl := (mirrored_clamp flips).
Let d := length flips.
Lemma re_dim : forall r r' : frow, re r r' -> length r = d /\ length r' = d.
Proof. apply mir_len. Qed.
Lemma com_map : forall (f f' : frow -> frow) m m', (forall r r', re r r' -> re (f r) (f' r')) -> co m m' -> co (map f m) (map f' m').
Proof. intros f f' m m' H F. induction F as [|r r' m m' R F IH]; cbn; constructor; auto. Qed.
Lemma com_map2 : forall (f f' : frow -> frow -> frow) m m' n n', (forall r r' s s', re r r' -> re s s' -> re (f r s) (f' r' s')) ->
  co m m' -> co n n' -> co (map2 f m n) (map2 f' m' n').
Proof. intros f f' m m' n n' H F. revert n n'. induction F as [|r r' m m' R F IH]; intros n n' G; [constructor|]. destruct G; cbn; constructor; [apply H; assumption|apply IH; assumption]. Qed.
Lemma com_velocity : forall c1 c2 w (u1 u2 x x' v v' p p' b b' : fmatrix), same_shape x u1 = true -> same_shape x u2 = true -> co x x' -> co v v' -> co p p' -> co b b' ->
  co (velocity_mat (N := F64num) c1 c2 w u1 u2 x v p b) (velocity_mat (N := F64num) c1 c2 w u1 u2 x' v' p' b').
Proof.
  intros c1 c2 w u1 u2 x x' v v' p p' b b' S1 S2 H. revert u1 u2 v v' p p' b b' S1 S2. induction H as [|r r' m m' R F IH]; intros u1 u2 v v' p p' b b' S1 S2 H4 H5 H6.
  - destruct u1; [|discriminate S1]. constructor.
  - destruct u1 as [|a1 u1]; [discriminate S1|]. destruct u2 as [|a2 u2]; [discriminate S2|]. unfold same_shape in S1, S2. cbn in S1, S2.
    apply andb_prop in S1. apply andb_prop in S2. destruct S1 as [L1 S1], S2 as [L2 S2]. apply andb_prop in S1. apply andb_prop in S2. destruct S1 as [E1 S1], S2 as [E2 S2].
    destruct H4 as [|? ? ? ? V ?]; [constructor|]. destruct H5 as [|? ? ? ? P ?]; [constructor|]. destruct H6 as [|? ? ? ? B ?]; [constructor|]. cbn [velocity_mat].
    destruct (re_dim _ _ R) as [D _]. apply Nat.eqb_eq in E1. apply Nat.eqb_eq in E2.
    constructor; [apply mir_velocity; [exact (eq_trans (eq_sym E1) D)|exact (eq_trans (eq_sym E2) D)|assumption..]|]. apply IH; try assumption; unfold same_shape; apply andb_true_intro; split; assumption.
Qed.
Lemma com_forallb : forall (f f' : frow -> bool) m m', (forall r r', re r r' -> f' r' = f r) -> co m m' -> forallb f' m' = forallb f m.
Proof. intros f f' m m' H F. induction F as [|r r' m m' R F IH]; [reflexivity|]. cbn. rewrite (H _ _ R), IH. reflexivity. Qed.
Lemma com_existsb : forall (f f' : frow -> bool) m m', (forall r r', re r r' -> f' r' = f r) -> co m m' -> existsb f' m' = existsb f m.
Proof. intros f f' m m' H F. induction F as [|r r' m m' R F IH]; [reflexivity|]. cbn. rewrite (H _ _ R), IH. reflexivity. Qed.
Lemma com_shape : forall (m m' n n' : fmatrix), co m m' -> co n n' -> same_shape m' n' = same_shape m n.
Proof. exact (col_shape d (mirrored flips) re_dim). Qed.
Lemma shape_draw : forall (m m' u : fmatrix), co m m' -> same_shape m' u = same_shape m u.
Proof.
  intros m m' u H. apply (shape_draw_gen f64 f64 d). induction H as [|r r' m m' R F IH]; constructor; [exact (re_dim _ _ R)|exact IH].
Qed.

(** *** Leaving the box *)
Lemma out_mir : forall fl (r r' l h l' h' : frow), mirrored fl r r' -> mirrored_box fl l h l' h' ->
  existsb (fun x => x) (map2 flt r' l') || existsb (fun x => x) (map2 (fun x u => flt u x) r' h') =
  existsb (fun x => x) (map2 flt r l) || existsb (fun x => x) (map2 (fun x u => flt u x) r h).
Proof.
  induction fl as [|m fl IH]; intros [|x r] [|x' r'] [|p l] [|q h] [|p' l'] [|q' h'] A B; cbn [mirrored mirrored_box] in A, B; try contradiction; [reflexivity|].
  destruct A as [X A], B as (Z & P & B). specialize (IH _ _ _ _ _ _ A B). cbn [map2 existsb]. pose proof (edge_lt m x x' p q p' q' X Z) as E.
  revert IH. generalize (existsb (fun x => x) (map2 flt r' l')), (existsb (fun x => x) (map2 (fun x u => flt u x) r' h')), (existsb (fun x => x) (map2 flt r l)), (existsb (fun x => x) (map2 (fun x u => flt u x) r h)). intros a b a0 b0 IH.
  destruct m; injection E as -> ->; destruct (flt x p), (flt q x), a, b, a0, b0; cbn in *; congruence.
Qed.
Lemma swap_mir : forall fl (r r' l h l' h' : frow), Forall (fun m => m = true) fl -> mirrored fl r r' -> mirrored_box fl l h l' h' ->
  existsb (fun x => x) (map2 flt r' l') = existsb (fun x => x) (map2 (fun x u => flt u x) r h) /\
  existsb (fun x => x) (map2 (fun x u => flt u x) r' h') = existsb (fun x => x) (map2 flt r l).
Proof.
  induction fl as [|m fl IH]; intros [|x r] [|x' r'] [|p l] [|q h] [|p' l'] [|q' h'] AL A B; cbn [mirrored mirrored_box] in A, B; try contradiction; [split; reflexivity|].
  inversion AL as [|? ? M AL']; subst. destruct A as [X A], B as (Z & P & B). destruct (IH _ _ _ _ _ _ AL' A B) as [I1 I2]. cbn [map2 existsb]. pose proof (edge_lt true x x' p q p' q' X Z) as E.
  injection E as -> ->. rewrite I1, I2. split; reflexivity.
Qed.
Lemma row_out : forall (r r' : frow) b b', re r r' -> bl b b' -> row_lower r' b' || row_greater r' b' = row_lower r b || row_greater r b.
Proof. intros r r' b b' R (B & _). exact (out_mir _ _ _ _ _ _ _ R B). Qed.
Lemma any_mir : forall (m m' : fmatrix) b b', co m m' -> bl b b' -> any_out m' b' = any_out m b.
Proof. intros m m' b b' M B. unfold any_out. apply com_existsb with (2 := M). intros r r' R. apply row_out; assumption. Qed.
Lemma fit_mir : forall (m m' : fmatrix) b b', co m m' -> bl b b' -> bounds_fit m' b' = bounds_fit m b.
Proof.
  intros m m' b b' M B. unfold bounds_fit. destruct B as (B & _). destruct (box_len _ _ _ _ _ B) as (L1 & L2 & L3 & L4).
  assert (E : Nat.eqb (length (b_lb b')) (length (b_ub b')) = Nat.eqb (length (b_lb b)) (length (b_ub b))) by (apply f_equal2; congruence).
  apply f_equal2; [exact E|]. apply com_forallb with (2 := M). intros r r' R. destruct (re_dim _ _ R) as [R1 R2]. apply f_equal2; congruence.
Qed.
Lemma box_co : forall (f : f64 -> f64 -> f64 -> f64) (m m' : fmatrix) b b',
  (forall m x x' l h l' h', turned m x x' -> edge m l h l' h' -> flt h l = false -> turned m (f x l h) (f x' l' h')) -> co m m' -> bl b b' ->
  co (map (fun r => map3 f r (b_lb b) (b_ub b)) m) (map (fun r => map3 f r (b_lb b') (b_ub b')) m').
Proof. intros f m m' b b' G M (B & _). apply com_map with (2 := M). intros r r' R. apply mir_box3; assumption. Qed.
Lemma reflective_mir : forall fuel (m m' : fmatrix) b b', co m m' -> bl b b' -> RR co (reflective_loop (N := F64num) fuel b m) (reflective_loop (N := F64num) fuel b' m').
Proof.
  induction fuel as [|fuel IH]; intros m m' b b' M B; cbn [reflective_loop]; rewrite (any_mir _ _ _ _ M B); destruct (any_out m b); cbn [RR]; auto.
  apply IH; [|exact B]. apply (box_co (reflect_el (N := F64num))); [exact reflect_turned|assumption|assumption].
Qed.
Notation mems := (mems (mirrored flips)).
Lemma bh_mir : forall s dr dr' mem mem' b b' (m m' : fmatrix), s <> "shrink" -> s <> "random" -> co m m' -> bl b b' -> maybe co mem mem' -> bd_fuel dr' = bd_fuel dr ->
  RR mems (bh_call (N := F64num) s dr mem b m) (bh_call (N := F64num) s dr' mem' b' m').
Proof.
  intros s dr dr' mem mem' b b' m m' NS NR M B ME FU. unfold bh_call. destruct (bh_known s); [|reflexivity]. cbn [negb].
  rewrite (fit_mir _ _ _ _ M B). destruct (bounds_fit m b); [|reflexivity]. cbn [negb].
  destruct (s =? "nearest")%string. { cbn. split; [apply (box_co (nearest_el (N := F64num))); [exact nearest_turned|assumption|assumption]|exact ME]. }
  destruct (s =? "reflective")%string.
  { apply RR_bind with (P := co); [|intros; cbn; split; assumption]. unfold reflective. rewrite FU, (any_mir _ _ _ _ M B).
    replace (b_arr b') with (b_arr b) by (destruct B as (_ & E); symmetry; exact E).
    destruct (any_out m b && negb (b_arr b)); [reflexivity|]. apply reflective_mir; assumption. }
  destruct (String.eqb_spec s "shrink") as [E|_]; [contradiction|].
  destruct (String.eqb_spec s "random") as [E|_]; [contradiction|].
  destruct (s =? "intermediate")%string.
  { apply RR_bind with (P := co); [|intros; cbn; split; assumption]. unfold intermediate. destruct mem as [mm|], mem' as [mm'|]; cbn in ME; try contradiction; [|cbn; exact M]. change (co mm mm') in ME.
    replace (b_arr b') with (b_arr b) by (destruct B as (_ & E); symmetry; exact E). destruct (negb (b_arr b)); [reflexivity|].
    rewrite (com_shape _ _ _ _ M ME). destruct (same_shape m mm); [|reflexivity]. cbn [negb RR]. apply com_map2 with (2 := M) (3 := ME).
    intros r r' q q' R Q. destruct B as (B & _). apply (mir_box4 (intermediate_el (N := F64num))); [exact intermediate_turned|assumption|assumption|assumption]. }
  cbn. split; [apply (box_co (periodic_el (N := F64num))); [exact periodic_turned|assumption|assumption]|exact ME].
Qed.

(** *** Velocity strategies *)
Lemma clamp_mir : forall c c' (m m' : fmatrix), maybe cl c c' -> co m m' -> RR co (maybe_clamp (N := F64num) c m) (maybe_clamp (N := F64num) c' m').
Proof.
  intros [[a b]|] [[a' b']|] m m' C M; cbn in C; try contradiction; [|exact M]. unfold mirrored_clamp in C. cbn [fst snd] in C. destruct (box_len _ _ _ _ _ C) as (L1 & L2 & L3 & L4). unfold maybe_clamp, apply_clamp.
  replace (clamp_fit m' (a', b')) with (clamp_fit m (a, b)).
  - destruct (clamp_fit m (a, b)); [|reflexivity]. cbn [RR]. apply com_map with (2 := M). intros r r' R. apply (mir_box3 (clamp_el (N := F64num))); [exact clamp_turned|assumption|assumption].
  - symmetry. unfold clamp_fit. apply com_forallb with (2 := M). intros r r' R. destruct (re_dim _ _ R) as [R1 R2]. cbn [fst snd]. apply f_equal2; apply f_equal2; congruence.
Qed.
Lemma zero_mir : forall fl (v v' : frow), mirrored fl v v' -> mirrored fl (map (fun _ => fzero) v) (map (fun _ => fzero) v').
Proof. intros fl v v' V. apply mir_map with (2 := V). intros [] x x' _; left; reflexivity. Qed.
Lemma vh_mir : forall s c c' mem mem' p p' b b' z (m m' : fmatrix), (s = "invert" -> Forall (fun m => m = true) flips) -> maybe cl c c' -> maybe co mem mem' -> co p p' -> maybe bl b b' -> co m m' ->
  RR mems (vh_call (N := F64num) s c mem (mkVk (Some p) (Some b) z) m) (vh_call (N := F64num) s c' mem' (mkVk (Some p') (Some b') z) m').
Proof.
  intros s c c' mem mem' p p' b b' z m m' NI C ME P B M. unfold vh_call. destruct (vh_known s); [|reflexivity]. cbn [negb].
  destruct (s =? "unmodified")%string. { apply RR_bind with (P := co); [apply clamp_mir; assumption|intros; cbn; split; assumption]. }
  destruct (s =? "adjust")%string.
  { unfold vh_adjust. cbn [vk_position]. destruct mem as [mm|], mem' as [mm'|]; cbn in ME; try contradiction; [|cbn; split; assumption]. change (co mm mm') in ME.
    rewrite (com_shape _ _ _ _ P ME). destruct (same_shape p mm); [|reflexivity]. cbn [negb]. apply RR_bind with (P := co); [|intros; cbn; split; assumption].
    apply clamp_mir; [exact C|]. apply com_map2 with (2 := P) (3 := ME). intros. apply (mir_map2 fsub fsub); [exact turned_sub|assumption|assumption]. }
  assert (VG : RR (fun x y => co (fst x) (fst y) /\ bl (snd x) (snd y)) (vk_get (N := F64num) (mkVk (Some p) (Some b) z)) (vk_get (N := F64num) (mkVk (Some p') (Some b') z))).
  { unfold vk_get. cbn [vk_position vk_bounds]. destruct b as [b|], b' as [b'|]; cbn in B; try contradiction; [|reflexivity].
    rewrite (fit_mir _ _ _ _ P B). destruct (bounds_fit p b); [|reflexivity]. cbn. split; assumption. }
  destruct (String.eqb_spec s "invert") as [SI|_].
  { apply RR_bind with (P := co); [|intros; cbn; split; assumption]. unfold vh_invert. eapply RR_bind; [exact VG|]. intros [q e] [q' e'] [Q E]. cbn [fst snd] in Q, E. change (co q q') in Q.
    rewrite (com_shape _ _ _ _ M Q). destruct (same_shape m q); [|reflexivity]. cbn [negb]. apply clamp_mir; [exact C|]. apply com_map2 with (2 := Q) (3 := M).
    intros r r' v v' R V. unfold invert_row. destruct E as (E & _). destruct (swap_mir _ _ _ _ _ _ _ (NI SI) R E) as [S1 S2].
    change (row_lower r' e' = row_greater r e) in S1. change (row_greater r' e' = row_lower r e) in S2. rewrite S1, S2.
    destruct (row_lower r e), (row_greater r e); repeat (apply mir_map; [intros; apply turned_mul; assumption|]); assumption. }
  apply RR_bind with (P := co); [|intros; cbn; split; assumption]. unfold vh_zero. eapply RR_bind; [exact VG|]. intros [q e] [q' e'] [Q E]. cbn [fst snd] in Q, E. change (co q q') in Q.
  rewrite (com_shape _ _ _ _ M Q). destruct (same_shape m q); [|reflexivity]. cbn [negb RR]. apply com_map2 with (2 := Q) (3 := M).
  intros r r' v v' R V. unfold zero_row. rewrite (row_out _ _ _ _ R E). destruct (row_lower r e || row_greater r e); [|exact V].
  change (nofZ (n := F64num) 0) with (fofZ 0). apply mir_map with (2 := V). intros [] x x' _; left; reflexivity.
Qed.

(** *** Velocity and position *)
Notation swl := (swarm_like (length flips) (mirrored flips)).
Notation stl := (state_like (length flips) (mirrored flips)).
Ltac sw H := destruct H as (HX & HV & HN & HD & HD' & HO & HP & HB & HC & HBC & HNP & HCC).
Lemma com_repeat : forall (v v' : frow) n, re v v' -> co (repeat v n) (repeat v' n).
Proof. intros v v' n H. induction n; cbn; constructor; auto. Qed.
Lemma velocity_mir : forall dr vh vm vm' s s' c c' b b', (vh = "invert" -> Forall (fun m => m = true) flips) -> swl s s' -> maybe co vm vm' -> maybe cl c c' -> maybe bl b b' ->
  RR mems (compute_velocity (N := F64num) dr vh vm s c b) (compute_velocity (N := F64num) dr vh vm' s' c' b').
Proof.
  intros dr vh vm vm' s s' c c' b b' NI H VM C B. sw H. unfold compute_velocity. rewrite HO.
  destruct (num_of (s_options s) "c1") as [c1|e]; cbn [bind]; [|reflexivity]. destruct (num_of (s_options s) "c2") as [c2|e]; cbn [bind]; [|reflexivity].
  destruct (num_of (s_options s) "w") as [w|e]; cbn [bind]; [|reflexivity].
  assert (BR : RR co (best_rows (N := F64num) (length (s_position s)) (s_d s) (s_best_pos s)) (best_rows (N := F64num) (length (s_position s')) (s_d s') (s_best_pos s'))).
  { rewrite (col_len (mirrored flips) _ _ HX), HD, HD'. destruct (s_best_pos s) as [|v|m], (s_best_pos s') as [|v'|m']; cbn in HB; try contradiction; unfold best_rows.
    - destruct flips as [|? [|]]; try reflexivity. cbn [RR length]. clear. induction (length (s_position s)); cbn; constructor; [exact I|assumption].
    - cbn [RR]. apply com_repeat. exact HB.
    - exact HB. }
  eapply RR_bind; [exact BR|]. intros bst bst' E. change (co (bst : fmatrix) (bst' : fmatrix)) in E.
  rewrite (com_shape _ _ _ _ HX HP), (com_shape _ _ _ _ HX E), (com_shape _ _ _ _ HX HV), (shape_draw _ _ (vd_u1 dr) HX), (shape_draw _ _ (vd_u2 dr) HX).
  destruct (same_shape (s_position s) (s_pbest_pos s) && same_shape (s_position s) bst && same_shape (s_position s) (s_velocity s)); [|reflexivity]. cbn [andb].
  destruct (same_shape (s_position s) (vd_u1 dr)) eqn:U1; [|reflexivity]. destruct (same_shape (s_position s) (vd_u2 dr)) eqn:U2; [|reflexivity]. cbn [andb negb].
  apply vh_mir; try assumption. apply com_velocity; assumption.
Qed.
Lemma position_mir : forall dr dr' bh bm bm' s s' b b', bh <> "shrink" -> bh <> "random" -> swl s s' -> bd_fuel dr' = bd_fuel dr ->
  maybe co bm bm' -> maybe bl b b' -> RR mems (compute_position (N := F64num) dr bh bm s b) (compute_position (N := F64num) dr' bh bm' s' b').
Proof.
  intros dr dr' bh bm bm' s s' b b' NS NR H FU BM B. sw H. unfold compute_position. rewrite (com_shape _ _ _ _ HX HV). destruct (negb _); [reflexivity|].
  assert (A : co (map2 (map2 (nadd (n := F64num))) (s_position s) (s_velocity s)) (map2 (map2 (nadd (n := F64num))) (s_position s') (s_velocity s'))).
  { apply com_map2 with (2 := HX) (3 := HV). intros. apply (mir_map2 fadd fadd); [exact turned_add|assumption|assumption]. }
  destruct b as [b|], b' as [b'|]; cbn in B; try contradiction; [|split; assumption]. apply bh_mir; assumption.
Qed.
End M.

(** *** The results *)
Lemma mirror_construct : forall flips c c' top dr dr' o o', mirrored_config flips c c' -> construct c top dr = Ok o -> construct c' top dr' = Ok o' ->
  Forall2 (mirrored flips) (s_position (o_swarm o)) (s_position (o_swarm o')) -> Forall2 (mirrored flips) (s_velocity (o_swarm o)) (s_velocity (o_swarm o')) ->
  state_like (length flips) (mirrored flips) o o'.
Proof.
  assert (G : forall c top dr o, construct c top dr = Ok o -> exists p v, o = mkOstate (new_swarm (N := F64num) finf (match p with [] => c_d c | r :: _ => length r end) p v (c_options c)) top None None [] [] [] [] []).
  { intros c top dr o H. unfold construct in H. destruct (match c_kind c with LocalBest | Binary => _ | _ => _ end); [|discriminate]. cbn [bind] in H. destruct (Nat.eqb _ _); [discriminate|].
    destruct (make_swarm c dr) as [s|] eqn:M; [|discriminate]. cbn [bind] in H. injection H as <-.
    assert (C : forall n d ds bi op b ce init cl s, create_swarm n d ds bi op b ce init cl dr = Ok s -> exists p v, s = new_swarm (N := F64num) finf (match p with [] => d | r :: _ => length r end) p v op).
    { clear. intros n d ds bi op b ce init cl s H. unfold create_swarm in H. destruct (if ds then _ else _) as [p|]; [|discriminate]. cbn [bind] in H. destruct (generate_velocity d cl (cd_vel dr)) as [v|]; [|discriminate].
      cbn [bind] in H. injection H as <-. exists p, v. reflexivity. }
    unfold make_swarm in M. destruct (c_kind c); destruct (C _ _ _ _ _ _ _ _ _ _ M) as (p & v & ->); exists p, v; reflexivity. }
  intros flips c c' top dr dr' o o' HC H H' P V. destruct (G _ _ _ _ H) as (p & v & ->). destruct (G _ _ _ _ H') as (p' & v' & ->). destruct HC as (_ & _ & D & D' & Ko & _).
  cbn [o_swarm new_swarm s_position s_velocity] in P, V. unfold state_like, swarm_like, new_swarm. cbn [o_swarm o_top o_bmem o_vmem o_cost_history o_mean_pbest_history o_mean_neighbor_history o_pos_history o_velocity_history s_position s_velocity s_n s_d s_options s_pbest_pos s_best_pos s_pbest_cost s_best_cost s_best_np s_current_cost].
  split; [|repeat (split; [first [reflexivity|exact I]|]); split; constructor].
  split; [exact P|]. split; [exact V|]. split; [exact (col_len (mirrored flips) _ _ P)|]. split; [destruct P as [|r r' m m' R F]; [exact D|exact (proj1 (mir_len _ _ _ R))]|].
  split; [destruct P as [|r r' m m' R F]; [exact D'|exact (proj2 (mir_len _ _ _ R))]|]. split; [exact Ko|]. split; [exact P|]. split; [exact I|]. repeat split.
Qed.
Lemma mirror_optimize : forall flips c c' e e' pool iters o o', mirrored_config flips c c' -> mirrored_env flips e e' -> c_kind c <> Binary -> c_bh c <> "shrink" -> c_bh c <> "random" ->
  (c_vh c = "invert" -> Forall (fun m => m = true) flips) -> state_like (length flips) (mirrored flips) o o' ->
  state_like (length flips) (mirrored flips) (fst (optimize c e pool iters o)) (fst (optimize c' e' pool iters o')) /\
  result_like (mirrored flips) (snd (optimize c e pool iters o)) (snd (optimize c' e' pool iters o')).
Proof.
  intros flips c c' e e' pool iters o o' HC HE NB NS NR NI. destruct HC as (K & Kn & _ & _ & Ko & Kb & Kc & Kf & Ki & Kbh & Kvh & Koh). destruct HE as (EO & EV & EB & EOH & ET & ETR).
  apply (optimize_co (length flips) (mirrored flips) (re_dim flips) c c' e e' K Kn Ko Kf Ki Koh EO EOH ET ETR).
  - intros i s s' vm vm' S M. rewrite Kvh, EV. apply velocity_mir; try assumption. destruct (c_kind c); try exact Kb; exact I.
  - intros i s s' bm bm' _ S M. rewrite Kbh. apply position_mir; try assumption. apply EB.
  - intros i v v' B. contradiction.
Qed.
Lemma mirror_session : forall flips c c' calls calls' o o' o1, mirrored_config flips c c' -> c_kind c <> Binary -> c_bh c <> "shrink" -> c_bh c <> "random" ->
  (c_vh c = "invert" -> Forall (fun m => m = true) flips) -> Forall2 (mirrored_call flips) calls calls' -> state_like (length flips) (mirrored flips) o o' -> Session c o calls o1 ->
  exists o1', Session c' o' calls' o1' /\ state_like (length flips) (mirrored flips) o1 o1'.
Proof.
  intros flips c c' calls calls' o o' o1 C NB NS NR NI F S H. revert calls' F. induction H as [o|o l o1 k o2 r H IH E]; intros calls' F.
  - inversion F; subst. exists o'. split; [constructor|exact S].
  - apply Forall2_app_inv_l in F. destruct F as (l' & k1 & F1 & F2 & ->). inversion F2 as [|a k' b b' K FN]; subst. inversion FN; subst.
    destruct (IH S l' F1) as (o1' & S1 & L1). destruct K as (KE & KP & KI).
    destruct (mirror_optimize flips c c' (k_env k) (k_env k') (k_pool k) (k_iters k) o1 o1' C KE NB NS NR NI L1) as [R _]. rewrite E in R. cbn [fst] in R.
    destruct (optimize c' (k_env k') (k_pool k) (k_iters k) o1') as [o2' r'] eqn:E'. cbn [fst] in R. exists o2'. split; [|exact R].
    eapply Session_snoc; [exact S1|]. rewrite KP, KI. exact E'.
Qed.
