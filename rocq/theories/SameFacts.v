(** The strategies do not look at the signs of zeros (for C79). *)
From Coq Require Import String ZArith List Arith Bool Lia Reals.
From Flocq Require Import Core BinarySingleNaN.
From Verif Require Import Prelude ListFacts F64 F64Facts F64More Num Np NpFacts Handlers Swarms Operators Generators Topology Optimizers
  Spec SpecLike SpecMirror SpecHandlers SpecTame SpecAlone RunFacts MirrorFacts Like Tame.
Import ListNotations.
Local Open Scope string_scope.
Local Open Scope list_scope.
Local Open Scope nat_scope.

Notation sr := (Forall2 same).
Lemma sr_refl : forall r, sr r r.
Proof. induction r; constructor; auto using same_refl. Qed.
Lemma sm_refl : forall m, same_matrix m m.
Proof. induction m; constructor; auto using sr_refl. Qed.
Lemma sr_len : forall r r', sr r r' -> length r' = length r.
Proof. intros r r' H. symmetry. exact (Forall2_len _ _ _ H). Qed.
Lemma sm_len : forall m m', same_matrix m m' -> length m' = length m.
Proof. intros m m' H. symmetry. exact (Forall2_len _ _ _ H). Qed.
Lemma sm_shape : forall (m m' n n' : fmatrix), same_matrix m m' -> same_matrix n n' -> same_shape m' n' = same_shape m n.
Proof.
  intros m m' n n' H G. unfold same_shape. rewrite (sm_len _ _ H), (sm_len _ _ G). f_equal. revert n n' G.
  induction H as [|r r' m m' R F IH]; intros n n' G; [reflexivity|]. destruct G as [|q q' n n' Q G]; [reflexivity|]. cbn. ftypes. rewrite (sr_len _ _ R), (sr_len _ _ Q). f_equal. exact (IH _ _ G).
Qed.
Lemma sm_all : forall (f : frow -> bool) m m', (forall r r', sr r r' -> f r' = f r) -> same_matrix m m' -> forallb f m' = forallb f m.
Proof. intros f m m' H F. induction F as [|r r' m m' R F IH]; [reflexivity|]. cbn. rewrite (H _ _ R), IH. reflexivity. Qed.
Lemma sm_map : forall (f : frow -> frow) m m', (forall r r', sr r r' -> sr (f r) (f r')) -> same_matrix m m' -> same_matrix (map f m) (map f m').
Proof. intros f m m' H F. induction F as [|r r' m m' R F IH]; cbn; constructor; auto. Qed.
Lemma sm_map2 : forall (f : frow -> frow -> frow) m m' n n', (forall r r' s s', sr r r' -> sr s s' -> sr (f r s) (f r' s')) ->
  same_matrix m m' -> same_matrix n n' -> same_matrix (map2 f m n) (map2 f m' n').
Proof. intros f m m' n n' H F. revert n n'. induction F as [|r r' m m' R F IH]; intros n n' G; [constructor|]. destruct G; cbn; constructor; [apply H; assumption|apply IH; assumption]. Qed.
Lemma sr_map : forall f r r', (forall x x', same x x' -> same (f x) (f x')) -> sr r r' -> sr (map f r) (map f r').
Proof. intros f m m' H F. induction F; cbn; constructor; auto. Qed.
Lemma sr_map2 : forall f r r' q q', (forall x x' y y', same x x' -> same y y' -> same (f x y) (f x' y')) -> sr r r' -> sr q q' -> sr (map2 f r q) (map2 f r' q').
Proof. intros f r r' q q' H F. revert q q'. induction F as [|x x' r r' X F IH]; intros q q' G; [constructor|]. destruct G; cbn; constructor; auto. Qed.
Lemma sr_map3 : forall (f : f64 -> f64 -> f64 -> f64) r r' l h, (forall x x' a b, same x x' -> same (f x a b) (f x' a b)) -> sr r r' -> sr (map3 f r l h) (map3 f r' l h).
Proof. intros f r r' l h H F. revert l h. induction F as [|x x' r r' X F IH]; intros l h; [constructor|]. destruct l, h; cbn; constructor; auto. Qed.
Lemma sr_map4 : forall (f : f64 -> f64 -> f64 -> f64 -> f64) r r' q q' l h, (forall x x' y y' a b, same x x' -> same y y' -> same (f x y a b) (f x' y' a b)) -> sr r r' -> sr q q' -> sr (map4 f r q l h) (map4 f r' q' l h).
Proof. intros f r r' q q' l h H F. revert q q' l h. induction F as [|x x' r r' X F IH]; intros q q' l h G; [constructor|]. destruct G, l, h; cbn; constructor; auto. Qed.
Lemma sr_any : forall (f : f64 -> f64 -> bool) r r' l, (forall x x' a, same x x' -> f x' a = f x a) -> sr r r' -> existsb (fun x => x) (map2 f r' l) = existsb (fun x => x) (map2 f r l).
Proof. intros f r r' l H F. revert l. induction F as [|x x' r r' X F IH]; intros [|a l]; cbn; auto. rewrite (H _ _ a X), IH. reflexivity. Qed.
Lemma lt_l : forall x x' a, same x x' -> flt x' a = flt x a.
Proof. intros. apply lt_same; [assumption|apply same_refl]. Qed.
Lemma lt_r : forall x x' a, same x x' -> flt a x' = flt a x.
Proof. intros. apply lt_same; [apply same_refl|assumption]. Qed.
Lemma le_l : forall x x' a, same x x' -> fle x' a = fle x a.
Proof. intros. apply le_same; [assumption|apply same_refl]. Qed.
Lemma le_r : forall x x' a, same x x' -> fle a x' = fle a x.
Proof. intros. apply le_same; [apply same_refl|assumption]. Qed.

Ltac opel := unfold nearest_el, reflect_el, intermediate_el, periodic_el, clamp_el, lower, greater; cbn [nlt nle nsub nadd nmul nabs nmod F64num].
Lemma nearest_same : forall x x' a b : f64, same x x' -> same (nearest_el (N := F64num) x a b) (nearest_el (N := F64num) x' a b).
Proof. intros x x' a b H. opel. rewrite (lt_l _ _ a H), (lt_r _ _ b H). destruct (flt b x); [apply same_refl|]. destruct (flt x a); [apply same_refl|exact H]. Qed.
Lemma reflect_same : forall x x' a b : f64, same x x' -> same (reflect_el (N := F64num) x a b) (reflect_el (N := F64num) x' a b).
Proof.
  intros x x' a b H. opel. rewrite (lt_l _ _ a H), (lt_r _ _ b H).
  destruct (flt b x), (flt x a); try exact H; repeat (apply sub_same; [apply same_refl|]); exact H.
Qed.
Lemma intermediate_same : forall x x' m m' a b : f64, same x x' -> same m m' -> same (intermediate_el (N := F64num) x m a b) (intermediate_el (N := F64num) x' m' a b).
Proof.
  intros x x' m m' a b H M. opel. rewrite (lt_l _ _ a H), (lt_r _ _ b H). destruct (flt b x); [apply mul_same, add_same; [exact M|apply same_refl]|].
  destruct (flt x a); [apply mul_same, add_same; [exact M|apply same_refl]|exact H].
Qed.
Lemma periodic_same : forall x x' a b : f64, same x x' -> same (periodic_el (N := F64num) x a b) (periodic_el (N := F64num) x' a b).
Proof.
  intros x x' a b H. opel. rewrite (lt_l _ _ a H), (lt_r _ _ b H).
  assert (P : same (if flt x a then fsub b (fnpmod (fsub a x) (fabs (fsub b a))) else x) (if flt x a then fsub b (fnpmod (fsub a x') (fabs (fsub b a))) else x')).
  { destruct (flt x a); [|exact H]. apply sub_same; [apply same_refl|]. apply mod_same; [apply sub_same; [apply same_refl|exact H]|apply same_refl]. }
  destruct (flt b x); [|exact P]. apply add_same; [apply same_refl|]. apply mod_same; [apply sub_same; [exact P|apply same_refl]|apply same_refl].
Qed.
Lemma clamp_same : forall x x' a b : f64, same x x' -> same (clamp_el (N := F64num) x a b) (clamp_el (N := F64num) x' a b).
Proof. intros x x' a b H. opel. rewrite (le_l _ _ a H), (le_r _ _ b H). destruct (fle b x); [apply same_refl|]. destruct (fle x a); [apply same_refl|exact H]. Qed.
Lemma lower_same : forall (r r' : frow) b, sr r r' -> row_lower (N := F64num) r' b = row_lower (N := F64num) r b.
Proof. intros r r' b R. exact (sr_any flt r r' (b_lb b) lt_l R). Qed.
Lemma greater_same : forall (r r' : frow) b, sr r r' -> row_greater (N := F64num) r' b = row_greater (N := F64num) r b.
Proof. intros r r' b R. exact (sr_any (fun x u => flt u x) r r' (b_ub b) (fun x x' a => lt_r x x' a) R). Qed.
Lemma out_same : forall (m m' : fmatrix) b, same_matrix m m' -> any_out (N := F64num) m' b = any_out (N := F64num) m b.
Proof. intros m m' b H. unfold any_out. induction H as [|r r' m m' R F IH]; [reflexivity|]. cbn. rewrite (lower_same _ _ b R), (greater_same _ _ b R), IH. reflexivity. Qed.
Lemma fit_same : forall (m m' : fmatrix) b, same_matrix m m' -> bounds_fit (N := F64num) m' b = bounds_fit (N := F64num) m b.
Proof. intros m m' b H. unfold bounds_fit. f_equal. induction H as [|r r' m m' R F IH]; [reflexivity|]. cbn. ftypes. rewrite (sr_len _ _ R). f_equal. exact IH. Qed.
Lemma reflective_same : forall fuel (m m' : fmatrix) b, same_matrix m m' -> RR same_matrix (reflective_loop (N := F64num) fuel b m) (reflective_loop (N := F64num) fuel b m').
Proof.
  induction fuel as [|fuel IH]; intros m m' b M; cbn [reflective_loop]; rewrite (out_same _ _ b M); destruct (any_out m b); cbn [RR]; auto.
  apply IH. apply sm_map; [|exact M]. intros. apply sr_map3; [exact reflect_same|assumption].
Qed.
Definition sms (x y : fmatrix * option fmatrix) : Prop := same_matrix (fst x) (fst y) /\ maybe same_matrix (snd x) (snd y).
Lemma bh_same : forall s dr mem mem' b (m m' : fmatrix), s <> "shrink" -> same_matrix m m' -> maybe same_matrix mem mem' ->
  RR sms (bh_call (N := F64num) s dr mem b m) (bh_call (N := F64num) s dr mem' b m').
Proof.
  intros s dr mem mem' b m m' NS M ME. unfold bh_call. destruct (bh_known s); [|reflexivity]. cbn [negb]. rewrite (fit_same _ _ b M). destruct (bounds_fit m b); [|reflexivity]. cbn [negb].
  destruct (s =? "nearest")%string. { split; [|exact ME]. cbn [fst]. apply sm_map; [|exact M]. intros. apply sr_map3; [exact nearest_same|assumption]. }
  destruct (s =? "reflective")%string.
  { apply RR_bind with (P := same_matrix); [|intros; split; assumption]. unfold reflective. rewrite (out_same _ _ b M). destruct (any_out m b && negb (b_arr b)); [reflexivity|]. apply reflective_same. exact M. }
  destruct (String.eqb_spec s "shrink") as [E|_]; [contradiction|].
  destruct (s =? "random")%string.
  { apply RR_bind with (P := same_matrix); [|intros; split; assumption]. unfold random_bh.
    match goal with |- RR _ (if negb (forallb ?f _) then _ else _) _ => assert (A : forallb f m' = forallb f m) by (apply sm_all with (2 := M); intros r r' R; ftypes; rewrite (sr_len _ _ R); reflexivity); rewrite A; destruct (forallb f m) end; [|reflexivity].
    cbn [negb RR]. apply sm_map; [|exact M]. intros r r' R. rewrite (lower_same _ _ b R), (greater_same _ _ b R). destruct (row_lower (N := F64num) r b); [apply sr_refl|]. destruct (row_greater (N := F64num) r b); [apply sr_refl|exact R]. }
  destruct (s =? "intermediate")%string.
  { apply RR_bind with (P := same_matrix); [|intros; split; assumption]. unfold intermediate. destruct mem as [mm|], mem' as [mm'|]; cbn in ME; try contradiction; [|exact M]. destruct (negb (b_arr b)); [reflexivity|].
    rewrite (sm_shape _ _ _ _ M ME). destruct (same_shape m mm); [|reflexivity]. cbn [negb RR]. apply sm_map2; [|exact M|exact ME]. intros. apply sr_map4; [exact intermediate_same|assumption|assumption]. }
  split; [|exact ME]. cbn [fst]. apply sm_map; [|exact M]. intros. apply sr_map3; [exact periodic_same|assumption].
Qed.
Lemma maybe_clamp_same : forall c (m m' : fmatrix), same_matrix m m' -> RR same_matrix (maybe_clamp (N := F64num) c m) (maybe_clamp (N := F64num) c m').
Proof.
  intros [[a b]|] m m' M; [|exact M]. unfold maybe_clamp, apply_clamp.
  replace (clamp_fit m' (a, b)) with (clamp_fit m (a, b)).
  - destruct (clamp_fit m (a, b)); [|reflexivity]. cbn [RR]. apply sm_map; [|exact M]. intros. apply sr_map3; [exact clamp_same|assumption].
  - unfold clamp_fit. induction M as [|r r' m m' R F IH]; [reflexivity|]. cbn. ftypes. rewrite (sr_len _ _ R). f_equal. exact IH.
Qed.
Lemma vh_same : forall s c mem mem' p p' b z (m m' : fmatrix), maybe same_matrix mem mem' -> same_matrix p p' -> same_matrix m m' ->
  RR sms (vh_call (N := F64num) s c mem (mkVk (Some p) (Some b) z) m) (vh_call (N := F64num) s c mem' (mkVk (Some p') (Some b) z) m').
Proof.
  intros s c mem mem' p p' b z m m' ME P M. unfold vh_call. destruct (vh_known s); [|reflexivity]. cbn [negb].
  destruct (s =? "unmodified")%string. { apply RR_bind with (P := same_matrix); [apply maybe_clamp_same; exact M|intros; split; assumption]. }
  destruct (s =? "adjust")%string.
  { unfold vh_adjust. cbn [vk_position]. destruct mem as [mm|], mem' as [mm'|]; cbn in ME; try contradiction; [|split; assumption].
    rewrite (sm_shape _ _ _ _ P ME). destruct (same_shape p mm); [|reflexivity]. cbn [negb]. apply RR_bind with (P := same_matrix); [|intros; split; assumption].
    apply maybe_clamp_same. apply sm_map2; [|exact P|exact ME]. intros. apply (sr_map2 fsub); [intros; apply sub_same; assumption|assumption|assumption]. }
  assert (VG : RR (fun x y => same_matrix (fst x) (fst y) /\ snd y = snd x) (vk_get (N := F64num) (mkVk (Some p) (Some b) z)) (vk_get (N := F64num) (mkVk (Some p') (Some b) z))).
  { unfold vk_get. cbn [vk_position vk_bounds]. destruct b as [b|]; [|reflexivity]. rewrite (fit_same _ _ b P). destruct (bounds_fit p b); [|reflexivity]. cbn. split; [exact P|reflexivity]. }
  destruct (s =? "invert")%string.
  { apply RR_bind with (P := same_matrix); [|intros; split; assumption]. unfold vh_invert. eapply RR_bind; [exact VG|]. intros [q e] [q' e'] [Q E]. cbn [fst snd] in Q, E. subst e'.
    rewrite (sm_shape _ _ _ _ M Q). destruct (same_shape m q); [|reflexivity]. cbn [negb]. apply maybe_clamp_same. apply sm_map2; [|exact Q|exact M].
    intros r r' v v' R V. unfold invert_row. rewrite (lower_same _ _ e R), (greater_same _ _ e R).
    destruct (row_lower (N := F64num) r e), (row_greater (N := F64num) r e); repeat (apply sr_map; [intros; apply mul_same; assumption|]); assumption. }
  apply RR_bind with (P := same_matrix); [|intros; split; assumption]. unfold vh_zero. eapply RR_bind; [exact VG|]. intros [q e] [q' e'] [Q E]. cbn [fst snd] in Q, E. subst e'.
  rewrite (sm_shape _ _ _ _ M Q). destruct (same_shape m q); [|reflexivity]. cbn [negb RR]. apply sm_map2; [|exact Q|exact M].
  intros r r' v v' R V. unfold zero_row. rewrite (lower_same _ _ e R), (greater_same _ _ e R). destruct (row_lower (N := F64num) r e || row_greater (N := F64num) r e); [|exact V].
  apply sr_map with (2 := V). intros. apply same_refl.
Qed.
Lemma position_same : forall dr bh bm bm' (s s' : fswarm) b, bh <> "shrink" -> same_matrix (s_position s) (s_position s') -> same_matrix (s_velocity s) (s_velocity s') ->
  maybe same_matrix bm bm' -> RR sms (compute_position (N := F64num) dr bh bm s b) (compute_position (N := F64num) dr bh bm' s' b).
Proof.
  intros dr bh bm bm' s s' b NS X V BM. unfold compute_position. rewrite (sm_shape _ _ _ _ X V). destruct (negb _); [reflexivity|].
  assert (A : same_matrix (map2 (map2 (nadd (n := F64num))) (s_position s) (s_velocity s)) (map2 (map2 (nadd (n := F64num))) (s_position s') (s_velocity s'))).
  { apply sm_map2; [|exact X|exact V]. intros. apply (sr_map2 fadd); [intros; apply add_same; assumption|assumption|assumption]. }
  destruct b as [b|]; [|split; assumption]. apply bh_same; assumption.
Qed.

(** *** The social term vanishes *)
Lemma zero_times : forall z y, feq z fzero = true -> ffinite y = true -> feq (fmul z y) fzero = true.
Proof.
  intros z y Z Y. assert (S : same z fzero) by (left; exact Z). destruct (same_cases _ _ S) as [->|(s & s' & -> & _)].
  - destruct y as [t|t| |t m e p]; try discriminate; destruct t; reflexivity.
  - destruct y as [t|t| |t m e p]; try discriminate; destruct s, t; reflexivity.
Qed.
Lemma social_zero : forall c2 u b x, feq c2 fzero = true -> ffinite u = true -> within 1022 b -> within 1022 x -> feq (fmul (fmul c2 u) (fsub b x)) fzero = true.
Proof.
  intros c2 u b x C U B X. apply zero_times; [apply zero_times; assumption|]. destruct (within_fsub 1022 b x) as [F _]; [lia|assumption|assumption|exact F].
Qed.
Lemma velocity_el_same : forall c1 c2 w u1 u2 u2' x x' v v' p p' b b', feq c2 fzero = true -> ffinite u2 = true -> ffinite u2' = true ->
  within 1022 b -> within 1022 b' -> within 1022 x -> within 1022 x' -> same x x' -> same v v' -> same p p' ->
  same (velocity_el (N := F64num) c1 c2 w u1 u2 x v p b) (velocity_el (N := F64num) c1 c2 w u1 u2' x' v' p' b').
Proof.
  intros c1 c2 w u1 u2 u2' x x' v v' p p' b b' C U U' B B' WX WX' X V P. unfold velocity_el. cbn [nadd nsub nmul F64num]. apply add_same.
  - apply add_same; [apply mul_same; exact V|apply mul_same, sub_same; assumption].
  - apply same_trans with fzero; [left; apply social_zero; assumption|]. apply same_sym. left. apply social_zero; assumption.
Qed.
Definition sh {A B} (a : list (list A)) (b : list (list B)) : Prop := Forall2 (fun r q => length r = length q) a b.
Lemma shape_sh : forall A B (m : list (list A)) (n : list (list B)), same_shape m n = true -> sh m n.
Proof.
  intros A B m n H. apply same_shape_spec in H. destruct H as [L H]. revert n L H. induction m as [|r m IH]; intros [|q n] L H; cbn in L; try discriminate; constructor.
  - exact (H 0 r q eq_refl eq_refl).
  - apply IH; [lia|]. intros i a b X Y. exact (H (S i) a b X Y).
Qed.
Lemma velocity_row_same : forall c1 c2 w, feq c2 fzero = true -> forall (x x' : frow), sr x x' -> Forall (within 1022) x -> Forall (within 1022) x' -> forall u1 u2 u2' v v' p p' b b',
  length x = length u1 -> length x = length u2 -> length x = length u2' -> sr v v' -> sr p p' -> length x = length v -> length x = length p -> length x = length b -> length x = length b' ->
  Forall (fun u => ffinite u = true) u2 -> Forall (fun u => ffinite u = true) u2' -> Forall (within 1022) b -> Forall (within 1022) b' ->
  sr (velocity_row (N := F64num) c1 c2 w u1 u2 x v p b) (velocity_row (N := F64num) c1 c2 w u1 u2' x' v' p' b').
Proof.
  intros c1 c2 w C x x' X. induction X as [|a a' x x' A X IH]; intros WX WX' u1 u2 u2' v v' p p' b b' L1 L2 L3 V P L4 L5 L6 L7 U U' B B'.
  - destruct u1; [|discriminate]. constructor.
  - destruct u1 as [|y1 u1]; [discriminate|]. destruct u2 as [|y2 u2]; [discriminate|]. destruct u2' as [|y2' u2']; [discriminate|]. destruct V as [|y3 y3' v v' V0 V]; [discriminate|]. destruct P as [|y4 y4' p p' P0 P]; [discriminate|].
    destruct b as [|y5 b]; [discriminate|]. destruct b' as [|y5' b']; [discriminate|]. cbn [length] in *. inversion WX; inversion WX'; inversion U; inversion U'; inversion B; inversion B'; subst. cbn [velocity_row]. constructor.
    + apply velocity_el_same; assumption.
    + apply IH; auto.
Qed.
Lemma velocity_mat_same : forall c1 c2 w, feq c2 fzero = true -> forall (x x' : fmatrix), same_matrix x x' -> Forall (Forall (within 1022)) x -> Forall (Forall (within 1022)) x' -> forall (u1 u2 u2' v v' p p' b b' : fmatrix),
  sh x u1 -> sh x u2 -> sh x u2' -> same_matrix v v' -> same_matrix p p' -> sh x v -> sh x p -> sh x b -> sh x b' ->
  Forall (Forall (fun u => ffinite u = true)) u2 -> Forall (Forall (fun u => ffinite u = true)) u2' -> Forall (Forall (within 1022)) b -> Forall (Forall (within 1022)) b' ->
  same_matrix (velocity_mat (N := F64num) c1 c2 w u1 u2 x v p b) (velocity_mat (N := F64num) c1 c2 w u1 u2' x' v' p' b').
Proof.
  intros c1 c2 w C x x' X. induction X as [|a a' x x' A X IH]; intros WX WX' u1 u2 u2' v v' p p' b b' L1 L2 L3 V P L4 L5 L6 L7 U U' B B'.
  - inversion L1. constructor.
  - inversion L1; inversion L2; inversion L3; inversion L4; inversion L5; inversion L6; inversion L7; subst. inversion V; inversion P; inversion WX; inversion WX'; inversion U; inversion U'; inversion B; inversion B'; subst. cbn [velocity_mat]. constructor.
    + apply velocity_row_same; assumption.
    + apply IH; assumption.
Qed.
