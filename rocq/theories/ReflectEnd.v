(** When the loop of [reflective] ends in float64 (C83). *)
From Coq Require Import String ZArith List Arith Bool Reals Lra Lia.
From Flocq Require Import Core Relative Plus_error IEEE754.BinarySingleNaN.
From Verif Require Import Prelude F64 F64Facts F64More Num Np Handlers Swarms Operators Generators Topology Optimizers Spec SpecHandlers SpecDyn SpecTame ListFacts NpFacts ShapeFacts
  HandlerFacts BhFloat BhReal BhClaims VhFacts VelFacts VhClaims RunFacts RunInv BoxRun VelRun TopoGraphs Tame Rounding SpecReflect.
Import ListNotations.
Local Open Scope R_scope.
#[local] Arguments fdec : simpl never.
#[local] Arguments fofZ : simpl never.

Lemma sub_accuracy : forall x y, ffinite x = true -> ffinite y = true -> ffinite (fsub x y) = true -> Rabs (FR (fsub x y) - (FR x - FR y)) <= uu * Rabs (FR x - FR y).
Proof.
  intros x y Fx Fy F. rewrite (is_round_finite_eq _ _ (fsub_round x y Fx Fy) F).
  destruct (FLT_plus_error_N_ex radix2 (-1074) 53 (fun x => negb (Z.even x)) (FR x) (- FR y)) as (eps & E1 & E2).
  { apply (generic_format_B2R prec emax x). } { apply generic_format_opp. apply (generic_format_B2R prec emax y). }
  change (FR x + - FR y) with (FR x - FR y) in E2.
  change (round radix2 (FLT_exp (-1074) 53) (Znearest (fun x => negb (Z.even x))) (FR x - FR y)) with (rnd (FR x - FR y)) in E2. rewrite E2.
  replace ((FR x - FR y) * (1 + eps) - (FR x - FR y)) with ((FR x - FR y) * eps) by ring. rewrite Rabs_mult, Rmult_comm. apply Rmult_le_compat_r; [apply Rabs_pos|].
  eapply Rle_trans; [exact E1|]. apply Rle_trans with (u_ro radix2 53).
  - unfold Rdiv. assert (0 <= u_ro radix2 53) by apply u_ro_pos. rewrite <- (Rmult_1_r (u_ro radix2 53)) at 3. apply Rmult_le_compat_l; auto.
    rewrite <- Rinv_1. apply Rinv_le; lra.
  - apply Req_le. unfold u_ro, uu. change (/ 2) with (bpow radix2 (-1)). rewrite <- bpow_plus. reflexivity.
Qed.
(** Twice a bound minus the coordinate, rounded once. *)
Lemma mirrored : forall a y, within 1021 a -> within 1022 y ->
  ffinite (fsub (fmul (fofZ 2) a) y) = true /\ is_round (2 * FR a - FR y) (fsub (fmul (fofZ 2) a) y) /\
  Rabs (FR (fsub (fmul (fofZ 2) a) y) - (2 * FR a - FR y)) <= uu * Rabs (2 * FR a - FR y).
Proof.
  intros a y Wa Wy. change (fofZ 2) with ftwo.
  assert (W2 : within 1 ftwo). { split; [reflexivity|]. rewrite ftwo_R, Rabs_pos_eq by lra. change (bpow radix2 1) with 2. lra. }
  pose proof (within_fmul 1 1021 ftwo a ltac:(lia) W2 Wa) as WM. change (1 + 1021)%Z with 1022%Z in WM.
  assert (E : FR (fmul ftwo a) = 2 * FR a). { rewrite (is_round_finite_eq _ _ (fmul_round ftwo a eq_refl (proj1 Wa)) (proj1 WM)). rewrite ftwo_R. apply rnd_double. }
  pose proof (within_fsub 1022 _ _ ltac:(lia) WM Wy) as WS. pose proof (fsub_round (fmul ftwo a) y (proj1 WM) (proj1 Wy)) as RS.
  pose proof (sub_accuracy (fmul ftwo a) y (proj1 WM) (proj1 Wy) (proj1 WS)) as AC. rewrite E in RS, AC. split; [exact (proj1 WS)|]. split; assumption.
Qed.
Section Column.
Variables l u : f64.
Hypothesis Wl : within 1020 l.
Hypothesis Wu : within 1020 u.
Hypothesis LU : FR l < FR u.
Let w := FR u - FR l.
Let mid := (FR l + FR u) / 2.
Lemma clear_near : forall y, ffinite y = true -> Rabs (FR y - mid) <= w / 2 -> clear_el (N := F64num) y l u.
Proof.
  intros y Fy D. unfold mid, w in D. apply Rabs_le_inv in D. split; cbn [nlt F64num].
  - destruct (flt y l) eqn:Q; [|reflexivity]. apply (flt_fin y l Fy (proj1 Wl)) in Q. lra.
  - destruct (flt u y) eqn:Q; [|reflexivity]. apply (flt_fin u y (proj1 Wu) Fy) in Q. lra.
Qed.
(** One pass: the coordinate is inside afterwards, or it comes closer by a quarter of the width. *)
Lemma pass : forall y M, ffinite y = true -> Rabs (FR y) <= M -> Rabs (FR l) <= M -> Rabs (FR u) <= M -> M <= bpow radix2 51 * w -> M <= bpow radix2 1022 ->
  let y' := reflect_el (N := F64num) y l u in
  ffinite y' = true /\ (clear_el (N := F64num) y' l u \/ Rabs (FR y' - mid) <= Rabs (FR y - mid) - w / 4) /\
  exists z, (z = FR y \/ z = 2 * FR l - FR y \/ z = 2 * FR u - FR y) /\ Rabs (FR y' - z) <= 3 * uu * M.
Proof.
  intros y M Fy My Ml Mu MW M2 y'. unfold y', reflect_el, lower, greater. cbn [nlt nsub nmul nofZ F64num].
  assert (UW : uu * (3 * M) <= 3 / 4 * w). { replace (3 / 4 * w) with (uu * (3 * (bpow radix2 51 * w))); [apply Rmult_le_compat_l; [unfold uu; apply bpow_ge_0|lra]|]. unfold uu. replace (bpow radix2 (-53) * (3 * (bpow radix2 51 * w))) with (3 * (bpow radix2 (-53) * bpow radix2 51) * w) by ring. rewrite <- bpow_plus. change (bpow radix2 (-53 + 51)) with (/ 4). lra. }
  assert (U0 : 0 <= uu) by (unfold uu; apply bpow_ge_0).
  assert (Wy : within 1022 y) by (split; [exact Fy|lra]).
  assert (T : forall a, within 1020 a -> Rabs (FR a) <= M -> Rabs (FR (fsub (fmul (fofZ 2) a) y) - (2 * FR a - FR y)) <= 3 * uu * M /\ ffinite (fsub (fmul (fofZ 2) a) y) = true /\ is_round (2 * FR a - FR y) (fsub (fmul (fofZ 2) a) y)).
  { intros a Wa Ma. destruct (mirrored a y) as (F & R & A); [apply (within_le 1020); [lia|exact Wa]|exact Wy|]. split; [|split; assumption]. eapply Rle_trans; [exact A|].
    replace (3 * uu * M) with (uu * (3 * M)) by ring. apply Rmult_le_compat_l; [exact U0|]. eapply Rle_trans; [apply Rabs_triang|]. rewrite Rabs_Ropp, Rabs_mult, (Rabs_pos_eq 2) by lra. lra. }
  destruct (flt y l) eqn:Q1.
  - assert (L1 := proj1 (flt_fin y l Fy (proj1 Wl)) Q1). destruct (flt u y) eqn:Q2; [apply (flt_fin u y (proj1 Wu) Fy) in Q2; lra|].
    destruct (T l Wl Ml) as (A & F & R). split; [exact F|]. split; [|exists (2 * FR l - FR y); auto].
    destruct (Rle_or_lt (2 * FR l - FR y) (FR u)) as [I|I].
    + left. pose proof (is_round_le_l _ _ l R (proj1 Wl) ltac:(lra)) as B1. pose proof (is_round_le_r _ _ u R (proj1 Wu) I) as B2. split; cbn [nlt F64num]; clear -B1 B2; forder.
    + right. set (y2 := FR (fsub (fmul (fofZ 2) l) y)) in *. unfold mid, w in *. unfold Rabs in A |- *. repeat match goal with |- context [Rcase_abs ?e] => destruct (Rcase_abs e) | H : context [Rcase_abs ?e] |- _ => destruct (Rcase_abs e) end; lra.
  - destruct (flt u y) eqn:Q2.
    + assert (L2 := proj1 (flt_fin u y (proj1 Wu) Fy) Q2). destruct (T u Wu Mu) as (A & F & R). split; [exact F|]. split; [|exists (2 * FR u - FR y); auto].
      destruct (Rle_or_lt (FR l) (2 * FR u - FR y)) as [I|I].
      * left. pose proof (is_round_le_l _ _ l R (proj1 Wl) I) as B1. pose proof (is_round_le_r _ _ u R (proj1 Wu) ltac:(lra)) as B2. split; cbn [nlt F64num]; clear -B1 B2; forder.
      * right. set (y2 := FR (fsub (fmul (fofZ 2) u) y)) in *. unfold mid, w in *. unfold Rabs in A |- *. repeat match goal with |- context [Rcase_abs ?e] => destruct (Rcase_abs e) | H : context [Rcase_abs ?e] |- _ => destruct (Rcase_abs e) end; lra.
    + split; [exact Fy|]. split; [left; split; assumption|]. exists (FR y). split; [auto|]. replace (FR y - FR y) with 0 by ring. rewrite Rabs_R0. pose proof (Rabs_pos (FR y)). apply Rmult_le_pos; lra.
Qed.
(** [r] is a mirror image of [y]. *)
Definition image (y r : R) : Prop := exists z : Z, r = y + IZR z * (2 * w) \/ r = 2 * FR l - y + IZR z * (2 * w).
Lemma image_self : forall y, image y y. Proof. intros y. exists 0%Z. left. ring. Qed.
Lemma image_near : forall y y' z r e, z = y \/ z = 2 * FR l - y \/ z = 2 * FR u - y -> Rabs (y' - z) <= e -> image y' r -> exists r', image y r' /\ Rabs (r' - r) <= e.
Proof.
  intros y y' z r e Z D (q & R). rewrite Rabs_minus_sym in D.
  assert (O : forall a b, Rabs (a - b) <= e -> Rabs ((2 * FR l - a) - (2 * FR l - b)) <= e) by (intros a b H; replace ((2 * FR l - a) - (2 * FR l - b)) with (- (a - b)) by ring; rewrite Rabs_Ropp; exact H).
  destruct R as [->| ->].
  - exists (z + IZR q * (2 * w)). split; [|replace (z + IZR q * (2 * w) - (y' + IZR q * (2 * w))) with (z - y') by ring; exact D].
    destruct Z as [->|[->| ->]]; [exists q; left; reflexivity|exists q; right; reflexivity|exists (q + 1)%Z; right; rewrite plus_IZR; unfold w; ring].
  - exists (2 * FR l - z + IZR q * (2 * w)). split; [|replace (2 * FR l - z + IZR q * (2 * w) - (2 * FR l - y' + IZR q * (2 * w))) with ((2 * FR l - z) - (2 * FR l - y')) by ring; apply O, D].
    destruct Z as [->|[->| ->]]; [exists q; right; reflexivity|exists q; left; ring|exists (q - 1)%Z; left; rewrite minus_IZR; unfold w; ring].
Qed.
Lemma passes : forall M, Rabs (FR l) <= M -> Rabs (FR u) <= M -> M <= bpow radix2 51 * w -> M <= bpow radix2 1022 ->
  forall k y, ffinite y = true -> Rabs (FR y - mid) <= M - Rabs mid -> Rabs (FR y - mid) <= w / 2 + INR k * (w / 4) ->
  let y' := it k (fun y => reflect_el (N := F64num) y l u) y in
  clear_el (N := F64num) y' l u /\ ffinite y' = true /\ exists r, image (FR y) r /\ Rabs (FR y' - r) <= INR k * (3 * uu * M).
Proof.
  intros M Ml Mu MW M2. assert (EP : 0 <= 3 * uu * M). { pose proof (Rabs_pos (FR l)). apply Rmult_le_pos; [|lra]. unfold uu. pose proof (bpow_ge_0 radix2 (-53)). lra. }
  assert (STAY : forall k y, clear_el (N := F64num) y l u -> it k (fun y => reflect_el (N := F64num) y l u) y = y) by (intros k y [C1 C2]; apply it_fix; apply reflect_in; assumption).
  assert (ZERO : forall k y, ffinite y = true -> clear_el (N := F64num) y l u -> let y' := it k (fun y => reflect_el (N := F64num) y l u) y in clear_el (N := F64num) y' l u /\ ffinite y' = true /\ exists r, image (FR y) r /\ Rabs (FR y' - r) <= INR k * (3 * uu * M)).
  { intros k y F C y'. unfold y'. rewrite (STAY k y C). split; [exact C|]. split; [exact F|]. exists (FR y). split; [apply image_self|]. replace (FR y - FR y) with 0 by ring. rewrite Rabs_R0. apply Rmult_le_pos; [apply pos_INR|exact EP]. }
  induction k; intros y F D0 D y'.
  - apply ZERO; [exact F|]. apply clear_near; [exact F|]. cbn [INR] in D. lra.
  - rewrite S_INR in *. assert (My : Rabs (FR y) <= M). { replace (FR y) with ((FR y - mid) + mid) by ring. eapply Rle_trans; [apply Rabs_triang|]. lra. }
    destruct (pass y M F My Ml Mu MW M2) as (F' & [C|Q] & z & Z & A).
    + destruct (ZERO k _ F' C) as (C1 & C2 & r & R1 & R2). unfold y'. cbn [it]. split; [exact C1|]. split; [exact C2|]. destruct (image_near (FR y) _ z r _ Z A R1) as (r' & R3 & R4). exists r'. split; [exact R3|].
      rewrite Rabs_minus_sym in R4. match goal with |- Rabs (?a - r') <= _ => replace (a - r') with ((a - r) + (r - r')) by ring end. eapply Rle_trans; [apply Rabs_triang|]. lra.
    + destruct (IHk _ F' ltac:(unfold w in *; lra) ltac:(lra)) as (C1 & C2 & r & R1 & R2). unfold y'. cbn [it]. split; [exact C1|]. split; [exact C2|]. destruct (image_near (FR y) _ z r _ Z A R1) as (r' & R3 & R4). exists r'. split; [exact R3|].
      rewrite Rabs_minus_sym in R4. match goal with |- Rabs (?a - r') <= _ => replace (a - r') with ((a - r) + (r - r')) by ring end. eapply Rle_trans; [apply Rabs_triang|]. lra.
Qed.
End Column.

Lemma coord_end : forall l u x k, within 1020 x -> roomy l u (Rabs (FR x) + Rabs (FR l) + Rabs (FR u)) -> 4 * (Rabs (FR x) + Rabs (FR l) + Rabs (FR u)) <= INR k * (FR u - FR l) ->
  let y := it k (fun y => reflect_el (N := F64num) y l u) x in
  clear_el (N := F64num) y l u /\ ffinite y = true /\ exists r, mirror_image (FR l) (FR u) (FR x) r /\ Rabs (FR y - r) <= INR k * (3 * bpow radix2 (-53) * (Rabs (FR x) + Rabs (FR l) + Rabs (FR u))).
Proof.
  intros l u x k Wx (Wl & Wu & LU & RM) K. set (M := Rabs (FR x) + Rabs (FR l) + Rabs (FR u)) in *.
  pose proof (Rabs_pos (FR x)) as Px. pose proof (Rabs_pos (FR l)) as Pl. pose proof (Rabs_pos (FR u)) as Pu.
  assert (LR : FR l < FR u) by (apply (flt_fin l u (proj1 Wl) (proj1 Wu)); exact LU).
  assert (MID : 2 * Rabs ((FR l + FR u) / 2) <= Rabs (FR l) + Rabs (FR u)). { pose proof (Rabs_triang (FR l) (FR u)) as TR. unfold Rdiv. rewrite Rabs_mult, (Rabs_pos_eq (/ 2)) by lra. lra. }
  assert (D : Rabs (FR x - (FR l + FR u) / 2) <= Rabs (FR x) + Rabs ((FR l + FR u) / 2)). { eapply Rle_trans; [apply Rabs_triang|]. rewrite Rabs_Ropp. lra. }
  assert (B : M <= bpow radix2 1022).
  { destruct Wx as [_ Wx], Wl as [_ Wl], Wu as [_ Wu]. assert (E : bpow radix2 1022 = 4 * bpow radix2 1020) by (change 1022%Z with (2 + 1020)%Z; rewrite bpow_plus; reflexivity).
    assert (E2 : bpow radix2 1018 <= bpow radix2 1020) by (apply bpow_le; lia). pose proof (bpow_ge_0 radix2 1020). unfold M. lra. }
  pose proof (within_le 1018 1020 l ltac:(lia) Wl) as Wl'. pose proof (within_le 1018 1020 u ltac:(lia) Wu) as Wu'.
  apply (passes l u Wl' Wu' LR M); unfold M in *; try lra. exact (proj1 Wx).
Qed.
Local Open Scope nat_scope.
Lemma reflective_ends : forall n d (b : bounds F64num) pos k, is_matrix n d pos -> box_dim d b -> b_arr b = true ->
  (forall i j x l u, entry pos i j = Some x -> column b j l u -> fisnan x = true \/
     within 1020 x /\ roomy l u (Rabs (FR x) + Rabs (FR l) + Rabs (FR u)) /\ (4 * (Rabs (FR x) + Rabs (FR l) + Rabs (FR u)) <= INR k * (FR u - FR l))%R) ->
  exists pos', is_matrix n d pos' /\
    (forall ug ul fuel mem, k <= fuel -> bh_call "reflective" (mkBhDraws ug ul fuel) mem b pos = Ok (pos', mem)) /\
    forall i j x l u, entry pos i j = Some x -> column b j l u -> exists x', entry pos' i j = Some x' /\ (fisnan x = true -> x' = x) /\
      (fisnan x = false -> fle l x' = true /\ fle x' u = true /\
         exists r, mirror_image (FR l) (FR u) (FR x) r /\ (Rabs (FR x' - r) <= INR k * (3 * bpow radix2 (-53) * (Rabs (FR x) + Rabs (FR l) + Rabs (FR u))))%R).
Proof.
  intros n d b pos k M B A H.
  assert (NC : forall x l u : f64, fisnan x = true -> clear_el (N := F64num) x l u). { intros x l u N. split; cbn [nlt F64num]; forder. }
  assert (CL : forall i j x l u, entry pos i j = Some x -> column b j l u -> clear_el (N := F64num) (it k (fun y => reflect_el (N := F64num) y l u) x) l u).
  { intros i j x l u X C. destruct (H i j x l u X C) as [N|(W & R & K)]; [|apply (coord_end l u x k W R K)]. rewrite it_fix; [apply NC, N|]. apply reflect_in; apply (NC x l u N). }
  destruct (reflective_loop_it n d b k pos B M CL k (le_n k)) as (m' & R & M' & E). exists m'. split; [exact M'|]. split.
  - intros ug ul fuel mem F. rewrite (reflective_call n d b _ _ _ M B A). cbn [bd_fuel]. destruct (reflective_loop_it n d b k pos B M CL fuel F) as (m2 & R2 & M2 & E2). rewrite R2.
    replace m2 with m'; auto. apply entry_ext with n d; auto. intros i j I J. destruct (entry_in n d pos i j M I J) as [x X]. destruct (column_ex d b j B J) as (l & u & C).
    etransitivity; [exact (E i j x l u X C)|]. symmetry. exact (E2 i j x l u X C).
  - intros i j x l u X C. exists (it k (fun y => reflect_el (N := F64num) y l u) x). split; [apply E; assumption|]. split.
    + intros N. apply it_fix. apply reflect_in; apply (NC x l u N).
    + intros N. destruct (H i j x l u X C) as [N'|(W & RO & K)]; [congruence|]. destruct (coord_end l u x k W RO K) as ((C1 & C2) & F & r & IM & AC). cbn [nlt F64num] in C1, C2.
      destruct RO as (Wl & Wu & _). destruct Wl as [Fl _], Wu as [Fu _]. split; [|split; [|exists r; split; assumption]].
      * clear -C1 F Fl. ftypes. apply finite_notnan in F, Fl. forder.
      * clear -C2 F Fu. ftypes. apply finite_notnan in F, Fu. forder.
Qed.

(** *** Everything but the loop of [reflective] ends *)
Lemma ends_bind : forall A B (a : res A) (f : A -> res B), ~ endless a -> (forall v, ~ endless (f v)) -> ~ endless (bind a f).
Proof. intros A B [v|x] f H K; cbn; [apply K|]. intros E. apply H. unfold endless in *. congruence. Qed.
Lemma ends_mapM : forall A B (f : A -> res B) l, (forall x, ~ endless (f x)) -> ~ endless (mapM f l).
Proof. induction l as [|x l IH]; intros H; cbn [mapM]; [discriminate|]. apply ends_bind; [apply H|]. intros y. apply ends_bind; [apply IH, H|]. discriminate. Qed.
Lemma ends_opt : forall A (o : option A) x, x <> OutOfFuel -> ~ endless (of_option x o).
Proof. intros A [a|] x H E; unfold endless in E; cbn in E; [discriminate|congruence]. Qed.
Lemma ends_ok : forall A (v : A), ~ endless (Ok v). Proof. discriminate. Qed.
Lemma ends_err : forall A B x, ~ endless (@Err A x) -> ~ endless (@Err B x). Proof. intros A B x H E. apply H. unfold endless in *. congruence. Qed.
Ltac ends := repeat first
  [ apply ends_ok | discriminate
  | apply ends_opt; discriminate
  | apply ends_bind
  | apply ends_mapM
  | match goal with |- forall _, _ => intro end
  | match goal with |- ~ endless (match ?x with _ => _ end) => destruct x end ].
Lemma ends_random : forall n k ch, ~ endless (random_adj 1 n k ch).
Proof.
  intros n k ch E. destruct (Z_le_gt_dec 0 k) as [K1|K1]; [destruct (Z_le_gt_dec k (Z.of_nat n - 1)) as [K2|K2]|].
  - destruct (random_adj_total n k ch (conj K1 K2)) as (adj & Q). unfold endless in E. congruence.
  - unfold endless, random_adj in E. destruct (Nat.eqb_spec n 0); [discriminate|]. destruct (Z.ltb_spec (Z.of_nat n - 1) k); [|lia]. rewrite orb_true_r in E. discriminate.
  - unfold endless, random_adj in E. destruct (Nat.eqb_spec n 0); [discriminate|]. destruct (Z.ltb_spec k 0); [|lia]. discriminate.
Qed.
Lemma ends_min : forall l, ~ endless (np_min (N := F64num) l). Proof. intros l. unfold np_min. ends. Qed.
Lemma ends_argmin : forall l, ~ endless (np_argmin (N := F64num) l). Proof. intros l. unfold np_argmin. ends. Qed.
Lemma ends_take : forall A (l : list A) idx, ~ endless (np_take l idx). Proof. intros A l idx. unfold np_take. ends. Qed.
Lemma ends_pick : forall s bn, ~ endless (pick_best s bn).
Proof. intros s bn. unfold pick_best. repeat (apply ends_bind; [first [apply ends_take|apply ends_min]|intros ?]). discriminate. Qed.
Lemma ends_nb : forall s rows, ~ endless (neighborhood_gbest s rows).
Proof.
  intros s rows. unfold neighborhood_gbest. apply ends_bind; [|intros; apply ends_pick]. apply ends_mapM. intros nbs. unfold best_of.
  apply ends_bind; [apply ends_take|intros cs]. apply ends_bind; [apply ends_argmin|intros j]. apply ends_opt. discriminate.
Qed.
Lemma ends_gbest : forall te a t s t' r, (forall p k X, ~ endless (te_knn te p k X)) -> (forall X, ~ endless (te_delaunay te X)) -> compute_gbest te a t s = (t', r) -> ~ endless r.
Proof.
  intros te a t s t' r HK HD E.
  assert (RG : forall p k, ~ endless (snd (ring_gbest te p k t s))).
  { intros p k. unfold ring_gbest. destruct (needs_neighbors t).
    - destruct (k <? 1)%Z; [discriminate|]. specialize (HK p (Z.to_nat k) (s_position s)). destruct (te_knn te p (Z.to_nat k) (s_position s)) as [rows|x]; [|exact (ends_err _ _ _ HK)].
      destruct (k =? 1)%Z; [destruct (Nat.leb _ _); [discriminate|apply ends_pick]|]. destruct (Nat.eqb _ 2); [apply ends_nb|discriminate].
    - destruct (t_nb t) as [nb|]; [|discriminate]. destruct (k =? 1)%Z; [destruct (Nat.leb _ _); [discriminate|apply ends_pick]|]. destruct (Nat.eqb _ 2); [apply ends_nb|discriminate]. }
  replace r with (snd (compute_gbest te a t s)) by (rewrite E; reflexivity). clear E t' r. unfold compute_gbest. destruct (t_kind t).
  - unfold star_gbest. cbn [snd]. apply ends_bind; [apply ends_min|intros m]. destruct (flt m (s_best_cost s)); [|discriminate]. apply ends_bind; [apply ends_argmin|intros i]. apply ends_bind; [apply ends_opt; discriminate|discriminate].
  - destruct (ga_p a), (ga_k a); try discriminate; apply RG.
  - destruct (ga_p a), (ga_r a); try discriminate; unfold von_neumann_gbest; destruct (_ <? 0)%Z; try discriminate; apply RG.
  - unfold pyramid_gbest. destruct (Nat.ltb _ _).
    + cbn [snd]. apply ends_bind; [apply ends_argmin|intros i]. apply ends_bind; [apply ends_opt; discriminate|intros p]. apply ends_bind; [apply ends_min|discriminate].
    + destruct (needs_neighbors t); [specialize (HD (s_position s)); destruct (te_delaunay te (s_position s)); [apply ends_nb|exact (ends_err _ _ _ HD)]|]. destruct (t_nb t); [apply ends_nb|discriminate].
  - destruct (ga_k a); try discriminate. unfold random_gbest. destruct (needs_neighbors t); [|destruct (t_nb t); [apply ends_nb|discriminate]].
    pose proof (ends_random (s_n s) z (te_choice te)) as ER. destruct (random_adj 1 (s_n s) z (te_choice te)); [apply ends_nb|exact (ends_err _ _ _ ER)].
Qed.
Lemma ends_num : forall (o : options F64num) k, ~ endless (num_of o k). Proof. intros. unfold num_of. ends. Qed.
Lemma ends_oh : forall lib strategy start k, ~ endless (oh_call (N := F64num) lib strategy start k).
Proof.
  intros lib strategy start k. unfold oh_call. destruct strategy as [|s st]; [discriminate|]. generalize start at 3. induction (dkeys start) as [|o r IH]; intros ret; cbn [oh_loop]; [discriminate|].
  destruct (dget _ o) as [sg|]; [|apply IH]. apply ends_bind; [|intros; apply IH].
  assert (EV : ~ endless (end_value (N := F64num) start o k)). { unfold end_value. apply ends_bind; [apply ends_num|intros]. apply ends_bind; [apply ends_num|intros]. ends. }
  assert (EI : ~ endless (iters_of (N := F64num) k)). { unfold iters_of. ends. }
  unfold oh_one, oh_exp_decay, oh_lin_variation, oh_random, oh_nonlin_mod.
  repeat first [assumption|apply ends_ok|discriminate|apply ends_num|apply ends_opt; discriminate|apply ends_bind|match goal with |- forall _, _ => intro end|match goal with |- ~ endless (match ?x with _ => _ end) => destruct x end].
Qed.
Lemma ends_clamp : forall c (m : fmatrix), ~ endless (maybe_clamp (N := F64num) c m).
Proof. intros c m. unfold maybe_clamp, apply_clamp. ends. Qed.
Lemma ends_velocity : forall dr vh vmem (s : fswarm) clamp b, ~ endless (compute_velocity (N := F64num) dr vh vmem s clamp b).
Proof.
  intros. unfold compute_velocity. do 3 (apply ends_bind; [apply ends_num|intros ?]). apply ends_bind; [unfold best_rows; ends|intros best]. destruct (negb _); [discriminate|].
  unfold vh_call. destruct (negb _); [discriminate|]. destruct (String.eqb vh "unmodified"); [apply ends_bind; [apply ends_clamp|discriminate]|].
  destruct (String.eqb vh "adjust"). { unfold vh_adjust. cbn [vk_position]. destruct vmem; [|discriminate]. destruct (negb _); [discriminate|]. apply ends_bind; [apply ends_clamp|discriminate]. }
  destruct (String.eqb vh "invert"); (apply ends_bind; [|discriminate]).
  - unfold vh_invert. apply ends_bind; [unfold vk_get; ends|]. intros [p b0]. destruct (negb _); [discriminate|apply ends_clamp].
  - unfold vh_zero. apply ends_bind; [unfold vk_get; ends|]. intros [p b0]. ends.
Qed.
Local Open Scope string_scope.
Local Open Scope list_scope.
Local Open Scope nat_scope.
Lemma ends_boundary : forall st dr mem (b : bounds F64num) pos, st <> "reflective" -> ~ endless (bh_call st dr mem b pos).
Proof.
  intros st dr mem b pos NR. unfold bh_call. destruct (negb (bh_known st)); [discriminate|]. destruct (negb _); [discriminate|]. destruct (String.eqb st "nearest"); [discriminate|].
  destruct (String.eqb_spec st "reflective") as [|_]; [contradiction|]. destruct (String.eqb st "shrink").
  { apply ends_bind; [|discriminate]. unfold shrink. destruct mem; [|discriminate]. destruct (negb _); [discriminate|]. destruct (negb _); [discriminate|]. apply ends_mapM. intros p. unfold shrink_row. apply ends_bind; [apply ends_min|discriminate]. }
  destruct (String.eqb st "random"). { apply ends_bind; [|discriminate]. unfold random_bh. ends. }
  destruct (String.eqb st "intermediate"); [|discriminate]. apply ends_bind; [|discriminate]. unfold intermediate. ends.
Qed.
Lemma ends_objective : forall pool f X, (forall Y, ~ endless (f Y)) -> ~ endless (compute_objective_function (N := F64num) pool f X).
Proof. intros [n|] f X H; cbn [compute_objective_function]; [|apply H]. apply ends_bind; [apply ends_mapM; exact H|discriminate]. Qed.
Lemma ends_evaluate : forall c e pool i o q, callbacks_end e -> match evaluate_swarm c e pool i o q with Raise _ x => x <> OutOfFuel | _ => True end.
Proof.
  intros c e pool i o q (CO & CK & CD). unfold evaluate_swarm. pose proof (ends_objective pool (e_obj e i) (s_position (o_swarm o)) (CO i)) as E1.
  destruct (compute_objective_function pool (e_obj e i) (s_position (o_swarm o))) as [cost|x]; [|unfold endless in E1; congruence].
  assert (E2 : ~ endless (compute_pbest (set_current_cost (o_swarm o) cost))) by (unfold compute_pbest; ends). destruct (compute_pbest _) as [[pp pc]|x]; [|unfold endless in E2; congruence].
  destruct (compute_gbest _ _ _ _) as [t r] eqn:G. pose proof (ends_gbest _ _ _ _ _ _ (CK i) (CD i) G) as E3. destruct r as [[[bp bc] np]|x]; [|unfold endless in E3; congruence].
  destruct (_ && _); exact Logic.I.
Qed.
Lemma ends_final : forall o, ~ endless (final_result o).
Proof. intros o. unfold final_result. destruct (negb _); [discriminate|]. apply ends_bind; [apply ends_argmin|intros j]. apply ends_bind; [apply ends_opt; discriminate|discriminate]. Qed.

(** C83: the strategies without a loop. *)
Lemma other_ends : forall c e pool iters o o' r, callbacks_end e -> c_kind c = Binary \/ c_bounds c = None \/ c_bh c <> "reflective" -> optimize c e pool iters o = (o', r) -> ~ endless r.
Proof.
  intros c e pool iters o o' r CE HB E.
  destruct (optimize_rule c e pool iters o (fun _ _ _ => True) (fun _ _ _ => True) (fun _ => True) (fun _ x => x <> OutOfFuel)) with (o' := o') (r := r) as [(_ & _ & ->)|[(_ & _ & ->)|(_ & x & X & ->)]]; auto.
  - intros i o1 q _ _. pose proof (ends_evaluate c e pool i o1 q CE). destruct (evaluate_swarm c e pool i o1 q); auto.
  - intros i o1 q _ _. unfold update_swarm.
    match goal with |- match match ?z with _ => _ end with _ => _ end => assert (EO : ~ endless z) by (destruct (c_kind c); try discriminate; apply ends_oh); destruct z as [opts|x]; [|unfold endless in EO; congruence] end.
    cbv zeta. match goal with |- context [compute_velocity ?a ?b ?m ?s ?cl ?bb] => pose proof (ends_velocity a b m s cl bb) as EV; destruct (compute_velocity a b m s cl bb) as [[v vm]|x]; [|unfold endless in EV; congruence] end.
    assert (BP : forall v', ~ endless (binary_position (e_exp e) (e_bits e i) v')) by (intros v'; unfold binary_position; ends).
    assert (CP : c_kind c <> Binary -> forall m s, ~ endless (compute_position (e_bh e i) (c_bh c) m s (c_bounds c))).
    { intros K m s. unfold compute_position. destruct (negb _); [discriminate|]. destruct (c_bounds c) as [b|] eqn:B; [|discriminate]. apply ends_boundary. destruct HB as [HB|[HB|HB]]; congruence. }
    destruct (c_kind c); try (match goal with |- context [compute_position ?a ?b ?m ?s ?bb] => pose proof (CP ltac:(discriminate) m s) as EP; destruct (compute_position a b m s bb) as [[p bm]|x]; [exact Logic.I|unfold endless in EP; congruence] end).
    match goal with |- context [binary_position ?a ?b ?v'] => pose proof (BP v') as EP; destruct (binary_position a b v') as [p|x]; [exact Logic.I|unfold endless in EP; congruence] end.
  - discriminate.
  - apply ends_final.
  - unfold endless. congruence.
Qed.
(** A coordinate of the moved swarm. *)
Lemma moved_coord : forall l u a z x v k, ~ fisnan (fadd x v) = true -> within 1018 a -> within 1018 z -> fle a z = true -> flt x l = false -> flt u x = false -> flt v a = false -> flt z v = false ->
  let m := (Rabs (FR l) + Rabs (FR u) + Rabs (FR a) + Rabs (FR z))%R in
  roomy l u (3 * m) -> (12 * m <= INR k * (FR u - FR l))%R ->
  let y := fadd x v in within 1020 y /\ roomy l u (Rabs (FR y) + Rabs (FR l) + Rabs (FR u)) /\ (4 * (Rabs (FR y) + Rabs (FR l) + Rabs (FR u)) <= INR k * (FR u - FR l))%R.
Proof.
  intros l u a z x v k NN Wa Wz AZ X1 X2 V1 V2 m (Wl & Wu & LU & RM) K y.
  assert (Nx : fisnan x = false) by (destruct (fisnan x) eqn:Q; [contradiction NN; destruct x; try discriminate Q; reflexivity|reflexivity]).
  assert (Nv : fisnan v = false) by (destruct (fisnan v) eqn:Q; [contradiction NN; destruct v; try discriminate Q; destruct x as [[]|[]| |[]]; reflexivity|reflexivity]).
  assert (BT : forall p q t, within 1018 p -> within 1018 q -> fisnan t = false -> flt t p = false -> flt q t = false -> within 1018 t /\ (Rabs (FR t) <= Rabs (FR p) + Rabs (FR q))%R).
  { intros p q t Wp Wq Nt T1 T2. assert (L1 : fle p t = true) by (destruct Wp as [Fp _]; apply finite_notnan in Fp; clear -Fp Nt T1; forder). assert (L2 : fle t q = true) by (destruct Wq as [Fq _]; apply finite_notnan in Fq; clear -Fq Nt T2; forder).
    pose proof (within_between 1018 p t q Wp Wq L1 L2) as Wt. split; [exact Wt|]. apply (fle_fin p t (proj1 Wp) (proj1 Wt)) in L1. apply (fle_fin t q (proj1 Wt) (proj1 Wq)) in L2. unfold Rabs. destruct (Rcase_abs (FR t)), (Rcase_abs (FR p)), (Rcase_abs (FR q)); lra. }
  destruct (BT l u x Wl Wu Nx X1 X2) as [Wx Bx]. destruct (BT a z v Wa Wz Nv V1 V2) as [Wv Bv].
  pose proof (within_fadd 1018 x v ltac:(lia) Wx Wv) as Wy. pose proof (position_accuracy x v (proj1 Wy)) as AC. fold y in AC, Wy.
  assert (By : (Rabs (FR y) <= 2 * m)%R).
  { assert (U : (uu <= 1)%R) by (unfold uu; change 1%R with (bpow radix2 0); apply bpow_le; lia). pose proof (Rabs_triang (FR x) (FR v)) as TR. pose proof (Rabs_pos (FR x + FR v)) as P0.
    assert (UU : (uu * Rabs (FR x + FR v) <= 1 * Rabs (FR x + FR v))%R) by (apply Rmult_le_compat_r; assumption).
    replace (FR y) with ((FR y - (FR x + FR v)) + (FR x + FR v))%R by ring. eapply Rle_trans; [apply Rabs_triang|]. unfold m. lra. }
  pose proof (Rabs_pos (FR a)). pose proof (Rabs_pos (FR z)). pose proof (Rabs_pos (FR l)). pose proof (Rabs_pos (FR u)).
  split; [apply (within_le 1019); [lia|exact Wy]|]. split; [split; [exact Wl|split; [exact Wu|split; [exact LU|]]]|]; unfold m in *; lra.
Qed.
(** C83: a clamped run with 'reflective'. *)
Lemma reflective_run_ends : forall c e pool iters o o' r b cl k, callbacks_end e -> c_kind c <> Binary -> c_bh c = "reflective" -> c_vh c = "unmodified" \/ c_vh c = "invert" \/ c_vh c = "adjust" ->
  c_bounds c = Some b -> c_clamp c = Some cl -> box_dim (c_d c) b -> b_arr b = true -> roomy_run b cl k -> (forall t, k <= bd_fuel (e_bh e t)) ->
  is_matrix (c_n c) (c_d c) (s_position (o_swarm o)) -> none_outside b (s_position (o_swarm o)) ->
  optimize c e pool iters o = (o', r) -> ~ endless r.
Proof.
  intros c e pool iters o o' r b cl k CE KB BH VH CB CC BD AR RR FU M0 N0 E.
  set (J := fun o1 : ostate => is_matrix (c_n c) (c_d c) (s_position (o_swarm o1)) /\ none_outside b (s_position (o_swarm o1)) /\ o_vmem o1 <> None).
  destruct (optimize_rule c e pool iters o (fun _ o1 _ => J o1) (fun _ o1 _ => J o1) (fun _ => True) (fun _ x => x <> OutOfFuel)) with (o' := o') (r := r) as [(_ & _ & ->)|[(_ & _ & ->)|(_ & x & X & ->)]]; auto.
  - destruct (started_facts c o) as (_ & _ & _ & _ & _ & _ & E7 & E8 & _). unfold J. rewrite E7, E8. split; [exact M0|]. split; [exact N0|discriminate].
  - intros i o1 q _ Jo. pose proof (ends_evaluate c e pool i o1 q CE) as EE. pose proof (evaluate_cases c e pool i o1 q) as EC. destruct (evaluate_swarm c e pool i o1 q) as [o2 q2|o2|o2 x]; auto.
    destruct EC as (cost & pp & pc & t & bp & bc & np & EV & _). destruct (motion_eval _ _ _ _ _ _ _ _ _ _ _ _ _ EV) as (MO & _). unfold motion_of in MO. injection MO as M1 M2 M3 M4. unfold J in *. rewrite M1, M4. exact Jo.
  - intros i o1 q _ (J1 & J2 & J3). unfold update_swarm. destruct (c_kind c) eqn:KK; try contradiction;
    (pose proof (ends_oh (e_oh e i) (c_oh c) (c_options c) (mkOk (Some (Z.of_nat i)) (Some (Z.of_nat iters)) None None None None)) as EO; destruct (oh_call _ _ _ _) as [opts|x]; [|unfold endless in EO; congruence];
     cbv zeta; rewrite CC, CB; pose proof (ends_velocity (e_vel e i) (c_vh c) (o_vmem o1) (set_options (o_swarm o1) opts) (Some cl) (Some b)) as EV;
     change (o_vmem (with_swarm o1 (set_options (o_swarm o1) opts))) with (o_vmem o1);
     destruct (compute_velocity (e_vel e i) (c_vh c) (o_vmem o1) (set_options (o_swarm o1) opts) (Some cl) (Some b)) as [[v vm]|x] eqn:CV; [|unfold endless in EV; congruence];
     apply compute_velocity_handler in CV; destruct CV as (temp & _ & CV); pose proof (vh_mem_some _ _ _ _ _ _ _ CV J3) as VM;
     destruct (vh_clamped (c_vh c) cl (o_vmem o1) _ temp v vm ltac:(tauto) CV) as (w & AC); clear CV EV;
     unfold compute_position; cbn [s_position s_velocity set_velocity set_options];
     destruct (same_shape (s_position (o_swarm o1)) v) eqn:SS; [cbn [negb]|discriminate];
     pose proof (moved_matrix (c_n c) (c_d c) (set_velocity (set_options (o_swarm o1) opts) v) J1 SS) as MT; cbn [s_position s_velocity set_velocity set_options] in MT;
     assert (RE : exists p, is_matrix (c_n c) (c_d c) p /\ forall mem, bh_call (c_bh c) (e_bh e i) mem b (map2 (map2 fadd) (s_position (o_swarm o1)) v) = Ok (p, mem));
     [rewrite BH; destruct (reflective_ends (c_n c) (c_d c) b (map2 (map2 fadd) (s_position (o_swarm o1)) v) k MT BD AR) as (p & P1 & P2 & _);
       [intros a j y l u Y C; destruct (entry_row _ _ _ _ Y) as (ry & RY & YJ); destruct (nth_map2_inv _ _ _ _ _ RY) as (rx & rv & RX & RV & ->); destruct (nth_map2_inv _ _ _ _ _ YJ) as (x0 & v0 & X0 & V0 & ->);
        destruct (fisnan (fadd x0 v0)) eqn:NA; [left; reflexivity|right];
        destruct (entry_clamp cl w v a j AC v0 (entry_of _ _ _ _ _ RV V0)) as (raw & lo & hi & _ & CLM & ->);
        destruct (RR j l u lo hi C CLM) as (W1 & W2 & W3 & W4 & W5); destruct (J2 a j x0 l u (entry_of _ _ _ _ _ RX X0) C) as [O1 O2]; destruct (clamp_in raw lo hi W3) as [I1 I2];
        apply (moved_coord l u lo hi x0 _ k); auto; rewrite NA; discriminate
       |exists p; split; [exact P1|intros mem; destruct (e_bh e i) as [ug ul fu] eqn:EB; apply P2; specialize (FU i); rewrite EB in FU; exact FU]]
     |destruct RE as (p & P1 & P2); cbn [nadd F64num] in *; match goal with |- context [bh_call ?aa ?dd ?mm b ?tt] => let Q := fresh in assert (Q : bh_call aa dd mm b tt = Ok (p, mm)) by exact (P2 mm); rewrite Q; clear Q end;
      unfold J; cbn [o_swarm with_bmem with_swarm with_vmem set_position s_position o_vmem]; split; [exact P1|]; split; [|exact VM];
      rewrite BH in P2; exact (proj1 (reflective_claim _ _ _ _ _ _ (P2 None)))]).
  - discriminate.
  - apply ends_final.
  - unfold endless. congruence.
Qed.
