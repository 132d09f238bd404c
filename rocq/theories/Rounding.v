(** How far the recorded motion is from the exact equations (C61). *)
From Coq Require Import String ZArith List Arith Bool Reals Lra Lia Psatz.
From Flocq Require Import Core Relative Plus_error IEEE754.BinarySingleNaN.
From Verif Require Import Prelude ListFacts F64 F64Facts F64More Num Np Handlers Swarms Operators Generators Topology Optimizers Spec SpecHandlers SpecDyn SpecTame
  RunMain Textbook Tame.
Import ListNotations.
Local Open Scope R_scope.

Definition uu : R := bpow radix2 (-53).
Definition eta : R := bpow radix2 (-1075).
Lemma rnd_err : forall r, Rabs (rnd r - r) <= uu * Rabs r + eta.
Proof.
  intros r. destruct (error_N_FLT radix2 (-1074) 53 ltac:(lia) (fun x => negb (Z.even x)) r) as (eps & et & E1 & E2 & _ & E3).
  change (rnd r) with (round radix2 (FLT_exp (-1074) 53) ZnearestE r). change (round radix2 (FLT_exp (-1074) 53) (Znearest (fun x => negb (Z.even x))) r) with (rnd r) in E3. change (round radix2 (FLT_exp (-1074) 53) ZnearestE r) with (rnd r).
  rewrite E3. replace (r * (1 + eps) + et - r) with (r * eps + et) by ring. eapply Rle_trans; [apply Rabs_triang|]. rewrite Rabs_mult.
  assert (Q1 : Rabs eps <= uu). { eapply Rle_trans; [exact E1|]. unfold uu. apply Req_le. change (/ 2) with (bpow radix2 (-1)). rewrite <- bpow_plus. reflexivity. }
  assert (Q2 : Rabs et <= eta). { eapply Rle_trans; [exact E2|]. unfold eta. apply Req_le. change (/ 2) with (bpow radix2 (-1)). rewrite <- bpow_plus. reflexivity. }
  pose proof (Rabs_pos r). pose proof (Rabs_pos eps). nra.
Qed.
Lemma uu_small : 0 < uu <= / 1000.
Proof.
  unfold uu. split; [apply bpow_gt_0|]. apply Rle_trans with (bpow radix2 (-10)); [apply bpow_le; lia|].
  change (bpow radix2 (-10)) with (/ 1024). lra.
Qed.
Lemma eta_small : 0 < eta <= / 1000.
Proof.
  unfold eta. split; [apply bpow_gt_0|]. apply Rle_trans with (bpow radix2 (-10)); [apply bpow_le; lia|].
  change (bpow radix2 (-10)) with (/ 1024). lra.
Qed.
(** A finite result has finite operands. *)
Lemma fadd_fin_inv : forall a b, ffinite (fadd a b) = true -> ffinite a = true /\ ffinite b = true.
Proof. intros a b H. destruct a as [sa|sa| |sa ma ea Ha]; destruct b as [sb|sb| |sb mb eb Hb]; try (split; reflexivity); try discriminate H. destruct sa, sb; discriminate H. Qed.
Lemma fsub_fin_inv : forall a b, ffinite (fsub a b) = true -> ffinite a = true /\ ffinite b = true.
Proof. intros a b H. destruct a as [sa|sa| |sa ma ea Ha]; destruct b as [sb|sb| |sb mb eb Hb]; try (split; reflexivity); try discriminate H. destruct sa, sb; discriminate H. Qed.
Lemma fmul_fin_inv : forall a b, ffinite (fmul a b) = true -> ffinite a = true /\ ffinite b = true.
Proof. intros a b H. destruct a as [sa|sa| |sa ma ea Ha]; destruct b as [sb|sb| |sb mb eb Hb]; try (split; reflexivity); discriminate H. Qed.

Lemma add_err : forall a b, ffinite (fadd a b) = true -> Rabs (FR (fadd a b) - (FR a + FR b)) <= uu * Rabs (FR a + FR b) + eta.
Proof. intros a b F. destruct (fadd_fin_inv a b F) as [Fa Fb]. rewrite (is_round_finite_eq _ _ (fadd_round a b Fa Fb) F). apply rnd_err. Qed.
Lemma sub_err : forall a b, ffinite (fsub a b) = true -> Rabs (FR (fsub a b) - (FR a - FR b)) <= uu * Rabs (FR a - FR b) + eta.
Proof. intros a b F. destruct (fsub_fin_inv a b F) as [Fa Fb]. rewrite (is_round_finite_eq _ _ (fsub_round a b Fa Fb) F). apply rnd_err. Qed.
Lemma mul_err : forall a b, ffinite (fmul a b) = true -> Rabs (FR (fmul a b) - FR a * FR b) <= uu * Rabs (FR a * FR b) + eta.
Proof. intros a b F. destruct (fmul_fin_inv a b F) as [Fa Fb]. rewrite (is_round_finite_eq _ _ (fmul_round a b Fa Fb) F). apply rnd_err. Qed.

Lemma near_abs : forall a b e, Rabs (a - b) <= e -> Rabs a <= Rabs b + e.
Proof. intros a b e H. replace a with (b + (a - b)) by ring. eapply Rle_trans; [apply Rabs_triang|]. lra. Qed.
Lemma near_add : forall a a' b b' ea eb, Rabs (a' - a) <= ea -> Rabs (b' - b) <= eb -> Rabs (a' + b' - (a + b)) <= ea + eb.
Proof. intros a a' b b' ea eb H H'. replace (a' + b' - (a + b)) with ((a' - a) + (b' - b)) by ring. eapply Rle_trans; [apply Rabs_triang|]. lra. Qed.
Lemma near_mul : forall a a' b b' ea eb, Rabs (a' - a) <= ea -> Rabs (b' - b) <= eb -> Rabs (a' * b' - a * b) <= ea * (Rabs b + eb) + Rabs a * eb.
Proof.
  intros a a' b b' ea eb H H'. replace (a' * b' - a * b) with ((a' - a) * b' + a * (b' - b)) by ring.
  eapply Rle_trans; [apply Rabs_triang|]. rewrite !Rabs_mult. pose proof (near_abs _ _ _ H') as N.
  apply Rplus_le_compat; apply Rmult_le_compat; auto using Rabs_pos; lra.
Qed.
Lemma near_trans : forall a b c e f, Rabs (a - b) <= e -> Rabs (b - c) <= f -> Rabs (a - c) <= e + f.
Proof. intros a b c e f H H'. replace (a - c) with ((a - b) + (b - c)) by ring. eapply Rle_trans; [apply Rabs_triang|]. lra. Qed.

(** Rounding a sum of two rounded terms. *)
Lemma sum_err : forall a b A B ea eb, ffinite (fadd a b) = true -> Rabs (FR a - A) <= ea -> Rabs (FR b - B) <= eb ->
  Rabs (FR (fadd a b) - (A + B)) <= (1 + uu) * (ea + eb) + uu * (Rabs A + Rabs B) + eta.
Proof.
  intros a b A B ea eb F HA HB. pose proof (near_add _ _ _ _ _ _ HA HB) as N. pose proof (add_err a b F) as E. pose proof (near_trans _ _ _ _ _ E N) as T.
  pose proof (near_abs _ _ _ N) as AB. pose proof (Rabs_triang A B) as TR. pose proof uu_small as U.
  eapply Rle_trans; [exact T|]. assert (uu * Rabs (FR a + FR b) <= uu * (Rabs A + Rabs B + (ea + eb))) by (apply Rmult_le_compat_l; lra). lra.
Qed.
(** One attraction term. *)
Lemma term_err : forall c r p x, ffinite (fmul (fmul c r) (fsub p x)) = true ->
  Rabs (FR (fmul (fmul c r) (fsub p x)) - FR c * FR r * (FR p - FR x)) <=
    4 * uu * (Rabs (FR c * FR r) * Rabs (FR p - FR x)) + 3 * eta * (1 + Rabs (FR c * FR r) + Rabs (FR p - FR x)).
Proof.
  intros c r p x F. destruct (fmul_fin_inv _ _ F) as [F1 F2]. pose proof (mul_err _ _ F) as E. pose proof (mul_err _ _ F1) as E1. pose proof (sub_err _ _ F2) as E2.
  pose proof (near_mul _ _ _ _ _ _ E1 E2) as N. pose proof (near_trans _ _ _ _ _ E N) as T. pose proof (near_abs _ _ _ N) as AB.
  rewrite (Rabs_mult (FR c * FR r)) in AB. set (K := Rabs (FR c * FR r)) in *. set (D := Rabs (FR p - FR x)) in *.
  pose proof (Rabs_pos (FR c * FR r)) as PK. fold K in PK. pose proof (Rabs_pos (FR p - FR x)) as PD. fold D in PD.
  pose proof uu_small as U. pose proof eta_small as H. set (u := uu) in *. set (h := eta) in *. clearbody u h K D.
  eapply Rle_trans; [exact T|]. clear T E E1 E2 N.
  apply Rle_trans with (u * (K * D + ((u * K + h) * (D + (u * D + h)) + K * (u * D + h))) + h + ((u * K + h) * (D + (u * D + h)) + K * (u * D + h))).
  { apply Rplus_le_compat_r. apply Rplus_le_compat_r. apply Rmult_le_compat_l; [lra|exact AB]. }
  assert (M0 : 0 <= K * D) by (apply Rmult_le_pos; auto). set (M := K * D) in *.
  replace ((u * K + h) * (D + (u * D + h)) + K * (u * D + h)) with (u * M * (2 + u) + h * (D * (1 + u) + K * (1 + u) + h)) by (unfold M; ring).
  clearbody M. assert (A1 : u * M * (2 + u) <= u * M * (2001 / 1000)) by (apply Rmult_le_compat_l; [apply Rmult_le_pos; lra|lra]).
  assert (A2 : h * (D * (1 + u) + K * (1 + u) + h) <= h * (D * (1001/1000) + K * (1001/1000) + 1/1000)).
  { apply Rmult_le_compat_l; [lra|]. assert (D * (1 + u) <= D * (1001/1000)) by (apply Rmult_le_compat_l; lra). assert (K * (1 + u) <= K * (1001/1000)) by (apply Rmult_le_compat_l; lra). lra. }
  set (Q := u * M * (2 + u) + h * (D * (1 + u) + K * (1 + u) + h)) in *.
  assert (Q0 : 0 <= Q). { unfold Q. apply Rplus_le_le_0_compat; apply Rmult_le_pos; try lra; [apply Rmult_le_pos; lra|]. assert (0 <= D * (1 + u)) by (apply Rmult_le_pos; lra). assert (0 <= K * (1 + u)) by (apply Rmult_le_pos; lra). lra. }
  assert (A3 : u * Q <= / 1000 * Q) by (apply Rmult_le_compat_r; lra).
  assert (QB : Q <= u * M * (2001/1000) + h * (D * (1001/1000) + K * (1001/1000) + 1/1000)) by (unfold Q; lra).
  assert (UM : 0 <= u * M) by (apply Rmult_le_pos; lra). assert (HD : 0 <= h * D) by (apply Rmult_le_pos; lra). assert (HK : 0 <= h * K) by (apply Rmult_le_pos; lra).
  clearbody Q. lra.
Qed.
Lemma velocity_accuracy : forall w c1 c2 r1 r2 x v p g,
  let v1 := fadd (fadd (fmul w v) (fmul (fmul c1 r1) (fsub p x))) (fmul (fmul c2 r2) (fsub g x)) in
  ffinite v1 = true -> (Rabs (FR v1 - exact_velocity w c1 c2 r1 r2 x v p g) <= rounding_slack w c1 c2 r1 r2 x v p g)%R.
Proof.
  intros w c1 c2 r1 r2 x v p g v1 F. unfold v1 in *. clear v1. destruct (fadd_fin_inv _ _ F) as [F1 F2]. destruct (fadd_fin_inv _ _ F1) as [F3 F4].
  pose proof (mul_err _ _ F3) as E3. pose proof (term_err _ _ _ _ F4) as E4. pose proof (term_err _ _ _ _ F2) as E2.
  pose proof (sum_err _ _ _ _ _ _ F1 E3 E4) as E1. pose proof (sum_err _ _ _ _ _ _ F E1 E2) as E.
  unfold exact_velocity, rounding_slack. eapply Rle_trans; [exact E|]. clear.
  replace (bpow radix2 (-1070)) with (32 * eta). 2:{ unfold eta. change 32 with (bpow radix2 5). rewrite <- bpow_plus. reflexivity. }
  fold uu. pose proof (Rabs_triang (FR w * FR v) (FR c1 * FR r1 * (FR p - FR x))) as TR.
  rewrite !(Rabs_mult (_ * _) (_ - _)) in *.
  set (A := Rabs (FR w * FR v)) in *. set (K1 := Rabs (FR c1 * FR r1)) in *. set (K2 := Rabs (FR c2 * FR r2)) in *.
  set (D1 := Rabs (FR p - FR x)) in *. set (D2 := Rabs (FR g - FR x)) in *.
  assert (0 <= A) by apply Rabs_pos. assert (0 <= K1) by apply Rabs_pos. assert (0 <= K2) by apply Rabs_pos. assert (0 <= D1) by apply Rabs_pos. assert (0 <= D2) by apply Rabs_pos.
  set (B := Rabs (FR w * FR v + FR c1 * FR r1 * (FR p - FR x))) in *. clearbody A K1 K2 D1 D2 B.
  pose proof uu_small as U. pose proof eta_small as Hh. set (u := uu) in *. set (h := eta) in *. clearbody u h.
  assert (0 <= K1 * D1) by (apply Rmult_le_pos; auto). assert (0 <= K2 * D2) by (apply Rmult_le_pos; auto).
  set (M1 := K1 * D1) in *. set (M2 := K2 * D2) in *. clearbody M1 M2.
  assert (G : forall z, 0 <= z -> (1 + u) * z <= 1001 / 1000 * z) by (intros z Z; apply Rmult_le_compat_r; lra).
  assert (0 <= u * A) by (apply Rmult_le_pos; lra). assert (0 <= u * M1) by (apply Rmult_le_pos; lra). assert (0 <= u * M2) by (apply Rmult_le_pos; lra).
  assert (0 <= h * K1) by (apply Rmult_le_pos; lra). assert (0 <= h * K2) by (apply Rmult_le_pos; lra). assert (0 <= h * D1) by (apply Rmult_le_pos; lra). assert (0 <= h * D2) by (apply Rmult_le_pos; lra).
  assert (u * B <= u * (A + M1)) by (apply Rmult_le_compat_l; lra).
  set (e1 := u * A + h + (4 * u * M1 + 3 * h * (1 + K1 + D1))).
  assert (0 <= e1) by (unfold e1; lra). pose proof (G e1 ltac:(auto)) as G1.
  set (e2 := (1 + u) * e1 + u * (A + M1) + h + (4 * u * M2 + 3 * h * (1 + K2 + D2))).
  assert (0 <= e2). { unfold e2. assert (0 <= (1 + u) * e1) by (apply Rmult_le_pos; lra). lra. }
  pose proof (G e2 ltac:(auto)) as G2. unfold e2 in G2 at 2. unfold e1 in G1 at 2.
  fold e1 e2. lra.
Qed.
Lemma operator_accuracy : forall w c1 c2 r1 r2 x v p g : f64,
  let v1 := velocity_el (N := F64num) c1 c2 w r1 r2 x v p g in
  ffinite v1 = true -> (Rabs (FR v1 - exact_velocity w c1 c2 r1 r2 x v p g) <= rounding_slack w c1 c2 r1 r2 x v p g)%R.
Proof. exact velocity_accuracy. Qed.
Lemma position_accuracy : forall x v, ffinite (fadd x v) = true -> Rabs (FR (fadd x v) - (FR x + FR v)) <= uu * Rabs (FR x + FR v).
Proof.
  intros x v F. destruct (fadd_fin_inv _ _ F) as [Fx Fv]. rewrite (is_round_finite_eq _ _ (fadd_round x v Fx Fv) F).
  destruct (FLT_plus_error_N_ex radix2 (-1074) 53 (fun x => negb (Z.even x)) (FR x) (FR v)) as (eps & E1 & E2).
  { apply (generic_format_B2R prec emax x). } { apply (generic_format_B2R prec emax v). }
  change (round radix2 (FLT_exp (-1074) 53) (Znearest (fun x => negb (Z.even x))) (FR x + FR v)) with (rnd (FR x + FR v)) in E2. rewrite E2.
  replace ((FR x + FR v) * (1 + eps) - (FR x + FR v)) with ((FR x + FR v) * eps) by ring. rewrite Rabs_mult, Rmult_comm. apply Rmult_le_compat_r; [apply Rabs_pos|].
  eapply Rle_trans; [exact E1|]. apply Rle_trans with (u_ro radix2 53).
  - unfold Rdiv. assert (0 <= u_ro radix2 53) by apply u_ro_pos. rewrite <- (Rmult_1_r (u_ro radix2 53)) at 3. apply Rmult_le_compat_l; auto.
    rewrite <- Rinv_1. apply Rinv_le; lra.
  - apply Req_le. unfold u_ro, uu. change (/ 2) with (bpow radix2 (-1)). rewrite <- bpow_plus. reflexivity.
Qed.
Lemma unclipped_raw : forall cl j raw v, clamped cl j raw v -> unclipped cl j v -> v = raw.
Proof.
  intros [cl|] j raw v C U; [|exact C]. destruct U as (a & b & CC & L & A & B). destruct (C a b CC L) as (C1 & C2 & C3 & C4 & _).
  destruct (fisnan raw) eqn:N; [auto|]. apply C1.
  - destruct (flt a raw) eqn:Q; auto. assert (E : fle raw a = true) by forder. apply C2 in E. forder.
  - destruct (flt raw b) eqn:Q; auto. assert (E : fle b raw = true) by forder. apply C3 in E. forder.
Qed.

Local Open Scope string_scope.
Local Open Scope list_scope.
Local Open Scope nat_scope.
(** C61 *)
Lemma star_accuracy : forall c e pool iters o o' r, Fresh c o -> t_kind (o_top o) = Star -> c_kind c <> Binary -> c_vh c = "unmodified" ->
  NoDup (dkeys (c_options c)) -> pool <> Some 0 -> optimize c e pool iters o = (o', r) ->
  exists C, logged e pool (o_pos_history o') C /\ length (o_velocity_history o') = length (o_pos_history o') /\
    (forall X V, nth_error (o_pos_history o') 0 = Some X -> nth_error (o_velocity_history o') 0 = Some V ->
       X = s_position (o_swarm o) /\ V = s_velocity (o_swarm o)) /\
    forall t X V X' V' i j x v, nth_error (o_pos_history o') t = Some X -> nth_error (o_velocity_history o') t = Some V ->
      nth_error (o_pos_history o') (S t) = Some X' -> nth_error (o_velocity_history o') (S t) = Some V' ->
      entry X i j = Some x -> entry V i j = Some v ->
      exists w c1 c2 r1 r2 x0 px py p gx gy g v1 x1,
        coefficient c e iters t "w" w /\ coefficient c e iters t "c1" c1 /\ coefficient c e iters t "c2" c2 /\
        entry (vd_u1 (e_vel e t)) i j = Some r1 /\ entry (vd_u2 (e_vel e t)) i j = Some r2 /\
        nth_error (s_position (o_swarm o)) i = Some x0 /\
        best_of_run (so_far t (o_pos_history o')) (so_far t C) i x0 px py /\ nth_error px j = Some p /\
        swarm_best (so_far t (o_pos_history o')) (so_far t C) gx gy /\ nth_error gx j = Some g /\
        entry V' i j = Some v1 /\ entry X' i j = Some x1 /\
        (ffinite v1 = true -> unclipped (c_clamp c) j v1 ->
           (Rabs (FR v1 - exact_velocity w c1 c2 r1 r2 x v p g) <= rounding_slack w c1 c2 r1 r2 x v p g)%R) /\
        (ffinite x1 = true -> c_bounds c = None -> (Rabs (FR x1 - (FR x + FR v1)) <= bpow radix2 (-53) * Rabs (FR x + FR v1))%R).
Proof.
  intros c e pool iters o o' r F K KB VH ND NP E.
  destruct (star_equations c e pool iters o o' r) as (C & H1 & H2 & H3 & H4); auto. exists C. split; auto. split; auto. split; auto.
  intros t X V X' V' i j x v E1 E2 E3 E4 Ex Ev. destruct (H4 t X V X' V' i j x v E1 E2 E3 E4 Ex Ev) as (w & c1 & c2 & r1 & r2 & x0 & px & py & p & gx & gy & g & v1 & x1 & Q0 & Q1 & Q2 & Q3 & Q4 & Q5 & Q6 & Q7 & Q8 & Q9 & Q10 & Q11 & CL & PL).
  exists w, c1, c2, r1, r2, x0, px, py, p, gx, gy, g, v1, x1. split; [exact Q0|]. split; [exact Q1|]. split; [exact Q2|]. split; [exact Q3|]. split; [exact Q4|]. split; [exact Q5|]. split; [exact Q6|]. split; [exact Q7|]. split; [exact Q8|]. split; [exact Q9|]. split; [exact Q10|]. split; [exact Q11|].
  split.
  - intros FV U. pose proof (unclipped_raw _ _ _ _ CL U) as ->. apply velocity_accuracy. exact FV.
  - intros FX B. unfold placed in PL. rewrite B in PL. rewrite PL in FX |- *. exact (position_accuracy x v1 FX).
Qed.
Lemma neighbour_accuracy : forall c e pool iters o o' r, Fresh c o -> t_kind (o_top o) <> Star ->
  ~ (t_kind (o_top o) = Ring /\ int_option c "k" 1) -> ~ (t_kind (o_top o) = VonNeumann /\ int_option c "r" 0) ->
  (t_kind (o_top o) = Pyramid -> s_d (o_swarm o) < s_n (o_swarm o)) -> (t_kind (o_top o) = VonNeumann -> 0 < s_d (o_swarm o)) ->
  c_kind c <> Binary -> c_vh c = "unmodified" -> NoDup (dkeys (c_options c)) -> pool <> Some 0 -> optimize c e pool iters o = (o', r) ->
  exists C, logged e pool (o_pos_history o') C /\ length (o_velocity_history o') = length (o_pos_history o') /\
    (forall X V, nth_error (o_pos_history o') 0 = Some X -> nth_error (o_velocity_history o') 0 = Some V ->
       X = s_position (o_swarm o) /\ V = s_velocity (o_swarm o)) /\
    forall t X V X' V' i j x v, nth_error (o_pos_history o') t = Some X -> nth_error (o_velocity_history o') t = Some V ->
      nth_error (o_pos_history o') (S t) = Some X' -> nth_error (o_velocity_history o') (S t) = Some V' ->
      entry X i j = Some x -> entry V i j = Some v ->
      exists w c1 c2 r1 r2 x0 px py p rows row gx gy g v1 x1,
        coefficient c e iters t "w" w /\ coefficient c e iters t "c1" c1 /\ coefficient c e iters t "c2" c2 /\
        entry (vd_u1 (e_vel e t)) i j = Some r1 /\ entry (vd_u2 (e_vel e t)) i j = Some r2 /\
        nth_error (s_position (o_swarm o)) i = Some x0 /\
        best_of_run (so_far t (o_pos_history o')) (so_far t C) i x0 px py /\ nth_error px j = Some p /\
        neighbour_lists c e o (o_pos_history o') t rows /\ nth_error rows i = Some row /\
        neighbour_best (so_far t (o_pos_history o')) (so_far t C) (s_position (o_swarm o)) row gx gy /\ nth_error gx j = Some g /\
        entry V' i j = Some v1 /\ entry X' i j = Some x1 /\
        (ffinite v1 = true -> unclipped (c_clamp c) j v1 ->
           (Rabs (FR v1 - exact_velocity w c1 c2 r1 r2 x v p g) <= rounding_slack w c1 c2 r1 r2 x v p g)%R) /\
        (ffinite x1 = true -> c_bounds c = None -> (Rabs (FR x1 - (FR x + FR v1)) <= bpow radix2 (-53) * Rabs (FR x + FR v1))%R).
Proof.
  intros c e pool iters o o' r F K N1 N2 N3 N4 KB VH ND NP E.
  destruct (neighbour_equations c e pool iters o o' r) as (C & H1 & H2 & H3 & H4); auto. exists C. split; auto. split; auto. split; auto.
  intros t X V X' V' i j x v E1 E2 E3 E4 Ex Ev. destruct (H4 t X V X' V' i j x v E1 E2 E3 E4 Ex Ev) as (w & c1 & c2 & r1 & r2 & x0 & px & py & p & rows & row & gx & gy & g & v1 & x1 & Q0 & Q1 & Q2 & Q3 & Q4 & Q5 & Q6 & Q7 & Q8 & Q9 & Q10 & Q11 & Q12 & Q13 & CL & PL).
  exists w, c1, c2, r1, r2, x0, px, py, p, rows, row, gx, gy, g, v1, x1. split; [exact Q0|]. split; [exact Q1|]. split; [exact Q2|]. split; [exact Q3|]. split; [exact Q4|]. split; [exact Q5|]. split; [exact Q6|]. split; [exact Q7|]. split; [exact Q8|]. split; [exact Q9|]. split; [exact Q10|]. split; [exact Q11|]. split; [exact Q12|]. split; [exact Q13|].
  split.
  - intros FV U. pose proof (unclipped_raw _ _ _ _ CL U) as ->. apply velocity_accuracy. exact FV.
  - intros FX B. unfold placed in PL. rewrite B in PL. rewrite PL in FX |- *. exact (position_accuracy x v1 FX).
Qed.
