(** A swarm without attraction coasts (C80). *)
From Coq Require Import String ZArith List Arith Bool Lia Reals Lra.
From Flocq Require Import Core BinarySingleNaN.
From Verif Require Import Prelude ListFacts F64 F64Facts F64More Num Np NpFacts Handlers Swarms Operators Generators Topology Optimizers
  Spec SpecHandlers SpecOpts SpecDyn SpecMirror SpecTame SpecAlone SpecCoast RunFacts RunMain ShapeFacts HandlerFacts VhFacts VhClaims VelFacts Prefixes Entries MirrorFacts RunInv Trajectory Textbook
  Tame Collapse SameFacts Alone CoastFacts.
Import ListNotations.
Local Open Scope string_scope.
Local Open Scope list_scope.
Local Open Scope nat_scope.
#[local] Arguments fdec : simpl never.
#[local] Arguments fofZ : simpl never.

(** The component [v'] that follows [v] in dimension [j]. *)
Definition limited (c : config) (j : nat) (raw v' : f64) : Prop :=
  match c_clamp c with None => v' = raw | Some cl => exists a b, clamp_column cl j a b /\ (fle a b = true -> cut a b raw v') end.
Definition coasted (c : config) (e : env) (iters t j : nat) (v v' : f64) : Prop :=
  exists w raw, coefficient c e iters t "w" w /\ same (fmul w v) raw /\ limited c j raw v'.
Definition step (c : config) (e : env) (iters t : nat) (V V' : fmatrix) : Prop :=
  shape_eq V V' /\ forall i j v, entry V i j = Some v -> exists v', entry V' i j = Some v' /\ coasted c e iters t j v v'.
Lemma limited_clamped : forall c j raw v', limited c j raw v' -> clamped (c_clamp c) j raw v'.
Proof.
  intros c j raw v' H. unfold limited in H. unfold clamped. destruct (c_clamp c) as [cl|]; [|exact H].
  destruct H as (a & b & [A B] & H). intros a' b' [A' B'] L. rewrite A in A'. rewrite B in B'. injection A' as <-. injection B' as <-. auto.
Qed.

Section Run.
Variables (c : config) (e : env) (pool : option nat) (iters : nat).
Hypotheses (KB : c_kind c <> Binary) (VH : c_vh c = "unmodified") (ND : NoDup (dkeys (c_options c))) (PULL : no_pull c e iters) (FD : finite_draws e).

Lemma update_coasts : forall t o1 o2 opts v vm p bm, Updated c e iters t o1 o2 opts v vm p bm ->
  all_e wi (s_position (o_swarm o1)) -> all_e wi (s_pbest_pos (o_swarm o1)) -> best_e wi (s_best_pos (o_swarm o1)) -> step c e iters t (s_velocity (o_swarm o1)) v.
Proof.
  intros t o1 o2 opts v' vm p' bm U WX WP WB. destruct U as (U & _).
  assert (U' : oh_call (e_oh e t) (c_oh c) (c_options c) (mkOk (Some (Z.of_nat t)) (Some (Z.of_nat iters)) None None None None) = Ok opts /\
      compute_velocity (e_vel e t) (c_vh c) (o_vmem o1) (set_options (o_swarm o1) opts) (c_clamp c) (c_bounds c) = Ok (v', vm)).
  { destruct (c_kind c); try congruence; destruct U as (A & B & _); auto. }
  clear U. destruct U' as (U1 & U2).
  destruct (compute_velocity_inv _ _ _ _ _ _ _ _ _ U2) as (q1 & q2 & q3 & best & Q1 & Q2 & Q3 & BR & S1 & S2 & S3 & S4 & S5 & H).
  cbn [s_position s_velocity s_options set_options s_pbest_pos s_best_pos s_d] in *.
  pose proof (compute_velocity_shape _ _ _ _ _ _ _ _ U2) as SV. cbn [s_position set_options] in SV.
  split; [exact (shape_eq_trans _ _ _ (shape_eq_sym _ _ S3) SV)|]. intros i j v V.
  destruct (shape_entry _ _ _ _ _ _ _ (shape_eq_sym _ _ S3) V) as [x X].
  destruct (shape_entry _ _ _ _ _ _ _ S1 X) as [p P]. destruct (shape_entry _ _ _ _ _ _ _ S2 X) as [g G].
  destruct (shape_entry _ _ _ _ _ _ _ S4 X) as [r1 R1]. destruct (shape_entry _ _ _ _ _ _ _ S5 X) as [r2 R2].
  destruct (shape_entry _ _ _ _ _ _ _ SV X) as [v1 V1]. exists v1. split; [exact V1|].
  assert (WG : within 1022 g).
  { apply (WB i j). eapply best_rows_entry; [exact BR| |exact G]. destruct (entry_row _ _ _ _ X) as (r & R & _). apply nth_error_lt in R. exact R. }
  pose proof (velocity_entry (N := F64num) (pnum q1) (pnum q2) (pnum q3) i j _ _ _ _ _ _ _ _ _ _ _ _ R1 R2 X V P G) as VE.
  exists (pnum q3), (velocity_el (N := F64num) (pnum q1) (pnum q2) (pnum q3) r1 r2 x v p g). split; [eapply coefficient_ok; eauto|]. split.
  - unfold velocity_el. cbn [nadd nsub nmul F64num]. pose proof (PULL t _ (or_introl (coefficient_ok _ _ _ _ _ _ _ ND U1 Q1))) as Z1. pose proof (PULL t _ (or_intror (coefficient_ok _ _ _ _ _ _ _ ND U1 Q2))) as Z2.
    pose proof (social_zero _ _ _ _ Z1 (FD t i j r1 (or_introl R1)) (WP i j _ P) (WX i j _ X)) as T1. pose proof (social_zero _ _ _ _ Z2 (FD t i j r2 (or_intror R2)) WG (WX i j _ X)) as T2.
    apply same_sym. eapply same_trans; [apply add_same; [apply add_same; [apply same_refl|left; exact T1]|left; exact T2]|].
    generalize (fmul (pnum q3) v). intros y. destruct y as [[|]|s| |s m ex B]; try apply same_refl. left. reflexivity.
  - rewrite VH, unmodified_eq in H. unfold limited. destruct (c_clamp c) as [cl|]; cbn [maybe_clamp] in H.
    + destruct (apply_clamp cl _) as [v2|] eqn:AC in H; [|discriminate]. injection H as -> _.
      destruct (entry_clamp _ _ _ _ _ AC _ V1) as (y & a & b & Y & CC & ->). exists a, b. split; [exact CC|]. intros L.
      pose proof (eq_trans (eq_sym Y) VE) as EY. injection EY as ->. apply clamp_cut. exact L.
    + injection H as HV HM. rewrite HV in VE. pose proof (eq_trans (eq_sym VE) V1) as EY. injection EY as <-. reflexivity.
Qed.

Definition small (o1 : ostate) : Prop := all_e wi (s_position (o_swarm o1)) -> all_e wi (s_pbest_pos (o_swarm o1)) /\ best_e wi (s_best_pos (o_swarm o1)).
Definition chain (o1 : ostate) : Prop := length (o_velocity_history o1) = length (o_pos_history o1) /\
  forall k V V', nth_error (o_velocity_history o1) k = Some V -> nth_error (o_velocity_history o1) (S k) = Some V' -> step c e iters k V V'.
Definition next (t : nat) (o1 : ostate) : Prop := length (o_velocity_history o1) = t /\
  forall k V, t = S k -> nth_error (o_velocity_history o1) k = Some V -> step c e iters k V (s_velocity (o_swarm o1)).
Definition now (t : nat) (o1 : ostate) : Prop := length (o_velocity_history o1) = S t /\ nth_error (o_velocity_history o1) t = Some (s_velocity (o_swarm o1)) /\
  (no_overflow (o_pos_history o1) -> all_e wi (s_position (o_swarm o1))).

Lemma coasts : forall o o' r, Fresh c o -> pool <> Some 0 -> optimize c e pool iters o = (o', r) -> no_overflow (o_pos_history o') ->
  chain o' /\ (forall V, nth_error (o_velocity_history o') 0 = Some V -> V = s_velocity (o_swarm o)).
Proof.
  intros o o' r F NP E NO. split.
  2:{ destruct (optimize_trace _ _ _ _ _ _ _ NP E) as (k & tr & C & H & _). destruct H as (_ & _ & _ & H4 & _ & H6 & _). destruct (Fresh_inv _ _ F) as (dim & pos & vel & S & _ & _ & _ & P0 & V0).
      rewrite V0 in H4. cbn in H4. rewrite H4. intros V HV. rewrite nth_error_map in HV. destruct (nth_error tr 0) as [a|] eqn:A; [|discriminate]. injection HV as <-. rewrite (H6 a eq_refl). reflexivity. }
  destruct (Fresh_inv _ _ F) as (dim & pos & vel & S & _ & _ & _ & P0 & V0).
  destruct (optimize_rule c e pool iters o (fun t o1 _ => (no_overflow (o_pos_history o1) -> small o1 /\ chain o1 /\ next t o1) /\ length (o_velocity_history o1) = length (o_pos_history o1))
     (fun t o1 _ => (no_overflow (o_pos_history o1) -> small o1 /\ chain o1 /\ now t o1) /\ length (o_velocity_history o1) = length (o_pos_history o1))
     (fun o1 => no_overflow (o_pos_history o1) -> chain o1) (fun o1 _ => no_overflow (o_pos_history o1) -> chain o1)) with (o' := o') (r := r)
    as [(Q & -> & ->)|[(Q & Q1 & ->)|(Q & x & Q1 & ->)]]; auto; try congruence.
  - destruct (started_facts c o) as (_ & _ & _ & _ & E5 & E6 & E7 & _). split; [|rewrite E5, E6, P0, V0; reflexivity]. intros _. unfold small, chain, next. rewrite E5, E6, E7, S, P0, V0. cbn.
    split; [intros W; split; [exact W|intros i j x H; discriminate H]|]. split; [split; [reflexivity|intros [|k] V V' H; discriminate H]|]. split; [reflexivity|]. intros k V H; discriminate H.
  - intros t o1 q Ht (I & LL). pose proof (evaluate_cases c e pool t o1 q) as EC.
    assert (EVL : forall o3 cost pp pc tp bp bc np, Evald c e pool t o1 o3 cost pp pc tp bp bc np ->
       (no_overflow (o_pos_history o3) -> small o3 /\ chain o3 /\ now t o3) /\ length (o_velocity_history o3) = length (o_pos_history o3)).
    { intros o3 cost pp pc tp bp bc np EV. destruct (motion_eval _ _ _ _ _ _ _ _ _ _ _ _ _ EV) as (Mo & Hp & Hv).
      split; [|rewrite Hp, Hv, !app_length, LL; reflexivity]. intros N3.
      assert (N1 : no_overflow (o_pos_history o1)). { intros X HX. apply N3. rewrite Hp. apply in_or_app. left. exact HX. }
      destruct (I N1) as (SM & (CL & CH) & NL & NX). unfold small, chain, now. rewrite Hp, Hv.
      assert (WX : all_e wi (s_position (o_swarm o1))). { intros i j x X. apply (N3 (s_position (o_swarm o1))) with (i := i) (j := j); [|exact X]. rewrite Hp. apply in_or_app. right. left. reflexivity. }
      destruct (SM WX) as [W1 W2]. destruct EV as (E1 & E2 & E3 & ->).
      pose proof (pbest_entries _ _ _ _ E2 WX W1) as PE. split.
      { intros _. split; [exact PE|]. cbn. eapply gbest_entries; [exact E3| |]; cbn; assumption. }
      split.
      { split; [rewrite !app_length, CL; reflexivity|]. intros k V V' K1 K2. destruct (Nat.lt_ge_cases (Datatypes.S k) (length (o_velocity_history o1))) as [Lk|Lk].
        - rewrite nth_error_app1 in K1, K2 by lia. exact (CH k V V' K1 K2).
        - rewrite nth_error_app2 in K2 by lia. assert (Ek : Datatypes.S k = length (o_velocity_history o1)). { apply nth_error_lt in K2. cbn [length] in K2. lia. }
          replace (Datatypes.S k - length (o_velocity_history o1)) with 0 in K2 by lia. injection K2 as <-. rewrite nth_error_app1 in K1 by lia. apply (NX k V); [lia|exact K1]. }
      split; [rewrite app_length, NL; cbn; lia|]. split; [|intros _; exact WX].
      rewrite nth_error_app2 by lia. rewrite NL, Nat.sub_diag. reflexivity. }
    destruct (evaluate_swarm c e pool t o1 q) as [o2 q2|o2|o2 x].
    + destruct EC as (cost & pp & pc & tp & bp & bc & np & EV & _). exact (EVL _ _ _ _ _ _ _ _ EV).
    + destruct EC as (cost & pp & pc & tp & bp & bc & np & EV & _). destruct (EVL _ _ _ _ _ _ _ _ EV) as (A & _). intros N. apply A in N. apply N.
    + destruct (motion_raise _ _ _ _ _ _ _ EC) as (_ & Mp & Mv). unfold chain. rewrite Mp, Mv. intros N. apply I in N. apply N.
  - intros t o1 q Ht (I & LL). pose proof (update_cases c e iters t o1 q) as UC.
    destruct (update_swarm c e iters t o1 q) as [o2 q2|o2|o2 x].
    + destruct UC as (_ & CE & opts & v & vm & p & bm & U). pose proof U as (_ & SW & _). unfold small, chain, next. rewrite (ce_ph _ _ CE), (ce_vh _ _ CE), (ce_pp _ _ CE), (ce_bp _ _ CE). split; [|exact LL].
      intros N. destruct (I N) as (SM & CH & NL & NN & NW). specialize (NW N). destruct (SM NW) as [W1 W2]. split; [intros _; split; assumption|]. split; [exact CH|]. split; [lia|].
      intros k V K K1. injection K as <-. rewrite NN in K1. injection K1 as <-. rewrite SW. exact (update_coasts _ _ _ _ _ _ _ _ U NW W1 W2).
    + contradiction.
    + destruct UC as (CE & Ps). unfold chain. rewrite (ce_ph _ _ CE), (ce_vh _ _ CE). intros N. apply I in N. apply N.
  - intros o1 q (I & _) N. apply I in N. apply N.
Qed.
End Run.

Lemma limited_smaller : forall c j raw v', may_stop c -> ffinite raw = true -> limited c j raw v' -> ffinite v' = true /\ (Rabs (FR v') <= Rabs (FR raw))%R.
Proof.
  intros c j raw v' M F H. unfold may_stop in M. unfold limited in H. destruct (c_clamp c) as [cl|]; [|subst v'; split; [exact F|apply Rle_refl]].
  destruct H as (a & b & CC & H). destruct (M j a b CC) as [A B]. specialize (H ltac:(forder)). destruct H as (H1 & H2 & H3 & _ & H5).
  assert (NF : fisnan raw = false) by (apply finite_notnan; exact F). pose proof (FR_bound raw) as BR.
  destruct (fle raw a) eqn:LA.
  - specialize (H2 eq_refl). assert (FA : ffinite a = true) by (apply (fle_between raw a fzero); auto). assert (FV : ffinite v' = true).
    { destruct (H5 NF) as [G1 G2]. apply (fle_between a v' a); auto; forder. }
    split; [exact FV|]. apply feq_fin in H2; auto. apply fle_fin in LA; auto. apply fle_fin in A; auto. change (FR fzero) with 0%R in A. rewrite H2, !Rabs_left1; lra.
  - destruct (fle b raw) eqn:LB.
    + specialize (H3 eq_refl). assert (FB : ffinite b = true) by (apply (fle_between fzero b raw); auto). assert (FV : ffinite v' = true).
      { destruct (H5 NF) as [G1 G2]. apply (fle_between b v' b); auto; forder. }
      split; [exact FV|]. apply feq_fin in H3; auto. apply fle_fin in LB; auto. apply fle_fin in B; auto. change (FR fzero) with 0%R in B. rewrite H3, !Rabs_pos_eq; lra.
    + assert (E : v' = raw) by (apply H1; forder). subst v'. split; [exact F|apply Rle_refl].
Qed.
Lemma same_finite : forall x y, same x y -> ffinite x = true -> ffinite y = true /\ FR y = FR x.
Proof. intros x y S F. destruct (same_cases _ _ S) as [->|(s & s' & -> & ->)]; [auto|split; reflexivity]. Qed.
(** Backwards through a step. *)
Lemma step_back : forall c e iters t V V' i j v', step c e iters t V V' -> entry V' i j = Some v' -> exists v, entry V i j = Some v /\ coasted c e iters t j v v'.
Proof.
  intros c e iters t V V' i j v' [S H] E. destruct (shape_entry _ _ _ _ _ _ _ (shape_eq_sym _ _ S) E) as [v Ev]. destruct (H i j v Ev) as (v1 & E1 & C). rewrite E in E1. injection E1 as <-. eauto.
Qed.
Lemma coasted_slower : forall c e iters t j v v', may_stop c -> inertia c e iters (fun w => fle (fabs w) fone = true) -> ffinite v = true -> coasted c e iters t j v v' ->
  ffinite v' = true /\ (Rabs (FR v') <= Rabs (FR v))%R.
Proof.
  intros c e iters t j v v' M I F (w & raw & W & S & L). destruct (slower w v F (I t w W)) as [F1 L1]. destruct (same_finite _ _ S F1) as [F2 E2].
  destruct (limited_smaller _ _ _ _ M F2 L) as [F3 L3]. split; [exact F3|]. rewrite E2 in L3. lra.
Qed.
Lemma coasted_half : forall c e iters t j v v' k, may_stop c -> inertia c e iters (fun w => fle (fabs w) (fdec 1 2) = true) -> (-1073 <= k <= 1024)%Z -> within k v -> coasted c e iters t j v v' -> within (k - 1) v'.
Proof.
  intros c e iters t j v v' k M I K F (w & raw & W & S & L). destruct (halved w v k K (I t w W) F) as [F1 L1]. destruct (same_finite _ _ S F1) as [F2 E2].
  destruct (limited_smaller _ _ _ _ M F2 L) as [F3 L3]. split; [exact F3|]. rewrite E2 in L3. lra.
Qed.
Lemma coasted_gone : forall c e iters t j v v', may_stop c -> inertia c e iters (fun w => fle (fabs w) (fdec 1 2) = true) -> within (-1074) v -> coasted c e iters t j v v' -> feq v' fzero = true.
Proof.
  intros c e iters t j v v' M I F (w & raw & W & S & L). pose proof (gone w v (I t w W) F) as Z. apply zerof_eq in Z. destruct Z as [F1 Z]. destruct (same_finite _ _ S F1) as [F2 E2].
  destruct (limited_smaller _ _ _ _ M F2 L) as [F3 L3]. apply zerof_eq. split; [exact F3|]. rewrite E2, Z, Rabs_R0 in L3. destruct (Req_dec (FR v') 0) as [E|E]; [exact E|]. apply Rabs_pos_lt in E. lra.
Qed.
Lemma zero_within : forall v, feq v fzero = true -> within (-1074) v.
Proof. intros v Z. apply zerof_eq in Z. destruct Z as [F Z]. split; [exact F|]. rewrite Z, Rabs_R0. apply bpow_ge_0. Qed.
Lemma halves_down : forall c e iters (hv : list fmatrix), may_stop c -> inertia c e iters (fun w => fle (fabs w) (fdec 1 2) = true) ->
  (forall k V V', nth_error hv k = Some V -> nth_error hv (S k) = Some V' -> step c e iters k V V') -> (forall V, nth_error hv 0 = Some V -> finite_matrix V) ->
  forall t V, nth_error hv t = Some V -> forall i j v, entry V i j = Some v ->
    ((Z.of_nat t <= 2098)%Z -> within (1024 - Z.of_nat t) v) /\ ((2099 <= Z.of_nat t)%Z -> feq v fzero = true).
Proof.
  intros c e iters hv M I CH F0. induction t as [|t IH]; intros V E i j v X.
  - split; [intros _|intros H; change (Z.of_nat 0) with 0%Z in H; lia]. apply finite_within. exact (F0 V E i j v X).
  - destruct (nth_error_ex hv t) as [U EU]; [apply nth_error_lt in E; lia|]. destruct (step_back _ _ _ _ _ _ _ _ _ (CH t U V EU E) X) as (u & EX & C). destruct (IH U EU i j u EX) as [A B]. clear IH. rewrite Nat2Z.inj_succ. split; intros H.
    + replace (1024 - Z.succ (Z.of_nat t))%Z with (1024 - Z.of_nat t - 1)%Z by lia. apply (coasted_half _ _ _ _ _ _ _ _ M I) with (2 := A ltac:(lia)) (3 := C). lia.
    + apply (coasted_gone _ _ _ _ _ _ _ M I) with (2 := C). destruct (Z.eq_dec (Z.of_nat t) 2098) as [Q|Q]; [|apply zero_within, B; lia]. pose proof (A ltac:(lia)) as W. rewrite Q in W. exact W.
Qed.

(** *** The claims *)
Lemma coast_equation : forall c e pool iters o o' r, Fresh c o -> c_kind c <> Binary -> c_vh c = "unmodified" -> NoDup (dkeys (c_options c)) -> no_pull c e iters -> finite_draws e ->
  pool <> Some 0 -> optimize c e pool iters o = (o', r) -> no_overflow (o_pos_history o') ->
  (forall V, nth_error (o_velocity_history o') 0 = Some V -> V = s_velocity (o_swarm o)) /\
  forall t V V' i j v, nth_error (o_velocity_history o') t = Some V -> nth_error (o_velocity_history o') (S t) = Some V' -> entry V i j = Some v ->
    exists w raw v', coefficient c e iters t "w" w /\ same (fmul w v) raw /\ clamped (c_clamp c) j raw v' /\ entry V' i j = Some v'.
Proof.
  intros c e pool iters o o' r F KB VH ND NP FD P E NO. destruct (coasts c e pool iters KB VH ND NP FD o o' r F P E NO) as ((_ & CH) & F0). split; [exact F0|].
  intros t V V' i j v E1 E2 X. destruct (proj2 (CH t V V' E1 E2) i j v X) as (v' & X' & w & raw & W & S & L). exists w, raw, v'. split; [exact W|]. split; [exact S|]. split; [apply limited_clamped; exact L|exact X'].
Qed.
Lemma coast_slows : forall c e pool iters o o' r, Fresh c o -> c_kind c <> Binary -> c_vh c = "unmodified" -> NoDup (dkeys (c_options c)) -> no_pull c e iters -> finite_draws e -> may_stop c ->
  inertia c e iters (fun w => fle (fabs w) fone = true) -> finite_matrix (s_velocity (o_swarm o)) -> pool <> Some 0 -> optimize c e pool iters o = (o', r) -> no_overflow (o_pos_history o') ->
  forall s t V V' i j v, s <= t -> nth_error (o_velocity_history o') s = Some V -> nth_error (o_velocity_history o') t = Some V' -> entry V i j = Some v ->
    exists v', entry V' i j = Some v' /\ ffinite v' = true /\ fle (fabs v') (fabs v) = true.
Proof.
  intros c e pool iters o o' r F KB VH ND NP FD M I FV P E NO. destruct (coasts c e pool iters KB VH ND NP FD o o' r F P E NO) as ((_ & CH) & F0).
  set (hv := o_velocity_history o') in *. clearbody hv.
  assert (FIN : forall t V, nth_error hv t = Some V -> finite_matrix V).
  { induction t as [|t IH]; intros V EV i j v X. { rewrite (F0 V EV) in X. exact (FV i j v X). }
    destruct (nth_error_ex hv t) as [U EU]; [apply nth_error_lt in EV; lia|]. destruct (step_back _ _ _ _ _ _ _ _ _ (CH t U V EU EV) X) as (u & EX & C). exact (proj1 (coasted_slower _ _ _ _ _ _ _ M I (IH U EU i j u EX) C)). }
  intros s t V V' i j v L ES. revert V'. induction L as [|t L IH]; intros V' ET X.
  - rewrite ES in ET. injection ET as <-. exists v. split; [exact X|]. pose proof (FIN s V ES i j v X) as Fv. split; [exact Fv|]. apply fle_fin; [rewrite fabs_fin; exact Fv|rewrite fabs_fin; exact Fv|apply Rle_refl].
  - destruct (nth_error_ex hv t) as [U EU]; [apply nth_error_lt in ET; lia|]. destruct (IH U EU X) as (u & EX & Fu & Lu). destruct (proj2 (CH t U V' EU ET) i j u EX) as (v' & X' & C).
    destruct (coasted_slower _ _ _ _ _ _ _ M I Fu C) as [F' L']. exists v'. split; [exact X'|]. split; [exact F'|]. pose proof (FIN s V ES i j v X) as Fv. apply fle_fin; [rewrite fabs_fin; exact F'|rewrite fabs_fin; exact Fv|].
    apply fle_fin in Lu; [|rewrite fabs_fin; exact Fu|rewrite fabs_fin; exact Fv]. rewrite !fabs_R in *. lra.
Qed.
Lemma zero_row_same : forall x v : frow, length x = length v -> Forall (fun y => feq y fzero = true) v -> Forall2 same x (map2 fadd x v).
Proof.
  induction x as [|a x IH]; intros [|y v] L H; try discriminate; cbn [map2]; constructor; inversion H; subst.
  - apply same_sym. eapply same_trans; [apply add_same; [apply same_refl|left; eassumption]|]. destruct a as [[|]|s| |s m ex B]; try apply same_refl. left. reflexivity.
  - apply IH; [injection L as L; exact L|assumption].
Qed.
Lemma inside_same : forall c x x', Forall2 same x x' -> is_inside c x -> is_inside c x'.
Proof.
  intros c x x' S H. unfold is_inside in *. destruct (c_bounds c) as [b|]; [|exact Logic.I]. destruct H as [D G]. split; [pose proof (sr_len _ _ S) as LN; ftypes; rewrite LN; exact D|].
  destruct G as [G1 G2]. split.
  - intros (j & y & l & u & Y & C & L). destruct (Alone.Forall2_nth_r _ _ _ _ _ S j y Y) as (z & Z & SZ). apply G1. exists j, z, l, u. split; [exact Z|]. split; [exact C|]. exact (eq_trans (eq_sym (lt_l _ _ l SZ)) L).
  - intros (j & y & l & u & Y & C & L). destruct (Alone.Forall2_nth_r _ _ _ _ _ S j y Y) as (z & Z & SZ). apply G2. exists j, z, l, u. split; [exact Z|]. split; [exact C|]. exact (eq_trans (eq_sym (lt_r _ _ u SZ)) L).
Qed.

Lemma sames_trans : forall x y z : frow, Forall2 same x y -> Forall2 same y z -> Forall2 same x z.
Proof. intros x y z H. revert z. induction H as [|a b x y S H IH]; intros z G; inversion G; subst; constructor; [eapply same_trans; eauto|auto]. Qed.
Lemma coast_rest : forall c e pool iters o o' r, Fresh c o -> c_kind c <> Binary -> c_vh c = "unmodified" -> NoDup (dkeys (c_options c)) -> no_pull c e iters -> finite_draws e -> may_stop c ->
  inertia c e iters (fun w => fle (fabs w) (fdec 1 2) = true) -> finite_matrix (s_velocity (o_swarm o)) -> pool <> Some 0 -> optimize c e pool iters o = (o', r) -> no_overflow (o_pos_history o') ->
  (forall t V i j v, (2099 <= Z.of_nat t)%Z -> nth_error (o_velocity_history o') t = Some V -> entry V i j = Some v -> feq v fzero = true) /\
  forall s t X X' i x, (2098 <= Z.of_nat s)%Z -> s <= t -> nth_error (o_pos_history o') s = Some X -> nth_error (o_pos_history o') t = Some X' -> nth_error X i = Some x -> is_inside c x ->
    exists x', nth_error X' i = Some x' /\ Forall2 same x x'.
Proof.
  intros c e pool iters o o' r F KB VH ND NP FD M I FV P E NO. destruct (coasts c e pool iters KB VH ND NP FD o o' r F P E NO) as ((LL & CH) & F0).
  assert (Z : forall t V i j v, (2099 <= Z.of_nat t)%Z -> nth_error (o_velocity_history o') t = Some V -> entry V i j = Some v -> feq v fzero = true).
  { intros t V i j v Ht ET X. refine (proj2 (halves_down c e iters _ M I CH _ t V ET i j v X) Ht). intros V0 E0. rewrite (F0 V0 E0). exact FV. }
  split; [exact Z|]. intros s t X X' i x Hs L ES. revert X'. induction L as [|t L IH]; intros X' ET EX IN.
  - rewrite ES in ET. injection ET as <-. exists x. split; [exact EX|]. apply sr_refl.
  - destruct (nth_error_ex (o_pos_history o') t) as [Y EY]; [apply nth_error_lt in ET; lia|]. destruct (IH Y EY EX IN) as (y & Ey & Sy).
    destruct (nth_error_ex (o_velocity_history o') (S t)) as [V' EV]; [apply nth_error_lt in ET; lia|].
    destruct (Fresh_inv _ _ F) as (dim & pos & vel & _ & _ & _ & _ & P0 & V0).
    destruct (optimize_trace _ _ _ _ _ _ _ P E) as (k & tr & C & (H1 & H2 & H3 & H4 & H5 & H6 & H7) & _). rewrite P0 in H3. rewrite V0 in H4. cbn in H3, H4.
    assert (SH : exists vr, nth_error V' i = Some vr /\ length vr = length y).
    { rewrite H3 in EY, ET. rewrite H4 in EV. rewrite nth_error_map in EY. destruct (nth_error tr t) as [[a b]|] eqn:Ta; [|discriminate]. cbn in EY. injection EY as ->.
      destruct (H7 t _ _ Ta (nth_split _ _ _ _ _ _ ET EV)) as (o1 & o2 & opts & vm & bm & h & Ch & B & R & PH & PC & Q1 & Q2 & _ & U). cbn [fst snd] in Q1, Q2, U. destruct U as (U & _).
      assert (U2 : exists q, compute_velocity (e_vel e t) (c_vh c) (o_vmem o1) (set_options (o_swarm o1) opts) (c_clamp c) q = Ok (V', vm)). { destruct (c_kind c); eexists; apply U. }
      destruct U2 as (q & U2). pose proof (compute_velocity_shape _ _ _ _ _ _ _ _ U2) as SV. cbn [s_position set_options] in SV. unfold shape_eq in SV. change (list (list (T F64num))) with fmatrix in SV.
      destruct (nth_error_ex V' i) as [vr Vr]. { rewrite <- (shape_eq_length _ _ SV). apply nth_error_lt in Ey. rewrite <- Q1 in Ey. exact Ey. }
      exists vr. split; [exact Vr|]. rewrite <- Q1 in Ey. pose proof (Forall2_nth_both _ _ _ _ _ SV _ _ _ Ey Vr) as Q. cbv beta in Q. symmetry. exact Q. }
    destruct SH as (vr & Vr & LV).
    assert (ZV : Forall (fun z => feq z fzero = true) vr).
    { apply Forall_forall. intros z Hz. apply In_nth_error in Hz. destruct Hz as (j & Hz). apply (Z (S t) V' i j z); [rewrite Nat2Z.inj_succ; lia|exact EV|]. exact (entry_of _ _ _ _ _ Vr Hz). }
    pose proof (zero_row_same y vr (eq_sym LV) ZV) as SS.
    exists (map2 fadd y vr). split; [|exact (sames_trans _ _ _ Sy SS)].
    apply (inside_equation c e pool iters o o' r KB P P0 V0 E t Y X' V' i y vr EY ET EV Ey Vr).
    pose proof (inside_same c _ _ Sy IN) as IY. pose proof (inside_same c _ _ SS IY) as IZ. unfold is_inside in IY, IZ. destruct (c_bounds c) as [b|]; [|exact Logic.I]. split; [exact (proj1 IY)|exact (proj2 IZ)].
Qed.
Lemma coast_restless : forall c e pool iters o o' r, Fresh c o -> c_kind c <> Binary -> c_vh c = "unmodified" -> c_clamp c = None -> NoDup (dkeys (c_options c)) -> no_pull c e iters -> finite_draws e ->
  inertia c e iters (fun w => flt (fdec 1 2) (fabs w) = true) -> pool <> Some 0 -> optimize c e pool iters o = (o', r) -> no_overflow (o_pos_history o') ->
  forall t V i j v, nth_error (o_velocity_history o') t = Some V -> entry (s_velocity (o_swarm o)) i j = Some v -> feq v fzero = false ->
    exists v', entry V i j = Some v' /\ feq v' fzero = false.
Proof.
  intros c e pool iters o o' r F KB VH CL ND NP FD I P E NO. destruct (coasts c e pool iters KB VH ND NP FD o o' r F P E NO) as ((LL & CH) & F0).
  induction t as [|t IH]; intros V i j v ET X Z.
  - rewrite (F0 V ET). eauto.
  - destruct (nth_error_ex (o_velocity_history o') t) as [U EU]; [apply nth_error_lt in ET; lia|]. destruct (IH U i j v EU X Z) as (u & EX & Zu).
    destruct (proj2 (CH t U V EU ET) i j u EX) as (v' & X' & w & raw & W & S & L). unfold limited in L. rewrite CL in L. subst v'. exists raw. split; [exact X'|].
    pose proof (not_gone w u (I t w W) Zu) as N. destruct (same_cases _ _ S) as [<-|(s & s' & Q & _)]; [exact N|]. rewrite Q in N. destruct s; discriminate N.
Qed.
