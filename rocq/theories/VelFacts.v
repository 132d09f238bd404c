(** Facts about [compute_velocity] and [compute_position]. *)
From Coq Require Import String ZArith List Arith Bool Reals Lra Lia.
From Flocq Require Import Core IEEE754.BinarySingleNaN.
From Verif Require Import Prelude F64 F64Facts F64More Num Np Handlers Swarms Operators SpecHandlers ListFacts NpFacts ShapeFacts
  HandlerFacts BhFloat VhFacts.
Import ListNotations.
Local Open Scope string_scope.
Local Open Scope list_scope.
Local Open Scope nat_scope.

Section Gen.
Context {N : Num}.
Lemma velocity_row_nth : forall (c1 c2 w : N) j u1 u2 x v p b r1 r2 xj vj pj bj,
  nth_error u1 j = Some r1 -> nth_error u2 j = Some r2 -> nth_error x j = Some xj -> nth_error v j = Some vj ->
  nth_error p j = Some pj -> nth_error b j = Some bj ->
  nth_error (velocity_row c1 c2 w u1 u2 x v p b) j = Some (velocity_el c1 c2 w r1 r2 xj vj pj bj).
Proof.
  intros c1 c2 w. induction j; intros [|? u1] [|? u2] [|? x] [|? v] [|? p] [|? b]; simpl; intros; try discriminate.
  - repeat match goal with H : Some _ = Some _ |- _ => injection H as -> end. reflexivity.
  - apply IHj; auto.
Qed.
Lemma velocity_mat_nth : forall (c1 c2 w : N) i u1 u2 x v p b a1 a2 a3 a4 a5 a6,
  nth_error u1 i = Some a1 -> nth_error u2 i = Some a2 -> nth_error x i = Some a3 -> nth_error v i = Some a4 ->
  nth_error p i = Some a5 -> nth_error b i = Some a6 ->
  nth_error (velocity_mat c1 c2 w u1 u2 x v p b) i = Some (velocity_row c1 c2 w a1 a2 a3 a4 a5 a6).
Proof.
  intros c1 c2 w. induction i; intros [|? u1] [|? u2] [|? x] [|? v] [|? p] [|? b]; simpl; intros; try discriminate.
  - repeat match goal with H : Some _ = Some _ |- _ => injection H as -> end. reflexivity.
  - apply IHi; auto.
Qed.
Lemma velocity_entry : forall (c1 c2 w : N) i j u1 u2 x v p b r1 r2 xj vj pj bj,
  entry u1 i j = Some r1 -> entry u2 i j = Some r2 -> entry x i j = Some xj -> entry v i j = Some vj ->
  entry p i j = Some pj -> entry b i j = Some bj ->
  entry (velocity_mat c1 c2 w u1 u2 x v p b) i j = Some (velocity_el c1 c2 w r1 r2 xj vj pj bj).
Proof.
  intros c1 c2 w i j u1 u2 x v p b r1 r2 xj vj pj bj H1 H2 H3 H4 H5 H6.
  destruct (entry_row _ _ _ _ H1) as (? & A1 & B1). destruct (entry_row _ _ _ _ H2) as (? & A2 & B2).
  destruct (entry_row _ _ _ _ H3) as (? & A3 & B3). destruct (entry_row _ _ _ _ H4) as (? & A4 & B4).
  destruct (entry_row _ _ _ _ H5) as (? & A5 & B5). destruct (entry_row _ _ _ _ H6) as (? & A6 & B6).
  eapply entry_of. apply velocity_mat_nth; eauto. apply velocity_row_nth; auto.
Qed.
Lemma best_rows_ok : forall n d e (p : bestpos N), best_dim n d p -> exists m, best_rows n e p = Ok m /\ is_matrix n d m /\
  forall i j, i < n -> entry m i j = best_entry p i j.
Proof.
  intros n d e [|v|m] H; simpl in H; [tauto| |].
  - exists (repeat v n). split; auto. split.
    { split; [apply repeat_length|]. apply Forall_forall. intros r I. apply repeat_spec in I. subst; auto. }
    intros i j I. unfold entry. rewrite nth_error_repeat by auto. reflexivity.
  - exists m. split; auto.
Qed.
Lemma velocity_claim : forall n d (dr : vel_draws N) vmem (s : swarm N) (b : option (bounds N)) c1 c2 w,
  dget (s_options s) "c1" = Some c1 -> dget (s_options s) "c2" = Some c2 -> dget (s_options s) "w" = Some w ->
  is_matrix n d (s_position s) -> is_matrix n d (s_velocity s) -> is_matrix n d (s_pbest_pos s) ->
  is_matrix n d (vd_u1 dr) -> is_matrix n d (vd_u2 dr) -> best_dim n d (s_best_pos s) ->
  exists v', compute_velocity dr "unmodified" vmem s None b = Ok (v', vmem) /\ is_matrix n d v' /\
    forall i j r1 r2 x v p g, entry (vd_u1 dr) i j = Some r1 -> entry (vd_u2 dr) i j = Some r2 ->
      entry (s_position s) i j = Some x -> entry (s_velocity s) i j = Some v -> entry (s_pbest_pos s) i j = Some p ->
      best_entry (s_best_pos s) i j = Some g ->
      entry v' i j = Some (nadd (nadd (nmul (pnum w) v) (nmul (nmul (pnum c1) r1) (nsub p x))) (nmul (nmul (pnum c2) r2) (nsub g x))).
Proof.
  intros n d dr vmem s b c1 c2 w H1 H2 H3 Mx Mv Mp M1 M2 B.
  unfold compute_velocity, num_of. rewrite H1, H2, H3. cbn [option_map of_option bind].
  pose proof Mx as [L _]. unfold row, matrix in *. rewrite L.
  destruct (best_rows_ok n d (s_d s) _ B) as (m & E & Mm & K). rewrite E. cbn [bind].
  rewrite (is_matrix_same_shape n d _ _ Mx Mp), (is_matrix_same_shape n d _ _ Mx Mm), (is_matrix_same_shape n d _ _ Mx Mv),
    (is_matrix_same_shape n d _ _ Mx M1), (is_matrix_same_shape n d _ _ Mx M2). cbn [andb negb].
  eexists. split; [rewrite unmodified_eq; reflexivity|].
  split.
  - eapply shape_eq_matrix; [|exact Mx]. apply velocity_mat_shape; apply shape_eq_iff; eapply is_matrix_same_shape; eauto.
  - intros i j r1 r2 x v p g R1 R2 X V P G. pose proof (entry_lt n d _ _ _ _ Mx X) as [I J].
    rewrite <- (K i j I) in G. exact (velocity_entry _ _ _ i j _ _ _ _ _ _ _ _ _ _ _ _ R1 R2 X V P G).
Qed.
Lemma velocity_keys : forall (dr : vel_draws N) vh vmem (s : swarm N) c b k, k = "c1" \/ k = "c2" \/ k = "w" ->
  dget (s_options s) k = None -> compute_velocity dr vh vmem s c b = Err KeyError.
Proof.
  intros dr vh vmem s c b k K H. unfold compute_velocity, num_of.
  destruct K as [K|[K|K]]; subst k; rewrite H; cbn [option_map of_option bind]; auto.
  - destruct (dget (s_options s) "c1"); auto.
  - destruct (dget (s_options s) "c1"); auto. destruct (dget (s_options s) "c2"); auto.
Qed.
Lemma position_claim : forall n d dr bh bmem (s : swarm N), is_matrix n d (s_position s) -> is_matrix n d (s_velocity s) ->
  exists p, compute_position dr bh bmem s None = Ok (p, bmem) /\ is_matrix n d p /\
    forall i j x v, entry (s_position s) i j = Some x -> entry (s_velocity s) i j = Some v -> entry p i j = Some (nadd x v).
Proof.
  intros n d dr bh bmem s Mx Mv. unfold compute_position. rewrite (is_matrix_same_shape n d _ _ Mx Mv). cbn [negb].
  eexists. split; [reflexivity|]. split.
  - eapply shape_eq_matrix; [|exact Mx]. apply shape_eq_iff. apply same_shape_spec. split.
    { rewrite map2_length. destruct Mx, Mv. unfold row, matrix in *. lia. }
    intros i r r' R R'. apply nth_map2_inv in R'. destruct R' as (a & b & A & B & ->).
    pose proof (eq_trans (eq_sym R) A) as Q. injection Q as ->. rewrite map2_length.
    pose proof (is_matrix_nth _ _ _ _ _ Mx A). pose proof (is_matrix_nth _ _ _ _ _ Mv B). unfold row, matrix in *. lia.
  - intros i j x v X V. destruct (entry_row _ _ _ _ X) as (? & A1 & B1). destruct (entry_row _ _ _ _ V) as (? & A2 & B2).
    eapply entry_of. exact (nth_map2_some _ _ _ _ _ _ A1 A2). apply nth_map2_some; auto.
Qed.
End Gen.

(** A particle at rest at both bests. *)
Lemma zero_times : forall a z, ffinite a = true -> ffinite z = true -> FR z = 0%R -> ffinite (fmul a z) = true /\ FR (fmul a z) = 0%R.
Proof.
  intros a z Fa Fz Z. pose proof (fmul_round a z Fa Fz) as R. rewrite Z, Rmult_0_r in R.
  assert (F : ffinite (fmul a z) = true) by (apply (is_round_between _ _ fzero fzero R); auto; rewrite fzero_R; lra).
  split; auto. rewrite (is_round_finite_eq _ _ R F). apply rnd_0.
Qed.
Lemma zero_plus : forall a z, ffinite a = true -> ffinite z = true -> FR z = 0%R -> ffinite (fadd a z) = true /\ FR (fadd a z) = FR a.
Proof.
  intros a z Fa Fz Z. pose proof (fadd_round a z Fa Fz) as R. rewrite Z, Rplus_0_r in R.
  assert (F : ffinite (fadd a z) = true) by (apply (is_round_between _ _ a a R); auto; lra).
  split; auto. rewrite (is_round_finite_eq _ _ R F). apply rnd_id.
Qed.
Lemma zero_diff : forall a b, ffinite a = true -> ffinite b = true -> FR a = FR b -> ffinite (fsub a b) = true /\ FR (fsub a b) = 0%R.
Proof.
  intros a b Fa Fb E. pose proof (fsub_round a b Fa Fb) as R. rewrite Rminus_diag_eq in R by auto.
  assert (F : ffinite (fsub a b) = true) by (apply (is_round_between _ _ fzero fzero R); auto; rewrite fzero_R; lra).
  split; auto. rewrite (is_round_finite_eq _ _ R F). apply rnd_0.
Qed.
Lemma scaled_finite : forall c r, ffinite c = true -> ffinite r = true -> (0 <= FR r < 1)%R -> ffinite (fmul c r) = true.
Proof.
  intros c r Fc Fr R. pose proof (fmul_round c r Fc Fr) as Q. destruct (Rle_or_lt 0 (FR c)).
  - apply (is_round_between _ _ fzero c Q); auto. rewrite fzero_R. split; nra.
  - apply (is_round_between _ _ c fzero Q); auto. rewrite fzero_R. split; nra.
Qed.
Lemma at_rest : forall c1 c2 w r1 r2 x v p g, ffinite c1 = true -> ffinite c2 = true -> ffinite w = true ->
  fle fzero r1 = true -> flt r1 fone = true -> fle fzero r2 = true -> flt r2 fone = true ->
  ffinite x = true -> feq p x = true -> feq g x = true -> feq v fzero = true ->
  let v' := fadd (fadd (fmul w v) (fmul (fmul c1 r1) (fsub p x))) (fmul (fmul c2 r2) (fsub g x)) in
  feq v' fzero = true /\ feq (fadd x v') x = true.
Proof.
  intros c1 c2 w r1 r2 x v p g F1 F2 Fw A1 A2 B1 B2 Fx P G V v'.
  destruct (unit_draw r1 A1 A2) as [Fr1 U1]. destruct (unit_draw r2 B1 B2) as [Fr2 U2].
  assert (FIN : forall a b, feq a b = true -> ffinite b = true -> ffinite a = true /\ FR a = FR b).
  { intros a b E Fb. assert (Fa : ffinite a = true).
    { apply (fle_between b a b); auto; forder. }
    split; auto. apply (feq_fin a b); auto. }
  destruct (FIN p x P Fx) as [Fp Ep]. destruct (FIN g x G Fx) as [Fg Eg]. destruct (FIN v fzero V eq_refl) as [Fv Ev].
  rewrite fzero_R in Ev.
  destruct (zero_times w v Fw Fv Ev) as [T1 T2].
  destruct (zero_diff p x Fp Fx Ep) as [D1 D2]. destruct (zero_diff g x Fg Fx Eg) as [D3 D4].
  destruct (zero_times (fmul c1 r1) (fsub p x)) as [T3 T4]; auto using scaled_finite.
  destruct (zero_times (fmul c2 r2) (fsub g x)) as [T5 T6]; auto using scaled_finite.
  destruct (zero_plus _ _ T1 T3 T4) as [T7 T8]. destruct (zero_plus _ _ T7 T5 T6) as [T9 T10]. fold v' in T9, T10.
  destruct (zero_plus x v' Fx T9) as [T11 T12]; [congruence|].
  split; [apply feq_fin | apply feq_fin]; auto. rewrite fzero_R. congruence.
Qed.
