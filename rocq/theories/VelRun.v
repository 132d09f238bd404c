(** Whole calls: clamped velocities, and the swarm frozen by vh_strategy='adjust'. *)
From Coq Require Import String ZArith List Arith Bool Reals Lra Lia.
From Flocq Require Import Core IEEE754.BinarySingleNaN.
From Verif Require Import Prelude F64 F64Facts F64More Num Np Handlers Swarms Operators Generators Topology Optimizers
  Spec SpecHandlers ListFacts NpFacts ShapeFacts HandlerFacts BhFloat VhFacts VelFacts VhClaims RunFacts RunInv BoxRun.
Import ListNotations.
Local Open Scope string_scope.
Local Open Scope list_scope.
Local Open Scope nat_scope.
#[local] Arguments fdec : simpl never.
#[local] Arguments fofZ : simpl never.

Lemma compute_velocity_handler : forall (N : Num) dr vh vmem (s : swarm N) clamp b v vm,
  compute_velocity dr vh vmem s clamp b = Ok (v, vm) ->
  exists temp, shape_eq (s_position s) temp /\ vh_call vh clamp vmem (mkVk (Some (s_position s)) (Some b) None) temp = Ok (v, vm).
Proof.
  unfold compute_velocity. intros N dr vh vmem s clamp b v vmem' H. bind_inv.
  destruct (same_shape (s_position s) (s_pbest_pos s)) eqn:S1; try discriminate.
  destruct (same_shape (s_position s) a2) eqn:S2; try discriminate.
  destruct (same_shape (s_position s) (s_velocity s)) eqn:S3; try discriminate.
  destruct (same_shape (s_position s) (vd_u1 dr)) eqn:S4; try discriminate.
  destruct (same_shape (s_position s) (vd_u2 dr)) eqn:S5; try discriminate.
  simpl in H. apply shape_eq_iff in S1, S2, S3, S4, S5.
  eexists. split; [|exact H]. apply velocity_mat_shape; auto.
Qed.
Lemma vh_mem_some : forall st c mem k (vel v : fmatrix) mem', vh_call st c mem k vel = Ok (v, mem') -> mem <> None -> mem' <> None.
Proof.
  unfold vh_call. intros st c mem k vel v mem' H M. destruct (negb (vh_known st)); try discriminate. bh_cases st.
  - apply bind_Ok in H; destruct H as (q & E & H). injection H as <- <-. auto.
  - unfold vh_adjust in H. destruct (vk_position k); [|discriminate]. destruct mem; [|congruence].
    destruct (negb _); [discriminate|]. apply bind_Ok in H; destruct H as (q & E & H). injection H as <- <-. discriminate.
  - apply bind_Ok in H; destruct H as (q & E & H). injection H as <- <-. auto.
  - apply bind_Ok in H; destruct H as (q & E & H). injection H as <- <-. auto.
Qed.
Lemma updated_velocity : forall c e iters i o1 o2 opts v vm p bm, Updated c e iters i o1 o2 opts v vm p bm ->
  exists temp k, shape_eq (s_position (o_swarm o1)) temp /\ vk_position k = Some (s_position (o_swarm o1)) /\
    vh_call (c_vh c) (c_clamp c) (o_vmem o1) k temp = Ok (v, vm).
Proof.
  intros c e iters i o1 o2 opts v vm p bm (U & _).
  assert (V : exists b, compute_velocity (e_vel e i) (c_vh c) (o_vmem o1) (set_options (o_swarm o1) opts) (c_clamp c) b = Ok (v, vm)).
  { destruct (c_kind c); eexists; apply U. }
  destruct V as (b & V). apply compute_velocity_handler in V. destruct V as (temp & S & V). exists temp. eexists. split; [exact S|].
  split; [|exact V]. reflexivity.
Qed.

(** C21 *)
Lemma clamp_run : forall c e pool iters o o' r cl, c_clamp c = Some cl ->
  (forall j a b, clamp_column cl j a b -> fle a b = true) ->
  c_vh c = "unmodified" \/ c_vh c = "invert" \/ c_vh c = "adjust" ->
  within_clamp cl (s_velocity (o_swarm o)) -> optimize c e pool iters o = (o', r) ->
  exists hv, o_velocity_history o' = o_velocity_history o ++ hv /\ Forall (within_clamp cl) hv /\
    (forall x, r = Ok x -> within_clamp cl (s_velocity (o_swarm o'))).
Proof.
  intros c e pool iters o o' r cl CL LE S W0 E.
  destruct (motion_rule c e pool iters o (fun p v bm vm => within_clamp cl v /\ vm <> None)) with (o' := o') (r := r)
    as (hp & hv & E1 & E2 & F2 & _ & FIN); auto.
  - split; auto. destruct (started_facts c o) as (_ & _ & _ & _ & _ & _ & _ & -> & _). discriminate.
  - intros i o1 o2 opts v vm p bm Hi (_ & I2) U. destruct (updated_velocity _ _ _ _ _ _ _ _ _ _ _ U) as (temp & k & _ & _ & V).
    split; [|eapply vh_mem_some; eauto]. rewrite CL in V.
    destruct (vh_clamped (c_vh c) cl (o_vmem o1) k temp v vm) as (w & A); auto. { tauto. }
    intros a j y lo hi Y C. destruct (entry_clamp cl w v a j A y Y) as (x & lo' & hi' & X & C' & ->).
    assert (Q : lo' = lo /\ hi' = hi). { destruct C as [C1 C2], C' as [D1 D2]. split; congruence. }
    destruct Q as [-> ->]. apply clamp_in. eapply LE; eauto.
  - exists hv. split; auto. split.
    + clear -F2. induction F2 as [|p v hp hv (bm & vm & A1 & A2) F IH]; constructor; auto.
    + intros x ->. destruct (FIN x eq_refl) as (bm & vm & A & _). exact A.
Qed.

(** C23 *)
Lemma Forall2_nth_error : forall (A B : Type) (P : A -> B -> Prop) l l', length l = length l' /\
  (forall i x y, nth_error l i = Some x -> nth_error l' i = Some y -> P x y) -> Forall2 P l l'.
Proof.
  intros A B P. induction l as [|a l IH]; intros [|b l'] [L H]; simpl in L; try discriminate; constructor.
  - exact (H 0 a b eq_refl eq_refl).
  - apply IH. split; [lia|]. intros i x y X Y. exact (H (S i) x y X Y).
Qed.
Definition eqpts (n d : nat) (m x0 : fmatrix) : Prop := is_matrix n d m /\
  forall i j x y, entry m i j = Some x -> entry x0 i j = Some y -> feq x y = true.
Lemma eqpts_same : forall n d m x0, is_matrix n d x0 -> eqpts n d m x0 -> same_points m x0.
Proof.
  intros n d m x0 M0 [M K]. unfold same_points. apply Forall2_nth_error.
  assert (L : length m = length x0) by (destruct M, M0; ftypes; lia). split; auto.
  intros i r r' R R'. apply Forall2_nth_error.
  pose proof (is_matrix_nth _ _ _ _ _ M R). pose proof (is_matrix_nth _ _ _ _ _ M0 R').
  split; [ftypes; lia|]. intros j x y X Y. apply (K i j); eapply entry_of; eauto.
Qed.
Lemma feq_finite : forall a b, feq a b = true -> ffinite b = true -> ffinite a = true /\ FR a = FR b.
Proof.
  intros a b E Fb. assert (Fa : ffinite a = true). { apply (fle_between b a b); auto; forder. }
  split; auto. apply (feq_fin a b); auto.
Qed.
Lemma clamp_zero : forall (v a b : F64num), feq v fzero = true -> fle a fzero = true -> fle fzero b = true ->
  feq (clamp_el v a b) fzero = true.
Proof.
  intros v a b V A B. unfold clamp_el. cbn [nle F64num].
  destruct (fle b v) eqn:E1; [forder|]. destruct (fle v a) eqn:E2; cbv zeta; forder.
Qed.
Lemma frozen_step : forall n d c e iters i o1 o2 opts v vm p bm m (x0 : fmatrix), c_kind c <> Binary -> c_vh c = "adjust" ->
  (forall cl, c_clamp c = Some cl -> forall j a b, clamp_column cl j a b -> fle a fzero = true /\ fle fzero b = true) ->
  (forall b, c_bounds c = Some b -> box_dim d b /\ none_outside b x0) ->
  is_matrix n d x0 -> (forall i j x, entry x0 i j = Some x -> ffinite x = true) ->
  eqpts n d (s_position (o_swarm o1)) x0 -> o_vmem o1 = Some m -> eqpts n d m x0 ->
  Updated c e iters i o1 o2 opts v vm p bm ->
  eqpts n d p x0 /\ vm = Some (s_position (o_swarm o1)).
Proof.
  intros n d c e iters i o1 o2 opts v vm p bm m x0 K VH CZ BD M0 FIN [Mx Ex] VM [Mm Em] U.
  destruct (updated_velocity _ _ _ _ _ _ _ _ _ _ _ U) as (temp & k & SH & KP & V).
  rewrite VH, VM in V.
  assert (V2 : exists w, maybe_clamp (N := F64num) (c_clamp c) (map2 (map2 fsub) (s_position (o_swarm o1)) m) = Ok w /\ w = v /\ vm = Some (s_position (o_swarm o1))).
  { unfold vh_call in V. cbn -[vh_adjust] in V. unfold vh_adjust in V. rewrite KP in V.
    destruct (negb (same_shape (s_position (o_swarm o1)) m)); [discriminate|]. apply bind_Ok in V. destruct V as (w & W & V).
    injection V as <- <-. exists w. auto. }
  destruct V2 as (w & W & -> & ->). split; [|reflexivity].
  assert (MD : is_matrix n d (map2 (map2 fsub) (s_position (o_swarm o1)) m)).
  { destruct Mx as [A1 A2], Mm as [B1 B2]. split. { rewrite map2_length. ftypes. lia. }
    apply Forall_forall. intros r I. apply In_nth_error in I. destruct I as [a I].
    apply nth_map2_inv in I. destruct I as (r1 & r2 & A & B & ->). rewrite map2_length.
    pose proof (is_matrix_nth n d _ a r1 (conj A1 A2) A). pose proof (is_matrix_nth n d _ a r2 (conj B1 B2) B). ftypes. lia. }
  assert (ZD : forall a j z, entry (map2 (map2 fsub) (s_position (o_swarm o1)) m) a j = Some z -> feq z fzero = true).
  { intros a j z Z. destruct (entry_lt n d _ _ _ _ MD Z) as [I J].
    destruct (entry_in n d _ a j Mx I J) as [x X]. destruct (entry_in n d _ a j Mm I J) as [y Y]. destruct (entry_in n d _ a j M0 I J) as [x' X'].
    assert (Q : entry (map2 (map2 fsub) (s_position (o_swarm o1)) m) a j = Some (fsub x y)).
    { destruct (entry_row _ _ _ _ X) as (? & A1 & B1). destruct (entry_row _ _ _ _ Y) as (? & A2 & B2).
      eapply entry_of. exact (nth_map2_some _ _ _ _ _ _ A1 A2). apply nth_map2_some; auto. }
    pose proof (eq_trans (eq_sym Z) Q) as Q'. injection Q' as ->.
    destruct (feq_finite x x' (Ex _ _ _ _ X X') (FIN _ _ _ X')) as [F1 G1].
    destruct (feq_finite y x' (Em _ _ _ _ Y X') (FIN _ _ _ X')) as [F2 G2].
    destruct (zero_diff x y F1 F2) as [F3 G3]; [congruence|]. apply feq_fin; auto. }
  assert (Mv : is_matrix n d v /\ forall a j z, entry v a j = Some z -> feq z fzero = true).
  { destruct (c_clamp c) as [cl|] eqn:CL; cbn [maybe_clamp] in W.
    - split. { eapply shape_eq_matrix; [|exact MD]. eapply (maybe_clamp_shape (N := F64num) (Some cl)). exact W. }
      intros a j z Z. destruct (entry_clamp cl _ v a j W z Z) as (x & lo & hi & X & C & ->).
      destruct (CZ cl eq_refl j lo hi C). apply clamp_zero; auto. apply (ZD a j x X).
    - injection W as <-. auto. }
  destruct Mv as [Mv Zv].
  (* the moved swarm *)
  destruct U as (U & _).
  assert (U' : compute_position (e_bh e i) (c_bh c) (o_bmem o1) (set_velocity (set_options (o_swarm o1) opts) v) (c_bounds c) = Ok (p, bm)).
  { destruct (c_kind c); try congruence; apply U. }
  destruct (position_claim n d (e_bh e i) (c_bh c) (o_bmem o1) (set_velocity (set_options (o_swarm o1) opts) v) Mx Mv) as (t & ET & MT & KT).
  assert (Et : eqpts n d t x0).
  { split; auto. intros a j x y X Y. destruct (entry_lt n d _ _ _ _ MT X) as [I J].
    destruct (entry_in n d _ a j Mx I J) as [x1 X1]. destruct (entry_in n d _ a j Mv I J) as [v1 V1].
    pose proof (eq_trans (eq_sym X) (KT a j x1 v1 X1 V1)) as Q. injection Q as ->. cbn [nadd F64num].
    destruct (feq_finite x1 y (Ex _ _ _ _ X1 Y) (FIN _ _ _ Y)) as [F1 G1].
    destruct (feq_finite v1 fzero (Zv _ _ _ V1) eq_refl) as [F2 G2]. rewrite fzero_R in G2.
    destruct (zero_plus x1 v1 F1 F2 G2) as [F3 G3]. apply feq_fin; auto. eapply FIN; eauto. congruence. }
  unfold compute_position in U', ET. cbn [s_position s_velocity set_velocity set_options] in U', ET.
  destruct (same_shape (s_position (o_swarm o1)) v); cbn [negb] in U', ET; [|discriminate].
  injection ET as ET. destruct (c_bounds c) as [b|] eqn:CB.
  2:{ injection U' as <- <-. rewrite ET. exact Et. }
  destruct (BD b eq_refl) as [Bd NO]. 
  assert (P : p = t).
  { assert (U2 : bh_call (N := F64num) (c_bh c) (e_bh e i) (o_bmem o1) b t = Ok (p, bm)) by (rewrite <- ET; exact U'); clear U'; rename U2 into U'. pose proof (bh_call_shape _ _ _ _ _ _ _ U') as SP. apply shape_eq_length in SP.
    apply nth_error_ext2; [ftypes; congruence|]. intros a r r' R R'.
    assert (G : good b r').
    { split; intros (j & x & l & u & X & C & LT).
      - destruct (entry_in n d x0 a j M0) as [y Y].
        { apply nth_error_lt in R'. destruct MT. ftypes. lia. } { apply nth_error_lt in X. pose proof (is_matrix_nth _ _ _ _ _ MT R'). ftypes. lia. }
        pose proof (proj2 Et a j x y (entry_of _ _ _ _ _ R' X) Y) as Q. destruct (NO a j y l u Y C) as [N1 N2]. cbn [nlt F64num] in LT.
        exfalso. ftypes. pose proof (finite_notnan _ (FIN _ _ _ Y)). forder.
      - destruct (entry_in n d x0 a j M0) as [y Y].
        { apply nth_error_lt in R'. destruct MT. ftypes. lia. } { apply nth_error_lt in X. pose proof (is_matrix_nth _ _ _ _ _ MT R'). ftypes. lia. }
        pose proof (proj2 Et a j x y (entry_of _ _ _ _ _ R' X) Y) as Q. destruct (NO a j y l u Y C) as [N1 N2]. cbn [nlt F64num] in LT.
        exfalso. ftypes. pose proof (finite_notnan _ (FIN _ _ _ Y)). forder. }
    pose proof (row_inside d (c_bh c) (e_bh e i) (o_bmem o1) b t p bm a r' Bd (is_matrix_nth _ _ _ _ _ MT R') U' R' G) as Q.
    congruence. }
  rewrite P. exact Et.
Qed.
Lemma frozen_run : forall c e pool iters o o' r n d, c_kind c <> Binary -> c_vh c = "adjust" ->
  (forall cl, c_clamp c = Some cl -> forall j a b, clamp_column cl j a b -> fle a fzero = true /\ fle fzero b = true) ->
  (forall b, c_bounds c = Some b -> box_dim d b /\ none_outside b (s_position (o_swarm o))) ->
  is_matrix n d (s_position (o_swarm o)) ->
  (forall i j x, entry (s_position (o_swarm o)) i j = Some x -> ffinite x = true) ->
  optimize c e pool iters o = (o', r) ->
  exists hp, o_pos_history o' = o_pos_history o ++ hp /\
    Forall (fun p => same_points p (s_position (o_swarm o))) hp /\ same_points (s_position (o_swarm o')) (s_position (o_swarm o)).
Proof.
  intros c e pool iters o o' r n d K VH CZ BD M0 FIN E. set (x0 := s_position (o_swarm o)) in *.
  assert (R0 : eqpts n d x0 x0).
  { split; auto. intros i j x y X Y. pose proof (eq_trans (eq_sym X) Y) as Q. injection Q as ->.
    pose proof (FIN _ _ _ Y). apply feq_fin; auto. }
  destruct (motion_rule c e pool iters o (fun p v bm vm => eqpts n d p x0 /\ exists m, vm = Some m /\ eqpts n d m x0)) with (o' := o') (r := r)
    as (hp & hv & E1 & E2 & F2 & (v & bm & vm & A & _) & _); auto.
  - split; auto. destruct (started_facts c o) as (_ & _ & _ & _ & _ & _ & _ & -> & _). exists x0. auto.
  - intros i o1 o2 opts v vm p bm Hi (I1 & m & I2 & I3) U.
    destruct (frozen_step n d c e iters i o1 o2 opts v vm p bm m x0 K VH CZ BD M0 FIN I1 I2 I3 U) as [P ->].
    split; auto. eexists. split; [reflexivity|exact I1].
  - exists hp. split; auto. split; [|eapply eqpts_same; eauto].
    clear -F2 M0. induction F2 as [|p v hp hv (bm & vm & A1 & _) F IH]; constructor; auto. eapply eqpts_same; eauto.
Qed.
