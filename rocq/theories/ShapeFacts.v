(** Shapes are preserved by the handlers and operators (for any number type). *)
From Coq Require Import String ZArith List Arith Bool Lia.
From Verif Require Import Prelude ListFacts Num Np Handlers Swarms Operators.
Import ListNotations.

Section Shapes.
Context {N : Num}.
Implicit Types (m p v : matrix N) (b : bounds N).

Definition shape_eq {A B} (m : list (list A)) (m' : list (list B)) : Prop :=
  Forall2 (fun r r' => length r = length r') m m'.

Lemma shape_eq_iff : forall {A B} (m : list (list A)) (m' : list (list B)), same_shape m m' = true <-> shape_eq m m'.
Proof.
  intros A B m m'. rewrite same_shape_spec. unfold shape_eq. split.
  - revert m'. induction m; destruct m'; simpl; intros [L H]; try discriminate; constructor.
    + apply (H 0); reflexivity.
    + apply IHm. split; [congruence|]. intros i. apply (H (S i)).
  - induction 1 as [|r r' m m' E F [L H]]; simpl; split; auto.
    + intros [|i]; discriminate.
    + intros [|i] x y; simpl; intros; eauto. congruence.
Qed.
Lemma shape_eq_refl : forall {A} (m : list (list A)), shape_eq m m.
Proof. induction m; constructor; auto. Qed.
Lemma shape_eq_trans : forall {A B C} (m : list (list A)) (m' : list (list B)) (m'' : list (list C)),
  shape_eq m m' -> shape_eq m' m'' -> shape_eq m m''.
Proof.
  intros A B C m m' m'' H. revert m''. induction H; intros m'' H'; inversion H'; subst; constructor.
  congruence. apply IHForall2; auto.
Qed.
Lemma shape_eq_sym : forall {A B} (m : list (list A)) (m' : list (list B)), shape_eq m m' -> shape_eq m' m.
Proof. induction 1; constructor; auto. Qed.
Lemma shape_eq_length : forall {A B} (m : list (list A)) (m' : list (list B)), shape_eq m m' -> length m = length m'.
Proof. intros. eapply Forall2_len; eauto. Qed.
Lemma shape_eq_matrix : forall {A B} (m : list (list A)) (m' : list (list B)) n d,
  shape_eq m m' -> is_matrix n d m -> is_matrix n d m'.
Proof. intros A B m m' n d H. apply same_shape_is_matrix. apply shape_eq_iff; auto. Qed.

Lemma bounds_fit_spec : forall m b, bounds_fit m b = true ->
  length (b_lb b) = length (b_ub b) /\ Forall (fun r => length r = length (b_lb b)) m.
Proof.
  unfold bounds_fit. intros m b H. apply andb_true_iff in H. destruct H as [H1 H2].
  apply Nat.eqb_eq in H1. split; auto. apply Forall_forall. rewrite forallb_forall in H2.
  intros r I. apply Nat.eqb_eq. auto.
Qed.

Lemma map_shape : forall {A B} (f : list A -> list B) (m : list (list A)),
  (forall r, In r m -> length (f r) = length r) -> shape_eq m (map f m).
Proof. induction m; intros H; constructor. symmetry. apply H. left; auto. apply IHm. intros. apply H. right; auto. Qed.

Lemma bounds_map3_shape : forall b m (f : N -> N -> N -> N), bounds_fit m b = true ->
  shape_eq m (map (fun r => map3 f r (b_lb b) (b_ub b)) m).
Proof.
  intros b m f H. apply bounds_fit_spec in H. destruct H as [E H]. apply map_shape. intros r I.
  rewrite Forall_forall in H. specialize (H r I). rewrite map3_length. lia.
Qed.

Lemma reflective_loop_shape : forall fuel b m p, bounds_fit m b = true ->
  reflective_loop fuel b m = Ok p -> shape_eq m p.
Proof.
  induction fuel; simpl; intros b m p F H.
  - destruct (any_out m b); try discriminate. injection H as <-. apply shape_eq_refl.
  - destruct (any_out m b). 2:{ injection H as <-. apply shape_eq_refl. }
    assert (S : shape_eq m (reflect_pass b m)) by (apply bounds_map3_shape; auto).
    eapply shape_eq_trans; [exact S|]. apply IHfuel with b; auto.
    apply bounds_fit_spec in F. destruct F as [E F]. unfold bounds_fit. rewrite E, Nat.eqb_refl. simpl.
    apply forallb_forall. intros r I. apply Nat.eqb_eq.
    clear -S F I E. induction S; simpl in *; [tauto|]. inversion F; subst.
    destruct I as [<-|I]; auto; congruence.
Qed.

Lemma shrink_row_shape : forall b (x m r : row N), length x = length m -> shrink_row b x m = Ok r -> length r = length x.
Proof.
  unfold shrink_row. intros b x m r L H. apply bind_Ok in H. destruct H as (s & E & H).
  destruct (_ || _); injection H as <-; auto. rewrite map2_length. lia.
Qed.

Lemma shrink_shape : forall mem b m p, shrink mem b m = Ok p -> shape_eq m p.
Proof.
  intros [mm|] b m p H; simpl in H; [|injection H as <-; apply shape_eq_refl].
  destruct (negb (b_arr b)); try discriminate.
  destruct (same_shape m mm) eqn:S; simpl in H; try discriminate.
  apply shape_eq_iff in S. apply mapM_Ok in H. revert p H. induction S; simpl; intros p H'; inversion H'; subst.
  - constructor.
  - constructor; eauto. simpl in *. symmetry. eapply shrink_row_shape; eauto. apply IHS; auto.
Qed.

Lemma resample_length : forall b u, length (b_lb b) = length (b_ub b) -> length u = length (b_lb b) ->
  length (resample b u) = length u.
Proof. intros. unfold resample. rewrite map3_length. lia. Qed.

Lemma random_shape : forall ug ul b m p, bounds_fit m b = true -> random_bh ug ul b m = Ok p -> shape_eq m p.
Proof.
  unfold random_bh. intros ug ul b m p F H. apply bounds_fit_spec in F. destruct F as [E F].
  destruct (forallb _ m) eqn:G; simpl in H; try discriminate. injection H as <-.
  apply map_shape. intros r I. rewrite Forall_forall in F. rewrite forallb_forall in G.
  specialize (F r I). specialize (G r I). apply andb_true_iff in G. destruct G as [G1 G2].
  apply Nat.eqb_eq in G1, G2.
  destruct (row_lower r b); [rewrite resample_length; lia|].
  destruct (row_greater r b); [rewrite resample_length; lia|auto].
Qed.

Lemma intermediate_shape : forall mem b m p, bounds_fit m b = true -> intermediate mem b m = Ok p -> shape_eq m p.
Proof.
  intros [mm|] b m p F H; simpl in H; [|injection H as <-; apply shape_eq_refl].
  destruct (negb (b_arr b)); try discriminate.
  destruct (same_shape m mm) eqn:S; simpl in H; try discriminate. injection H as <-.
  apply shape_eq_iff in S. apply bounds_fit_spec in F. destruct F as [E F].
  induction S; simpl; constructor; inversion F; subst.
  - rewrite map4_length. lia.
  - apply IHS; auto.
Qed.

Ltac bh_cases strategy :=
  repeat match goal with
  | H : context[String.eqb strategy ?s] |- _ => destruct (String.eqb_spec strategy s)
  end.

Lemma bh_call_shape : forall st dr mem b m p mem', bh_call st dr mem b m = Ok (p, mem') -> shape_eq m p.
Proof.
  unfold bh_call. intros st dr mem b m p mem' H.
  destruct (negb (bh_known st)); try discriminate.
  destruct (bounds_fit m b) eqn:F; simpl in H; try discriminate.
  bh_cases st; try (apply bind_Ok in H; destruct H as (q & E & H)); injection H as <- <-.
  - apply bounds_map3_shape; auto.
  - unfold reflective in E. destruct (_ && _); try discriminate. eapply reflective_loop_shape; eauto.
  - eapply shrink_shape; eauto.
  - eapply random_shape; eauto.
  - eapply intermediate_shape; eauto.
  - apply bounds_map3_shape; auto.
Qed.

Lemma apply_clamp_shape : forall c v w, apply_clamp c v = Ok w -> shape_eq v w.
Proof.
  unfold apply_clamp, clamp_fit. intros c v w H. destruct (forallb _ v) eqn:F; try discriminate. injection H as <-.
  apply map_shape. intros r I. rewrite forallb_forall in F. specialize (F r I).
  apply andb_true_iff in F. destruct F as [F1 F2]. apply Nat.eqb_eq in F1, F2. rewrite map3_length. lia.
Qed.
Lemma maybe_clamp_shape : forall c v w, maybe_clamp c v = Ok w -> shape_eq v w.
Proof. intros [c|] v w H; simpl in H. eapply apply_clamp_shape; eauto. injection H as <-. apply shape_eq_refl. Qed.

Lemma map2_shape : forall {A B C} (f : list A -> list B -> list C) (m : list (list A)) (m' : list (list B)),
  shape_eq m m' -> (forall r r', length r = length r' -> length (f r r') = length r') ->
  shape_eq m' (map2 f m m').
Proof. intros A B C f m m' H Hf. induction H; simpl; constructor; auto. symmetry; auto. Qed.

Lemma vh_call_shape : forall st c mem k v w mem', vh_call st c mem k v = Ok (w, mem') ->
  (forall p, vk_position k = Some p -> shape_eq p v) -> shape_eq v w.
Proof.
  unfold vh_call. intros st c mem k v w mem' H P.
  destruct (negb (vh_known st)); try discriminate.
  bh_cases st.
  - apply bind_Ok in H; destruct H as (q & E & H). injection H as <- <-. eapply maybe_clamp_shape; eauto.
  - unfold vh_adjust in H. destruct (vk_position k) as [p|] eqn:K; try discriminate. specialize (P p eq_refl).
    destruct mem as [m|].
    2:{ injection H as <- <-. apply shape_eq_refl. }
    destruct (same_shape p m) eqn:S; simpl in H; try discriminate. apply shape_eq_iff in S.
    apply bind_Ok in H; destruct H as (q & E & H). injection H as <- <-.
    apply shape_eq_trans with m. eapply shape_eq_trans; eauto. apply shape_eq_sym; auto.
    eapply shape_eq_trans; [|eapply maybe_clamp_shape; eauto].
    apply map2_shape; auto. intros. rewrite map2_length. lia.
  - apply bind_Ok in H; destruct H as (q & E & H). injection H as <- <-. unfold vh_invert in E.
    apply bind_Ok in E; destruct E as ((p & b) & E1 & E).
    destruct (same_shape v p) eqn:S; simpl in E; try discriminate. apply shape_eq_iff in S.
    eapply shape_eq_trans; [|eapply maybe_clamp_shape; eauto].
    apply map2_shape. apply shape_eq_sym; auto. intros. unfold invert_row.
    destruct (row_lower r b), (row_greater r b); rewrite ?map_length; auto.
  - apply bind_Ok in H; destruct H as (q & E & H). injection H as <- <-. unfold vh_zero in E.
    apply bind_Ok in E; destruct E as ((p & b) & E1 & E).
    destruct (same_shape v p) eqn:S; simpl in E; try discriminate. apply shape_eq_iff in S.
    injection E as <-. apply map2_shape. apply shape_eq_sym; auto. intros. unfold zero_row.
    destruct (_ || _); rewrite ?map_length; auto.
Qed.

Lemma velocity_row_length : forall c1 c2 w (u1 u2 x v p b : row N),
  length u1 = length x -> length u2 = length x -> length v = length x -> length p = length x ->
  length b = length x -> length (velocity_row c1 c2 w u1 u2 x v p b) = length x.
Proof.
  intros c1 c2 w u1 u2 x. revert u1 u2.
  induction x; intros [|] [|] [|] [|] [|]; simpl; intros; try discriminate; auto.
Qed.
Lemma velocity_mat_shape : forall c1 c2 w (u1 u2 x v p b : matrix N),
  shape_eq x u1 -> shape_eq x u2 -> shape_eq x v -> shape_eq x p -> shape_eq x b ->
  shape_eq x (velocity_mat c1 c2 w u1 u2 x v p b).
Proof.
  intros c1 c2 w u1 u2 x v p b H1 H2 H3 H4 H5. revert u2 v p b H2 H3 H4 H5.
  induction H1; intros u2 v p b H2 H3 H4 H5; inversion H2; inversion H3; inversion H4; inversion H5; subst; simpl.
  - constructor.
  - constructor; [|apply IHForall2; auto]. rewrite velocity_row_length; congruence.
Qed.

Lemma compute_velocity_shape : forall dr vh vmem (s : swarm N) clamp (b : option (bounds N)) v vmem',
  compute_velocity dr vh vmem s clamp b = Ok (v, vmem') -> shape_eq (s_position s) v.
Proof.
  unfold compute_velocity. intros dr vh vmem s clamp b v vmem' H. bind_inv.
  destruct (same_shape (s_position s) (s_pbest_pos s)) eqn:S1; try discriminate.
  destruct (same_shape (s_position s) a2) eqn:S2; try discriminate.
  destruct (same_shape (s_position s) (s_velocity s)) eqn:S3; try discriminate.
  destruct (same_shape (s_position s) (vd_u1 dr)) eqn:S4; try discriminate.
  destruct (same_shape (s_position s) (vd_u2 dr)) eqn:S5; try discriminate.
  simpl in H. apply shape_eq_iff in S1, S2, S3, S4, S5.
  assert (V : shape_eq (s_position s) (velocity_mat a a0 a1 (vd_u1 dr) (vd_u2 dr) (s_position s) (s_velocity s) (s_pbest_pos s) a2))
    by (apply velocity_mat_shape; auto).
  eapply shape_eq_trans; [exact V|]. eapply vh_call_shape; eauto. simpl. intros p Q. injection Q as <-. auto.
Qed.

Lemma compute_position_shape : forall dr bh bmem (s : swarm N) (b : option (bounds N)) p bmem',
  compute_position dr bh bmem s b = Ok (p, bmem') -> shape_eq (s_position s) p.
Proof.
  unfold compute_position. intros dr bh bmem s b p bmem' H.
  destruct (same_shape (s_position s) (s_velocity s)) eqn:S; simpl in H; try discriminate.
  apply shape_eq_iff in S.
  assert (V : shape_eq (s_position s) (map2 (map2 nadd) (s_position s) (s_velocity s))).
  { eapply shape_eq_trans; [exact S|]. apply map2_shape; auto. intros. rewrite map2_length. lia. }
  destruct b as [b|].
  - eapply shape_eq_trans; [exact V|]. eapply bh_call_shape; eauto.
  - injection H as <- <-. auto.
Qed.
End Shapes.
