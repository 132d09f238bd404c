(** Facts about the velocity handler and the velocity update. *)
From Coq Require Import String ZArith List Arith Bool Reals Lra Lia.
From Flocq Require Import Core IEEE754.BinarySingleNaN.
From Verif Require Import Prelude F64 F64Facts F64More Num Np Handlers Swarms Operators SpecHandlers ListFacts NpFacts ShapeFacts
  HandlerFacts BhFloat.
Import ListNotations.
Local Open Scope string_scope.
Local Open Scope list_scope.
Local Open Scope nat_scope.

Section Gen.
Context {N : Num}.
Lemma clamp_fit_ok : forall n d (c : clamp_t N) m, is_matrix n d m -> length (fst c) = d -> length (snd c) = d -> clamp_fit m c = true.
Proof.
  intros n d c m [L F] A B. unfold clamp_fit. apply forallb_forall. intros r I. rewrite Forall_forall in F.
  rewrite (F r I), A, B, Nat.eqb_refl. reflexivity.
Qed.
Lemma entry_clamp : forall (c : clamp_t N) m w i j, apply_clamp c m = Ok w ->
  forall y, entry w i j = Some y -> exists x a b, entry m i j = Some x /\ clamp_column c j a b /\ y = clamp_el x a b.
Proof.
  unfold apply_clamp. intros c m w i j H y Y. destruct (clamp_fit m c); [|discriminate]. injection H as <-.
  destruct (entry_row _ _ _ _ Y) as (r & R & E). rewrite nth_error_map in R.
  destruct (nth_error m i) as [r0|] eqn:R0; [|discriminate]. injection R as <-.
  rewrite nth_error_map3 in E. destruct (nth_error r0 j) as [x|] eqn:X; [|discriminate].
  destruct (nth_error (fst c) j) as [a|] eqn:A; [|discriminate]. destruct (nth_error (snd c) j) as [b|] eqn:B; [|discriminate].
  injection E as <-. exists x, a, b. split; [eapply entry_of; eauto|]. split; [split; auto | auto].
Qed.
Lemma unmodified_eq : forall c mem k (vel : matrix N),
  vh_call "unmodified" c mem k vel = match maybe_clamp c vel with Ok v => Ok (v, mem) | Err e => Err e end.
Proof. reflexivity. Qed.
Lemma unmodified_ok : forall n d c mem k (vel : matrix N), is_matrix n d vel -> length (fst c) = d -> length (snd c) = d ->
  exists v, vh_call "unmodified" (Some c) mem k vel = Ok (v, mem) /\ apply_clamp c vel = Ok v /\ is_matrix n d v.
Proof.
  intros n d c mem k vel M A B. rewrite unmodified_eq. unfold maybe_clamp. destruct (apply_clamp c vel) as [v|e] eqn:E.
  - exists v. split; auto. split; auto. eapply shape_eq_matrix; [|exact M]. eapply apply_clamp_shape; eauto.
  - unfold apply_clamp in E. rewrite (clamp_fit_ok n d) in E by auto. discriminate.
Qed.
Lemma adjust_eq : forall c m p b z (vel : matrix N), vh_call "adjust" c (Some m) (mkVk (Some p) b z) vel =
  if same_shape p m then match maybe_clamp c (map2 (map2 nsub) p m) with Ok v => Ok (v, Some p) | Err e => Err e end else Err ValueError.
Proof.
  intros. unfold vh_call. cbn -[same_shape maybe_clamp]. destruct (same_shape p m); auto.
Qed.
Lemma vk_get_ok : forall n d p (b : bounds N) z, is_matrix n d p -> box_dim d b -> vk_get (mkVk (Some p) (Some (Some b)) z) = Ok (p, b).
Proof. intros. unfold vk_get. cbn [vk_position vk_bounds]. rewrite (fit_box n d); auto. Qed.
Lemma invert_eq : forall n d c mem p (b : bounds N) z vel, is_matrix n d p -> is_matrix n d vel -> box_dim d b ->
  vh_call "invert" c mem (mkVk (Some p) (Some (Some b)) z) vel =
  vh_call "unmodified" c mem (mkVk (Some p) (Some (Some b)) z)
    (map2 (invert_row b (match z with None => ndec 1 2 | Some z => z end)) p vel).
Proof.
  intros n d c mem p b z vel P V B. unfold vh_call. cbn -[vh_invert vh_unmodified]. unfold vh_invert.
  rewrite (vk_get_ok n d) by auto. cbn [bind vk_z]. rewrite (is_matrix_same_shape n d vel p V P). reflexivity.
Qed.
Lemma zero_eq : forall n d c mem p (b : bounds N) z vel, is_matrix n d p -> is_matrix n d vel -> box_dim d b ->
  vh_call "zero" c mem (mkVk (Some p) (Some (Some b)) z) vel = Ok (map2 (zero_row b) p vel, mem).
Proof.
  intros n d c mem p b z vel P V B. unfold vh_call. cbn -[vh_zero]. unfold vh_zero.
  rewrite (vk_get_ok n d) by auto. cbn [bind vk_z]. rewrite (is_matrix_same_shape n d vel p V P). reflexivity.
Qed.
Lemma invert_rows : forall n d p (b : bounds N) z vel, is_matrix n d p -> is_matrix n d vel -> box_dim d b ->
  let w := map2 (invert_row b z) p vel in is_matrix n d w /\
  forall i j x v, nth_error p i = Some x -> entry vel i j = Some v -> exists v', entry w i j = Some v' /\
    (~ below b x -> ~ above b x -> v' = v) /\
    (below b x -> ~ above b x -> v' = nmul (nopp z) v) /\ (~ below b x -> above b x -> v' = nmul (nopp z) v) /\
    (below b x -> above b x -> v' = nmul (nopp z) (nmul (nopp z) v)).
Proof.
  intros n d p b z vel P V B w. split.
  - eapply shape_eq_matrix; [|exact V]. apply shape_eq_iff. apply same_shape_spec. split.
    { unfold w. rewrite map2_length. destruct P, V. unfold matrix, row in *. lia. }
    intros i r r' R R'. apply nth_map2_inv in R'. destruct R' as (x & y & X & Y & ->).
    pose proof (eq_trans (eq_sym R) Y) as Q. injection Q as ->. unfold invert_row.
    destruct (row_lower x b), (row_greater x b); rewrite ?map_length; auto.
  - intros i j x v X Y. destruct (entry_row _ _ _ _ Y) as (r & R & E).
    pose proof (row_lower_spec d b x B) as RL. pose proof (row_greater_spec d b x B) as RG.
    pose proof (row_lower_false d b x B) as RLf. pose proof (row_greater_false d b x B) as RGf.
    assert (W : nth_error w i = Some (invert_row b z x r)) by exact (nth_map2_some _ _ _ _ _ _ X R).
    unfold invert_row in W.
    destruct (row_lower x b) eqn:L; destruct (row_greater x b) eqn:G.
    + assert (below b x) by (apply RL; auto). assert (above b x) by (apply RG; auto).
      eexists. split. { eapply entry_of; [exact W|]. apply nth_map_some. apply nth_map_some. exact E. } tauto.
    + assert (below b x) by (apply RL; auto). assert (~ above b x) by (apply RGf; auto).
      eexists. split. { eapply entry_of; [exact W|]. apply nth_map_some. exact E. } tauto.
    + assert (~ below b x) by (apply RLf; auto). assert (above b x) by (apply RG; auto).
      eexists. split. { eapply entry_of; [exact W|]. apply nth_map_some. exact E. } tauto.
    + assert (~ below b x) by (apply RLf; auto). assert (~ above b x) by (apply RGf; auto).
      eexists. split. { eapply entry_of; [exact W|]. exact E. } tauto.
Qed.
Lemma zero_rows : forall n d p (b : bounds N) vel, is_matrix n d p -> is_matrix n d vel -> box_dim d b ->
  let w := map2 (zero_row b) p vel in is_matrix n d w /\
  forall i j x v, nth_error p i = Some x -> entry vel i j = Some v -> exists v', entry w i j = Some v' /\
    (~ below b x -> ~ above b x -> v' = v) /\ (below b x \/ above b x -> v' = nofZ 0).
Proof.
  intros n d p b vel P V B w. split.
  - eapply shape_eq_matrix; [|exact V]. apply shape_eq_iff. apply same_shape_spec. split.
    { unfold w. rewrite map2_length. destruct P, V. unfold matrix, row in *. lia. }
    intros i r r' R R'. apply nth_map2_inv in R'. destruct R' as (x & y & X & Y & ->).
    pose proof (eq_trans (eq_sym R) Y) as Q. injection Q as ->. unfold zero_row.
    destruct (row_lower x b || row_greater x b); rewrite ?map_length; auto.
  - intros i j x v X Y. destruct (entry_row _ _ _ _ Y) as (r & R & E).
    pose proof (row_lower_spec d b x B) as RL. pose proof (row_greater_spec d b x B) as RG.
    pose proof (row_lower_false d b x B) as RLf. pose proof (row_greater_false d b x B) as RGf.
    assert (W : nth_error w i = Some (zero_row b x r)) by exact (nth_map2_some _ _ _ _ _ _ X R).
    unfold zero_row in W. destruct (row_lower x b || row_greater x b) eqn:O.
    + assert (below b x \/ above b x) by (apply orb_true_iff in O; tauto).
      eexists. split. { eapply entry_of; [exact W|]. apply (nth_map_some _ _ _ _ E). } tauto.
    + apply orb_false_iff in O. assert (~ below b x /\ ~ above b x) by tauto.
      eexists. split. { eapply entry_of; [exact W|]. exact E. } tauto.
Qed.
End Gen.

Lemma clamp_cut : forall v a b : F64num, fle a b = true -> cut a b v (clamp_el v a b).
Proof.
  intros v a b L. unfold cut, clamp_el. cbn [nle F64num].
  destruct (fle v a) eqn:A; destruct (fle b v) eqn:B; cbv zeta; repeat split; intros; try solve [forder]; try solve [exfalso; forder]; auto.
Qed.
Lemma clamp_in : forall v a b : F64num, fle a b = true -> flt (clamp_el v a b) a = false /\ flt b (clamp_el v a b) = false.
Proof.
  intros v a b L. unfold clamp_el. cbn [nle F64num].
  destruct (fle v a) eqn:A; destruct (fle b v) eqn:B; cbv zeta; split; forder.
Qed.
(** The clamping strategies end with a clamp. *)
Lemma vh_clamped : forall st c mem k vel v mem', st = "unmodified" \/ st = "invert" \/ (st = "adjust" /\ mem <> None) ->
  vh_call (N := F64num) st (Some c) mem k vel = Ok (v, mem') -> exists w, apply_clamp (N := F64num) c w = Ok v.
Proof.
  intros st c mem k vel v mem' S H. unfold vh_call in H. destruct S as [S|[S|[S M]]]; subst st.
  - cbn -[apply_clamp] in H. destruct (apply_clamp c vel) eqn:E; [|discriminate]. injection H as <- <-. eauto.
  - cbn -[vh_invert] in H. apply bind_Ok in H. destruct H as (w & W & H). injection H as <- <-.
    unfold vh_invert in W. apply bind_Ok in W. destruct W as ([p b] & _ & W). destruct (negb _); [discriminate|]. eauto.
  - destruct mem as [m|]; [|congruence]. cbn -[vh_adjust] in H. unfold vh_adjust in H. destruct (vk_position k); [|discriminate].
    destruct (negb _); [discriminate|]. apply bind_Ok in H. destruct H as (w & W & H). injection H as <- <-. eauto.
Qed.
