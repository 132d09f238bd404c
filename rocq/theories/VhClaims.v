(** Claims about the velocity handler (C20, C22) and the velocity equation (C24). *)
From Coq Require Import String ZArith List Arith Bool Reals Lra Lia.
From Flocq Require Import Core IEEE754.BinarySingleNaN.
From Verif Require Import Prelude F64 F64Facts F64More Num Np Handlers Swarms Operators SpecHandlers ListFacts NpFacts ShapeFacts
  HandlerFacts BhFloat VhFacts VelFacts.
Import ListNotations.
Local Open Scope string_scope.
Local Open Scope list_scope.
Local Open Scope nat_scope.

Lemma clamped_entry : forall (c : clamp_t F64num) m w i j x a b, apply_clamp c m = Ok w -> entry m i j = Some x ->
  clamp_column c j a b -> fle a b = true -> exists y, entry w i j = Some y /\ cut a b x y.
Proof.
  intros c m w i j x a b H X C L. unfold apply_clamp in H. destruct (clamp_fit m c); [|discriminate]. injection H as <-.
  exists (clamp_el (N := F64num) x a b). split; [|apply clamp_cut; auto].
  destruct (entry_row _ _ _ _ X) as (r & R & E). destruct C as [C1 C2]. eapply entry_of.
  - exact (nth_map_some _ _ _ _ R).
  - clear -E C1 C2. destruct c as [lo hi]. cbn [fst snd] in *. revert r lo hi E C1 C2.
    induction j; intros [|? r] [|? lo] [|? hi] E C1 C2; simpl in *; try discriminate.
    + injection E as ->. injection C1 as ->. injection C2 as ->. reflexivity.
    + apply IHj; auto.
Qed.
Lemma clamp_unmodified : forall n d (c : clamp_t F64num) mem k vel, is_matrix n d vel -> length (fst c) = d -> length (snd c) = d ->
  exists w, vh_call "unmodified" (Some c) mem k vel = Ok (w, mem) /\ is_matrix n d w /\
    forall i j v a b, entry vel i j = Some v -> clamp_column c j a b -> fle a b = true ->
      exists v', entry w i j = Some v' /\ cut a b v v'.
Proof.
  intros n d c mem k vel M L1 L2. destruct (unmodified_ok n d c mem k vel M L1 L2) as (w & E & A & Mw).
  exists w. split; auto. split; auto. intros. eapply clamped_entry; eauto.
Qed.
Lemma clamp_adjust : forall n d (c : clamp_t F64num) mem p b z vel, is_matrix n d p -> is_matrix n d mem -> length (fst c) = d -> length (snd c) = d ->
  exists w, vh_call "adjust" (Some c) (Some mem) (mkVk (Some p) b z) vel = Ok (w, Some p) /\ is_matrix n d w /\
    forall i j x m a b, entry p i j = Some x -> entry mem i j = Some m -> clamp_column c j a b -> fle a b = true ->
      exists v', entry w i j = Some v' /\ cut a b (fsub x m) v'.
Proof.
  intros n d c mem p b z vel M M' L1 L2.
  pose proof (adjust_eq (Some c) mem p b z vel) as AE. rewrite (is_matrix_same_shape n d _ _ M M') in AE.
  assert (MD : is_matrix n d (map2 (map2 fsub) p mem)).
  { destruct M as [A1 A2], M' as [B1 B2]. split. { rewrite map2_length. unfold row, matrix in *. ftypes. lia. }
    apply Forall_forall. intros r I. apply In_nth_error in I. destruct I as [i I].
    apply nth_map2_inv in I. destruct I as (a & e & A & B & ->). rewrite map2_length.
    pose proof (is_matrix_nth n d p i a (conj A1 A2) A). pose proof (is_matrix_nth n d mem i e (conj B1 B2) B).
    unfold row, matrix in *. ftypes. lia. }
  destruct (unmodified_ok (N := F64num) n d c (Some p) (mkVk (Some p) b z) _ MD L1 L2) as (w & E & A & Mw).
  exists w.
  split; [exact (eq_trans AE (f_equal (fun r => match r with Ok v => Ok (v, Some p) | Err e => Err e end) A))|]. split; auto.
  intros i j x m a b' X Y C L. eapply clamped_entry; [exact A| |exact C|exact L].
  destruct (entry_row _ _ _ _ X) as (? & A1 & B1). destruct (entry_row _ _ _ _ Y) as (? & A2 & B2).
  eapply entry_of. exact (nth_map2_some _ _ _ _ _ _ A1 A2). apply nth_map2_some; auto.
Qed.
Lemma clamp_all : forall st (c : clamp_t F64num) mem k vel w mem',
  st = "unmodified" \/ st = "invert" \/ (st = "adjust" /\ mem <> None) ->
  vh_call st (Some c) mem k vel = Ok (w, mem') ->
  forall i j v, entry w i j = Some v -> exists a b, clamp_column c j a b /\
    (fle a b = true -> fisnan v = false -> fle a v = true /\ fle v b = true).
Proof.
  intros st c mem k vel w mem' S H i j v V. destruct (vh_clamped _ _ _ _ _ _ _ S H) as (m & A).
  destruct (entry_clamp _ _ _ _ _ A _ V) as (x & a & b & X & C & ->). exists a, b. split; auto.
  intros L NN. destruct (clamp_cut x a b L) as (_ & _ & _ & N4 & N5). apply N5.
  destruct (fisnan x) eqn:E; auto. specialize (N4 eq_refl). ftypes. congruence.
Qed.

Section Gen.
Context {N : Num}.
Lemma invert_claim : forall n d mem p (b : bounds N) z vel, is_matrix n d p -> is_matrix n d vel -> box_dim d b ->
  exists w, vh_call "invert" None mem (mkVk (Some p) (Some (Some b)) (Some z)) vel = Ok (w, mem) /\ is_matrix n d w /\
    (forall c, vh_call "invert" (Some c) mem (mkVk (Some p) (Some (Some b)) (Some z)) vel =
               vh_call "unmodified" (Some c) mem (mkVk (Some p) (Some (Some b)) (Some z)) w) /\
    forall i j x v, nth_error p i = Some x -> entry vel i j = Some v -> exists v', entry w i j = Some v' /\
      (~ below b x -> ~ above b x -> v' = v) /\
      (below b x -> ~ above b x -> v' = nmul (nopp z) v) /\ (~ below b x -> above b x -> v' = nmul (nopp z) v) /\
      (below b x -> above b x -> v' = nmul (nopp z) (nmul (nopp z) v)).
Proof.
  intros n d mem p b z vel M Mv B. destruct (invert_rows n d p b z vel M Mv B) as [Mw K].
  eexists. split. { rewrite (invert_eq n d _ _ _ _ _ _ M Mv B). rewrite unmodified_eq. reflexivity. }
  split; [exact Mw|]. split; [|exact K]. intros c. rewrite (invert_eq n d _ _ _ _ _ _ M Mv B). reflexivity.
Qed.
Lemma invert_default : forall c mem p b vel,
  vh_call (N := N) "invert" c mem (mkVk p b None) vel = vh_call "invert" c mem (mkVk p b (Some (ndec 1 2))) vel.
Proof. reflexivity. Qed.
Lemma zero_claim : forall n d c mem p (b : bounds N) z vel, is_matrix n d p -> is_matrix n d vel -> box_dim d b ->
  exists w, vh_call "zero" c mem (mkVk (Some p) (Some (Some b)) z) vel = Ok (w, mem) /\ is_matrix n d w /\
    forall i j x v, nth_error p i = Some x -> entry vel i j = Some v -> exists v', entry w i j = Some v' /\
      (~ below b x -> ~ above b x -> v' = v) /\ (below b x \/ above b x -> v' = nofZ 0).
Proof.
  intros n d c mem p b z vel M Mv B. destruct (zero_rows n d p b vel M Mv B) as [Mw K].
  eexists. split. { rewrite (zero_eq n d _ _ _ _ _ _ M Mv B). reflexivity. } split; auto.
Qed.
Lemma map2_keep : forall (A : Type) (f : A -> list N -> list N) p vel, length p = length vel ->
  (forall i x v, nth_error p i = Some x -> nth_error vel i = Some v -> f x v = v) -> map2 f p vel = vel.
Proof.
  intros A f. induction p as [|x p IH]; intros [|v vel] L H; simpl in *; try discriminate; auto.
  f_equal. exact (H 0 x v eq_refl eq_refl). apply IH; [lia|]. intros i x' v' X V. exact (H (S i) x' v' X V).
Qed.
Lemma inside_claim : forall n d c mem p (b : bounds N) z vel, is_matrix n d p -> is_matrix n d vel -> box_dim d b ->
  (forall i x, nth_error p i = Some x -> ~ below b x /\ ~ above b x) ->
  vh_call "invert" c mem (mkVk (Some p) (Some (Some b)) z) vel = vh_call "unmodified" c mem (mkVk (Some p) (Some (Some b)) z) vel /\
  vh_call "zero" c mem (mkVk (Some p) (Some (Some b)) z) vel = Ok (vel, mem).
Proof.
  intros n d c mem p b z vel M Mv B G. rewrite (invert_eq n d _ _ _ _ _ _ M Mv B), (zero_eq n d _ _ _ _ _ _ M Mv B).
  assert (L : length p = length vel) by (destruct M, Mv; unfold row, matrix in *; lia).
  split.
  - f_equal. apply map2_keep; auto. intros i x v X V. destruct (G _ _ X) as [G1 G2]. unfold invert_row.
    rewrite (proj2 (row_lower_false d b x B) G1), (proj2 (row_greater_false d b x B) G2). reflexivity.
  - do 2 f_equal. apply map2_keep; auto. intros i x v X V. destruct (G _ _ X) as [G1 G2]. unfold zero_row.
    rewrite (proj2 (row_lower_false d b x B) G1), (proj2 (row_greater_false d b x B) G2). reflexivity.
Qed.
Lemma no_bounds_claim : forall st c mem p z (vel : matrix N), st = "invert" \/ st = "zero" ->
  vh_call st c mem (mkVk (Some p) (Some None) z) vel = Err TypeError /\
  vh_call st c mem (mkVk (Some p) None z) vel = Err KeyError.
Proof. intros st c mem p z vel [-> | ->]; split; reflexivity. Qed.
End Gen.
Lemma rest_claim : forall n d (dr : vel_draws F64num) vmem (s : swarm F64num) (b : option (bounds F64num)) c1 c2 w,
  dget (s_options s) "c1" = Some c1 -> dget (s_options s) "c2" = Some c2 -> dget (s_options s) "w" = Some w ->
  ffinite (pnum c1) = true -> ffinite (pnum c2) = true -> ffinite (pnum w) = true ->
  is_matrix n d (s_position s) -> is_matrix n d (s_velocity s) -> is_matrix n d (s_pbest_pos s) ->
  is_matrix n d (vd_u1 dr) -> is_matrix n d (vd_u2 dr) -> best_dim n d (s_best_pos s) ->
  (forall i j r, entry (vd_u1 dr) i j = Some r \/ entry (vd_u2 dr) i j = Some r -> fle fzero r = true /\ flt r fone = true) ->
  exists v' x', compute_velocity dr "unmodified" vmem s None b = Ok (v', vmem) /\
    (forall bdr bh bmem, compute_position bdr bh bmem (set_velocity s v') None = Ok (x', bmem)) /\
    forall i j x v p g, entry (s_position s) i j = Some x -> entry (s_velocity s) i j = Some v ->
      entry (s_pbest_pos s) i j = Some p -> best_entry (s_best_pos s) i j = Some g ->
      ffinite x = true -> feq p x = true -> feq g x = true -> feq v fzero = true ->
      exists v1 x1, entry v' i j = Some v1 /\ feq v1 fzero = true /\ entry x' i j = Some x1 /\ feq x1 x = true.
Proof.
  intros n d dr vmem s b c1 c2 w H1 H2 H3 F1 F2 F3 Mx Mv Mp M1 M2 B U.
  destruct (velocity_claim n d dr vmem s b c1 c2 w H1 H2 H3 Mx Mv Mp M1 M2 B) as (v' & E & Mv' & K).
  destruct (position_claim n d (mkBhDraws (N := F64num) [] [] 0) "nearest" None (set_velocity s v') Mx Mv') as (x' & Ex & _ & K').
  exists v', x'. split; [exact E|]. split.
  { intros bdr bh bmem. unfold compute_position in *. cbn [s_position s_velocity set_velocity] in *.
    destruct (negb (same_shape (s_position s) v')); [discriminate|]. cbn [bind] in *. injection Ex as <-. reflexivity. }
  intros i j x v p g X V P G Fx Ep Eg Ev.
  destruct (entry_lt n d _ _ _ _ Mx X) as [I J].
  destruct (entry_in n d _ i j M1 I J) as [r1 R1]. destruct (entry_in n d _ i j M2 I J) as [r2 R2].
  destruct (U i j r1 (or_introl R1)) as [A1 A2]. destruct (U i j r2 (or_intror R2)) as [A3 A4].
  destruct (at_rest _ _ _ r1 r2 x v p g F1 F2 F3 A1 A2 A3 A4 Fx Ep Eg Ev) as [Q1 Q2].
  pose proof (K i j r1 r2 x v p g R1 R2 X V P G) as EV.
  eexists. eexists. split; [exact EV|]. split; [exact Q1|]. split; [exact (K' i j x _ X EV)|exact Q2].
Qed.
