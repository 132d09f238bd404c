(** Whole calls keep the swarm in its box. *)
From Coq Require Import String ZArith List Arith Bool Reals Lra Lia.
From Flocq Require Import Core IEEE754.BinarySingleNaN.
From Verif Require Import Prelude F64 F64Facts F64More Num Np Handlers Swarms Operators Generators Topology Optimizers
  Spec SpecHandlers ListFacts NpFacts ShapeFacts HandlerFacts BhFloat BhReal BhClaims BhClaims2 VhFacts VhClaims RunFacts RunInv.
Import ListNotations.
Local Open Scope string_scope.
Local Open Scope list_scope.
Local Open Scope nat_scope.
#[local] Arguments fdec : simpl never.
#[local] Arguments fofZ : simpl never.

Lemma fle_neq_lt : forall a b, fle a b = true -> feq a b = false -> flt a b = true.
Proof. intros a b L E. destruct (flt a b) eqn:Q; auto. exfalso. assert (feq a b = true) by forder. congruence. Qed.
Lemma periodic_clear : forall x l u : F64num, ffinite l = true -> ffinite u = true -> fle l u = true -> ffinite (fsub u l) = true ->
  flt (periodic_el x l u) l = false /\ flt u (periodic_el x l u) = false.
Proof.
  intros x l u Fl Fu L Fd.
  assert (NAN : forall z : f64, fisnan z = true -> flt z l = false /\ flt u z = false).
  { intros z H. split; forder. }
  destruct (fisnan x) eqn:Nx.
  { unfold periodic_el, lower, greater. cbn [nlt nabs nsub nmod nadd F64num].
    destruct (NAN x Nx) as [A B]. rewrite A, B. auto. }
  destruct (flt x l) eqn:A; destruct (flt u x) eqn:B.
  - exfalso. forder.
  - destruct (ffinite x) eqn:Fx; [destruct (feq l u) eqn:E; [|destruct (ffinite (fsub l x)) eqn:Fs]|].
    + rewrite (periodic_nan x l u); auto; apply NAN; reflexivity.
    + destruct (periodic_inside x l u) as [P1 P2]; auto; [apply fle_neq_lt; auto|congruence|split; forder].
    + unfold periodic_el, lower, greater. cbn [nlt nabs nsub nmod nadd F64num]. rewrite A, B.
      pose proof (is_round_notnan _ _ (fsub_round l x Fl Fx)) as Q.
      destruct (fsub l x) as [|sg| |]; try discriminate. rewrite fnpmod_inf.
      apply NAN. destruct u; reflexivity.
    + rewrite (periodic_nan x l u); auto; apply NAN; reflexivity.
  - destruct (ffinite x) eqn:Fx; [destruct (feq l u) eqn:E; [|destruct (ffinite (fsub x u)) eqn:Fs]|].
    + rewrite (periodic_nan x l u); auto; apply NAN; reflexivity.
    + destruct (periodic_inside x l u) as [P1 P2]; auto; [apply fle_neq_lt; auto|congruence|split; forder].
    + unfold periodic_el, lower, greater. cbn [nlt nabs nsub nmod nadd F64num]. rewrite A, B.
      pose proof (is_round_notnan _ _ (fsub_round x u Fx Fu)) as Q.
      destruct (fsub x u) as [|sg| |]; try discriminate. rewrite fnpmod_inf.
      apply NAN. destruct l; reflexivity.
    + rewrite (periodic_nan x l u); auto; apply NAN; reflexivity.
  - unfold periodic_el, lower, greater. cbn [nlt nabs nsub nmod nadd F64num]. rewrite A, B. auto.
Qed.
Lemma double_between : forall m l u, ffinite l = true -> ffinite u = true -> ffinite m = true ->
  ffinite (fadd l l) = true -> ffinite (fadd u u) = true -> (FR l <= FR m <= FR u)%R -> forall k, ffinite k = true -> (FR l <= FR k <= FR u)%R ->
  ffinite (fadd m k) = true.
Proof.
  intros m l u Fl Fu Fm D1 D2 M k Fk K. pose proof (fadd_round m k Fm Fk) as R.
  pose proof (fadd_round l l Fl Fl) as R1. pose proof (fadd_round u u Fu Fu) as R2.
  apply (is_round_between _ _ (fadd l l) (fadd u u) R); auto.
  rewrite (is_round_finite_eq _ _ R1 D1), (is_round_finite_eq _ _ R2 D2).
  replace (FR l + FR l)%R with (2 * FR l)%R by ring. replace (FR u + FR u)%R with (2 * FR u)%R by ring. rewrite !rnd_double. lra.
Qed.
Lemma intermediate_clear : forall x m l u : F64num, ffinite l = true -> ffinite u = true -> fle l u = true ->
  ffinite (fadd l l) = true -> ffinite (fadd u u) = true -> flt m l = false -> flt u m = false ->
  flt (intermediate_el x m l u) l = false /\ flt u (intermediate_el x m l u) = false.
Proof.
  intros x m l u Fl Fu L D1 D2 M1 M2.
  assert (NAN : forall z : f64, fisnan z = true -> flt z l = false /\ flt u z = false).
  { intros z H. split; forder. }
  destruct (fisnan x) eqn:Nx.
  { unfold intermediate_el, lower, greater. cbn [nlt F64num]. destruct (NAN x Nx) as [A B]. rewrite A, B. auto. }
  destruct (fisnan m) eqn:Nm.
  { destruct m; try discriminate. unfold intermediate_el, lower, greater. cbn [nlt nmul ndec nadd F64num].
    assert (Q : forall h y : f64, fisnan (fmul h (fadd B754_nan y)) = true) by (intros h y; destruct y; destruct h; reflexivity).
    destruct (flt u x) eqn:B; [apply NAN, Q|]. destruct (flt x l) eqn:A; [apply NAN, Q|]. auto. }
  assert (A : fle l m = true /\ fle m u = true).
  { pose proof (finite_notnan _ Fl). pose proof (finite_notnan _ Fu). split; forder. }
  destruct A as [A1 A2]. assert (Fm : ffinite m = true) by (eapply fle_between; eauto).
  pose proof (proj1 (fle_fin l m Fl Fm) A1). pose proof (proj1 (fle_fin m u Fm Fu) A2).
  destruct (intermediate_inside x m l u) as [P1 P2]; auto.
  - apply (double_between m l u); auto; lra.
  - apply (double_between m l u); auto; lra.
  - split; forder.
Qed.

(** One boundary handler call. *)
Lemma bh_none_outside : forall st n d dr i mem (b : bounds F64num) (pos p : matrix F64num) mem',
  box_strategy d b st dr -> is_matrix n d pos -> box_dim d b -> finite_box b ->
  (st = "intermediate" -> exists m, mem = Some m /\ is_matrix n d m /\ none_outside b m) ->
  bh_call st (dr i) mem b pos = Ok (p, mem') ->
  is_matrix n d p /\ none_outside b p /\ (st = "intermediate" -> mem' = Some p).
Proof.
  intros st n d dr i mem b pos p mem' S M B FB MM H.
  assert (Mp : is_matrix n d p) by (eapply shape_eq_matrix; [eapply bh_call_shape; exact H|exact M]).
  split; auto. destruct S as [->|[->|[[-> W]|[[-> [W U]]|[-> D]]]]]; (split; [|try discriminate]).
  - destruct (nearest_idem n d (dr i) mem b pos M B) as (p' & E & K & _).
    { intros j l u C. apply (FB j l u C). }
    pose proof (eq_trans (eq_sym H) E) as Q. injection Q as ->. auto.
  - eapply reflective_claim; eauto.
  - pose proof (eq_trans (eq_sym H) (periodic_eq n d (dr i) mem b pos M B)) as Q. injection Q as -> _.
    destruct (elementwise n d b pos (periodic_el (N := F64num)) M B) as [_ K].
    intros a j x l u X C. destruct (entry_lt n d _ _ _ _ Mp X) as [I J]. destruct (entry_in n d pos a j M I J) as [y Y].
    pose proof (eq_trans (eq_sym X) (K a j y l u Y C)) as Q. injection Q as ->.
    destruct (FB j l u C) as (Fl & Fu & L). apply periodic_clear; auto. apply (W j l u C).
  - destruct (random_claim n d (dr i) mem b pos M B FB W (proj1 (U i)) (proj2 (U i))) as (p' & low & high & E & _ & _ & _ & L & Hh & K).
    pose proof (eq_trans (eq_sym H) E) as Q. injection Q as -> _.
    intros a j x l u X C. destruct (entry_row _ _ _ _ X) as (r' & R' & Xj).
    destruct (nth_error_ex pos a) as [r R]. { pose proof (nth_error_lt _ _ _ R'). destruct M, Mp. ftypes. lia. }
    destruct (K a r R) as (r'' & R'' & K1 & K2 & K3). pose proof (eq_trans (eq_sym R') R'') as Q. injection Q as <-.
    assert (IN : row_inside_box b r' -> flt x l = false /\ flt u x = false).
    { intros IN. destruct (IN j x l u Xj C). split; forder. }
    destruct (row_lower (N := F64num) r b) eqn:RL.
    { apply (row_lower_spec d) in RL; auto. apply IN. rewrite (K2 RL). exact L. }
    apply (row_lower_false d) in RL; auto. destruct (row_greater (N := F64num) r b) eqn:RG.
    { apply (row_greater_spec d) in RG; auto. apply IN. rewrite (K3 RL RG). exact Hh. }
    apply (row_greater_false d) in RG; auto. rewrite (K1 RL RG) in Xj.
    exact (good_el b r j x l u (conj RL RG) Xj C).
  - destruct (MM eq_refl) as (m & -> & Mm & Om).
    assert (A : b_arr b = true).
    { rewrite (intermediate_eq n d (dr i) (Some m) b pos M B) in H. unfold intermediate in H. destruct (b_arr b); [auto|discriminate]. }
    rewrite (intermediate_eq n d (dr i) (Some m) b pos M B) in H. unfold intermediate in H.
    rewrite A in H. cbn [negb] in H. assert (SS : @same_shape (T F64num) (T F64num) pos m = true) by exact (is_matrix_same_shape n d pos m M Mm).
    rewrite SS in H. cbn [negb] in H. injection H as <- _.
    intros a j x l u X C. destruct (entry_lt n d _ _ _ _ Mp X) as [I J]. destruct (entry_in n d pos a j M I J) as [y Y].
    destruct (entry_in n d m a j Mm I J) as [w Y'].
    pose proof (eq_trans (eq_sym X) (entry_map4 n d b pos m _ a j y w l u M Mm Y Y' C)) as Q. injection Q as ->.
    destruct (FB j l u C) as (Fl & Fu & L). destruct (D j l u C) as [D1 D2]. destruct (Om a j w l u Y' C).
    apply intermediate_clear; auto.
  - intros _. rewrite (intermediate_eq n d (dr i) mem b pos M B) in H.
    destruct (intermediate (N := F64num) mem b pos); [|discriminate]. injection H as <- <-. reflexivity.
Qed.
Lemma moved_matrix : forall n d (s : fswarm), is_matrix n d (s_position s) -> same_shape (s_position s) (s_velocity s) = true ->
  is_matrix n d (map2 (map2 fadd) (s_position s) (s_velocity s)).
Proof.
  intros n d s M S. pose proof (same_shape_is_matrix n d _ _ S M) as Mv. destruct M as [A1 A2], Mv as [B1 B2].
  split. { rewrite map2_length. ftypes. lia. }
  apply Forall_forall. intros r I. apply In_nth_error in I. destruct I as [i I].
  apply nth_map2_inv in I. destruct I as (a & e & A & B & ->). rewrite map2_length.
  pose proof (is_matrix_nth n d _ i a (conj A1 A2) A). pose proof (is_matrix_nth n d _ i e (conj B1 B2) B). ftypes. lia.
Qed.

(** C19 *)
Lemma box_run : forall c e pool iters o o' r b n d, c_kind c <> Binary -> c_bounds c = Some b -> box_dim d b -> finite_box b ->
  box_strategy d b (c_bh c) (e_bh e) ->
  is_matrix n d (s_position (o_swarm o)) -> none_outside b (s_position (o_swarm o)) ->
  optimize c e pool iters o = (o', r) ->
  exists hp, o_pos_history o' = o_pos_history o ++ hp /\ Forall (fun p => is_matrix n d p /\ none_outside b p) hp /\
    is_matrix n d (s_position (o_swarm o')) /\ none_outside b (s_position (o_swarm o')).
Proof.
  intros c e pool iters o o' r b n d K B Bd FB S M0 O0 E.
  destruct (motion_rule c e pool iters o (fun p v bm vm => is_matrix n d p /\ none_outside b p /\
     (c_bh c = "intermediate" -> exists m, bm = Some m /\ is_matrix n d m /\ none_outside b m))) with (o' := o') (r := r)
    as (hp & hv & E1 & E2 & F2 & (v & bm & vm & Q1 & Q2 & _) & _); auto.
  - split; auto. split; auto. intros _. exists (s_position (o_swarm o)). split; auto.
    destruct (started_facts c o) as (_ & _ & _ & _ & _ & _ & _ & _ & ->). destruct (c_kind c); congruence.
  - intros i o1 o2 opts v vm p bm Hi (I1 & I2 & I3) (U & _). rewrite B in U.
    assert (U' : compute_position (e_bh e i) (c_bh c) (o_bmem o1) (set_velocity (set_options (o_swarm o1) opts) v) (Some b) = Ok (p, bm)).
    { destruct (c_kind c); try congruence; apply U. }
    clear U. unfold compute_position in U'. cbn [s_position set_velocity set_options] in U'.
    destruct (same_shape (s_position (o_swarm o1)) (s_velocity (set_velocity (set_options (o_swarm o1) opts) v))) eqn:SS;
      cbn [negb] in U'; [|discriminate].
    assert (MT := moved_matrix n d (set_velocity (set_options (o_swarm o1) opts) v) I1 SS).
    destruct (bh_none_outside (c_bh c) n d (e_bh e) i (o_bmem o1) b _ p bm S MT Bd FB I3 U') as (P1 & P2 & P3).
    split; auto. split; auto. intros Q. exists p. auto.
  - exists hp. split; auto. split; auto. clear -F2. induction F2 as [|p v hp hv (bm & vm & A1 & A2 & _) F IH]; constructor; auto.
Qed.
