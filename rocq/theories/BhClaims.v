(** Whole calls of the boundary handler. *)
From Coq Require Import String ZArith List Arith Bool Reals Lra Lia.
From Flocq Require Import Core IEEE754.BinarySingleNaN.
From Verif Require Import Prelude F64 F64Facts F64More Num Np Handlers SpecHandlers ListFacts NpFacts ShapeFacts
  HandlerFacts BhFloat BhReal.
Import ListNotations.
Local Open Scope string_scope.
Local Open Scope list_scope.
Local Open Scope nat_scope.
#[local] Arguments fdec : simpl never.
#[local] Arguments fofZ : simpl never.

Section Gen.
Context {N : Num}.
Lemma nearest_eq : forall n d dr mem (b : bounds N) pos, is_matrix n d pos -> box_dim d b ->
  bh_call "nearest" dr mem b pos = Ok (nearest b pos, mem).
Proof. intros. unfold bh_call. rewrite (fit_box n d b pos); auto. Qed.
Lemma periodic_eq : forall n d dr mem (b : bounds N) pos, is_matrix n d pos -> box_dim d b ->
  bh_call "periodic" dr mem b pos = Ok (periodic b pos, mem).
Proof. intros. unfold bh_call. rewrite (fit_box n d b pos); auto. Qed.
Lemma shrink_eq : forall n d dr mem (b : bounds N) pos, is_matrix n d pos -> box_dim d b ->
  bh_call "shrink" dr mem b pos = match shrink mem b pos with Ok p => Ok (p, Some p) | Err e => Err e end.
Proof. intros. unfold bh_call. rewrite (fit_box n d b pos); auto. Qed.
Lemma intermediate_eq : forall n d dr mem (b : bounds N) pos, is_matrix n d pos -> box_dim d b ->
  bh_call "intermediate" dr mem b pos = match intermediate mem b pos with Ok p => Ok (p, Some p) | Err e => Err e end.
Proof. intros. unfold bh_call. rewrite (fit_box n d b pos); auto. Qed.
Lemma random_eq : forall n d dr mem (b : bounds N) pos, is_matrix n d pos -> box_dim d b ->
  bh_call "random" dr mem b pos = match random_bh (bd_greater dr) (bd_lower dr) b pos with Ok p => Ok (p, mem) | Err e => Err e end.
Proof. intros. unfold bh_call. rewrite (fit_box n d b pos); auto. Qed.
Lemma elementwise : forall n d (b : bounds N) pos (f : N -> N -> N -> N), is_matrix n d pos -> box_dim d b ->
  let m := map (fun r => map3 f r (b_lb b) (b_ub b)) pos in
  is_matrix n d m /\ forall i j x l u, entry pos i j = Some x -> column b j l u -> entry m i j = Some (f x l u).
Proof.
  intros n d b pos f M B m. split. apply map3_matrix; auto. intros. apply entry_map3 with d; auto.
Qed.
Lemma entry_map4 : forall n d (b : bounds N) pos mem (f : N -> N -> N -> N -> N) i j x m l u,
  is_matrix n d pos -> is_matrix n d mem -> entry pos i j = Some x -> entry mem i j = Some m -> column b j l u ->
  entry (map2 (fun x mr => map4 f x mr (b_lb b) (b_ub b)) pos mem) i j = Some (f x m l u).
Proof.
  intros n d b pos mem f i j x m l u M M' X Y [L U].
  destruct (entry_row _ _ _ _ X) as (r & R & R'). destruct (entry_row _ _ _ _ Y) as (s & S & S').
  eapply entry_of. exact (nth_map2_some _ _ _ _ _ _ R S). rewrite nth_error_map4, R', S', L, U. reflexivity.
Qed.
End Gen.

(** *** nearest *)
Lemma nearest_claim : forall n d dr mem (b : bounds F64num) pos, is_matrix n d pos -> box_dim d b ->
  exists pos', bh_call "nearest" dr mem b pos = Ok (pos', mem) /\ is_matrix n d pos' /\
    forall i j x l u, entry pos i j = Some x -> column b j l u -> fle l u = true ->
      exists x', entry pos' i j = Some x' /\ projection l u x x'.
Proof.
  intros n d dr mem b pos M B. exists (nearest b pos). split; [eapply nearest_eq; eauto|].
  destruct (elementwise n d b pos nearest_el M B) as [M' E]. split; auto.
  intros i j x l u X C L. exists (nearest_el (N := F64num) x l u). split; [apply E; auto | apply nearest_projection; auto].
Qed.
Lemma nearest_idem : forall n d dr mem (b : bounds F64num) pos, is_matrix n d pos -> box_dim d b ->
  (forall j l u, column b j l u -> fle l u = true) ->
  exists pos', bh_call "nearest" dr mem b pos = Ok (pos', mem) /\ none_outside b pos' /\
    forall dr' mem', bh_call "nearest" dr' mem' b pos' = Ok (pos', mem').
Proof.
  intros n d dr mem b pos M B L. exists (nearest b pos). split; [eapply nearest_eq; eauto|].
  destruct (elementwise n d b pos nearest_el M B) as [M' E]. fold (nearest b pos) in M', E.
  assert (O : none_outside b (nearest b pos)).
  { intros i j x' l u X' C. destruct (entry_lt n d _ i j _ M' X') as [I J]. destruct (entry_in n d pos i j M I J) as [x X].
    pose proof (eq_trans (eq_sym X') (E i j x l u X C)) as Q. injection Q as ->. apply nearest_clear. eauto. }
  split; auto. intros dr' mem'. rewrite (nearest_eq n d); auto.
  cut (nearest b (nearest b pos) = nearest b pos); [intros ->; auto|].
  destruct (elementwise n d b (nearest b pos) nearest_el M' B) as [M'' E']. fold (nearest b (nearest b pos)) in M'', E'.
  apply entry_ext with n d; auto. intros i j I J. destruct (entry_in n d _ i j M' I J) as [x X]. destruct (column_ex d b j B J) as (l & u & C).
  destruct (O i j x l u X C). etransitivity; [exact (E' i j x l u X C)|]. etransitivity; [|symmetry; exact X].
  f_equal. apply (nearest_in (N := F64num)); auto.
Qed.
Lemma nearest_exact : forall n d dr mem (b : bounds Rnum) pos, is_matrix n d pos -> box_dim d b ->
  exists pos', bh_call "nearest" dr mem b pos = Ok (pos', mem) /\ is_matrix n d pos' /\
    forall i j x l u, entry pos i j = Some x -> column b j l u -> (l <= u)%R ->
      exists x', entry pos' i j = Some x' /\ (l <= x' <= u)%R /\
        forall y, (l <= y <= u)%R -> (Rabs (x' - x) <= Rabs (y - x))%R.
Proof.
  intros n d dr mem b pos M B. exists (nearest b pos). split; [eapply nearest_eq; eauto|].
  destruct (elementwise n d b pos nearest_el M B) as [M' E]. split; auto.
  intros i j x l u X C L. exists (nearest_el (N := Rnum) x l u). split; [apply E; auto | apply nearest_R; auto].
Qed.

(** *** periodic *)
Lemma periodic_claim : forall n d dr mem (b : bounds F64num) pos, is_matrix n d pos -> box_dim d b ->
  exists pos', bh_call "periodic" dr mem b pos = Ok (pos', mem) /\ is_matrix n d pos' /\
    forall i j x l u, entry pos i j = Some x -> column b j l u -> ffinite l = true -> ffinite u = true ->
      exists x', entry pos' i j = Some x' /\
       (flt x l = false -> flt u x = false -> x' = x) /\
       (flt l u = true -> ffinite x = true -> ffinite (fsub u l) = true ->
        (flt x l = true -> ffinite (fsub l x) = true) -> (flt u x = true -> ffinite (fsub x u) = true) ->
        fle l x' = true /\ fle x' u = true) /\
       ((flt x l = true \/ flt u x = true) -> (feq l u = true \/ (ffinite x = false /\ fle l u = true)) -> fisnan x' = true).
Proof.
  intros n d dr mem b pos M B. exists (periodic b pos). split; [eapply periodic_eq; eauto|].
  destruct (elementwise n d b pos periodic_el M B) as [M' E]. split; auto.
  intros i j x l u X C Fl Fu. exists (periodic_el (N := F64num) x l u). split; [apply E; auto|]. split; [|split].
  - intros. apply (periodic_in (N := F64num)); auto.
  - intros. apply periodic_inside; auto.
  - intros O H. rewrite (periodic_nan x l u); auto. destruct O as [O|O]; forder.
Qed.
Lemma periodic_exact : forall n d dr mem (b : bounds Rnum) pos, is_matrix n d pos -> box_dim d b ->
  exists pos', bh_call "periodic" dr mem b pos = Ok (pos', mem) /\ is_matrix n d pos' /\
    forall i j x l u, entry pos i j = Some x -> column b j l u -> (l < u)%R ->
      exists x', entry pos' i j = Some x' /\ (l <= x' <= u)%R /\ exists k : Z, x' = (x + IZR k * (u - l))%R.
Proof.
  intros n d dr mem b pos M B. exists (periodic b pos). split; [eapply periodic_eq; eauto|].
  destruct (elementwise n d b pos periodic_el M B) as [M' E]. split; auto.
  intros i j x l u X C L. exists (periodic_el (N := Rnum) x l u). split; [apply E; auto|]. apply periodic_R; auto.
Qed.

(** *** reflective *)
Lemma reflective_claim : forall dr mem (b : bounds F64num) pos pos' mem',
  bh_call "reflective" dr mem b pos = Ok (pos', mem') -> none_outside b pos' /\ mem' = mem.
Proof.
  intros dr mem b pos pos' mem' H. apply reflective_result in H. destruct H as (F & H & E). split; auto.
  apply fit_dims in F. destruct F as [_ B]. intros i j x l u X C. eapply (reflective_loop_exit (N := F64num)); eauto.
Qed.
Lemma reflective_exact : forall n d mem (b : bounds Rnum) pos, is_matrix n d pos -> box_dim d b -> b_arr b = true ->
  (forall j l u, column b j l u -> (l < u)%R) ->
  exists passes pos', is_matrix n d pos' /\
   (forall ug ul fuel, passes <= fuel -> bh_call "reflective" (mkBhDraws ug ul fuel) mem b pos = Ok (pos', mem)) /\
   forall i j x l u, entry pos i j = Some x -> column b j l u ->
     exists x', entry pos' i j = Some x' /\ (l <= x' <= u)%R /\
       exists k : Z, x' = (x + IZR k * (2 * (u - l)))%R \/ x' = (2 * l - x + IZR k * (2 * (u - l)))%R.
Proof.
  intros n d mem b pos M B A L.
  assert (K : exists k, forall k', k <= k' -> forall i, i < n -> forall j, j < d -> forall x l u, entry pos i j = Some x -> column b j l u ->
             (x - u <= INR k' * (u - l))%R /\ (l - x <= INR k' * (u - l))%R).
  { apply bounded_choice with (P := fun i k' => forall j, j < d -> forall x l u, entry pos i j = Some x -> column b j l u ->
             (x - u <= INR k' * (u - l))%R /\ (l - x <= INR k' * (u - l))%R).
    intros i I. apply bounded_choice with (P := fun j k' => forall x l u, entry pos i j = Some x -> column b j l u ->
             (x - u <= INR k' * (u - l))%R /\ (l - x <= INR k' * (u - l))%R).
    intros j J. destruct (entry_in n d pos i j M I J) as [x X]. destruct (column_ex d b j B J) as (l & u & C).
    pose proof (L _ _ _ C) as W. cbn [T Rnum] in *.
    destruct (INR_above ((x - u) / (u - l))) as [k1 K1]. destruct (INR_above ((l - x) / (u - l))) as [k2 K2].
    exists (max k1 k2). intros k' H x' l' u' X' C'. assert (x' = x) by congruence. destruct (column_fun b j l u l' u' C C') as [-> ->]. subst x'.
    assert (N1 : (INR k1 <= INR k')%R) by (apply le_INR; lia). assert (N2 : (INR k2 <= INR k')%R) by (apply le_INR; lia).
    assert (E1 : ((x - u) = (x - u) / (u - l) * (u - l))%R) by (field; lra).
    assert (E2 : ((l - x) = (l - x) / (u - l) * (u - l))%R) by (field; lra).
    set (q1 := ((x - u) / (u - l))%R) in *. set (q2 := ((l - x) / (u - l))%R) in *. split; nra. }
  destruct K as [k K]. specialize (K k (le_n k)).
  assert (IN : forall i j (x l u : R), entry pos i j = Some x -> column b j l u ->
     (l <= it k (fun y => reflect_el (N := Rnum) y l u) x <= u)%R).
  { intros i j x l u X C. destruct (entry_lt n d _ i j _ M X) as [I J]. destruct (K i I j J x l u X C).
    apply reflect_R; auto. eapply L; eauto. }
  assert (CL : forall i j (x l u : Rnum), entry pos i j = Some x -> column b j l u ->
     clear_el (N := Rnum) (it k (fun y => reflect_el (N := Rnum) y l u) x) l u).
  { intros i j x l u X C. pose proof (IN i j x l u X C). unfold clear_el. cbn [nlt Rnum].
    split; apply Rlt_bool_false; cbn [T Rnum] in *; lra. }
  destruct (reflective_loop_it n d b k pos B M CL k (le_n k)) as (m' & R & M' & E).
  exists k, m'. split; auto. split.
  - intros ug ul fuel F. rewrite (reflective_call n d b _ _ _ M B A). cbn [bd_fuel].
    destruct (reflective_loop_it n d b k pos B M CL fuel F) as (m2 & R2 & M2 & E2). rewrite R2.
    replace m2 with m'; auto. apply entry_ext with n d; auto. intros i j I J.
    destruct (entry_in n d pos i j M I J) as [x X]. destruct (column_ex d b j B J) as (l & u & C).
    etransitivity; [exact (E i j x l u X C)|]. symmetry. exact (E2 i j x l u X C).
  - intros i j x l u X C. exists (it k (fun y => reflect_el (N := Rnum) y l u) x). split; [apply E; auto|]. split; [eapply IN; eauto|].
    apply (reflect_orbit l u k x x). exists 0%Z. left. cbn [T Rnum] in *. ring.
Qed.
Lemma reflective_hangs_far : forall n d mem (b : bounds F64num) pos i j x l u, is_matrix n d pos -> box_dim d b -> b_arr b = true ->
  entry pos i j = Some x -> column b j l u -> ffinite x = true -> ffinite l = true -> ffinite u = true ->
  (2 ^ 56 * Rabs (FR l) < Rabs (FR x))%R -> (2 ^ 56 * Rabs (FR u) < Rabs (FR x))%R -> hangs mem b pos.
Proof.
  intros n d mem b pos i j x l u M B A X C Fx Fl Fu Hl Hu dr. rewrite (reflective_call n d b _ _ _ M B A).
  rewrite (reflective_loop_stuck d b (bd_fuel dr) pos i j x l u B X C); auto.
  assert (SC : forall c, (2 ^ 56 * Rabs (FR c) < Rabs (FR x))%R -> (4 * Rabs (FR c) < Rabs (FR x) * bpow radix2 (-54))%R).
  { intros c Hc. change (bpow radix2 (-54)) with (/ IZR (2 ^ 54))%R. change (2 ^ 54)%Z with 18014398509481984%Z. lra. }
  pose proof (SC l Hl) as Sl. pose proof (SC u Hu) as Su.
  assert (OUT : forall y : f64, ffinite y = true -> Rabs (FR y) = Rabs (FR x) -> (FR y < FR l \/ FR u < FR y)%R).
  { intros y Fy E. assert (Rabs (FR l) < Rabs (FR y))%R by (rewrite E; pose proof (Rabs_pos (FR l)); lra).
    assert (Rabs (FR u) < Rabs (FR y))%R by (rewrite E; pose proof (Rabs_pos (FR u)); lra).
    pose proof (Rle_abs (FR u)). pose proof (Rle_abs (- FR l)). rewrite Rabs_Ropp in H2.
    destruct (Rle_or_lt 0 (FR y)).
    - right. rewrite (Rabs_pos_eq (FR y)) in H, H0 by auto. lra.
    - left. rewrite (Rabs_left (FR y)) in H, H0 by auto. lra. }
  assert (INV : forall k (y : F64num), ffinite y = true -> Rabs (FR y) = Rabs (FR x) ->
     ffinite (it k (fun y => reflect_el (N := F64num) y l u) y) = true /\
     Rabs (FR (it k (fun y => reflect_el (N := F64num) y l u) y)) = Rabs (FR x)).
  { induction k; intros y Fy E; [split; auto|]. cbn [it].
    assert (ffinite (reflect_el (N := F64num) y l u) = true /\ Rabs (FR (reflect_el (N := F64num) y l u)) = Rabs (FR x)).
    { unfold reflect_el, lower, greater. cbn [nlt nsub nmul nofZ F64num]. rewrite <- E in Sl, Su, Hl, Hu.
      destruct (flt y l) eqn:Q1; destruct (flt u y) eqn:Q2; cbv zeta; auto.
      - exfalso. apply (flt_fin y l Fy Fl) in Q1. apply (flt_fin u y Fu Fy) in Q2.
        unfold Rabs in Hl, Hu. destruct (Rcase_abs (FR l)), (Rcase_abs (FR u)), (Rcase_abs (FR y)); lra.
      - destruct (two_minus y l Fy Fl Sl) as [F1 F2]. rewrite F2, Rabs_Ropp. auto.
      - destruct (two_minus y u Fy Fu Su) as [F1 F2]. rewrite F2, Rabs_Ropp. auto. }
    destruct H. apply IHk; auto. }
  intros k [C1 C2]. destruct (INV k x Fx eq_refl) as [F E]. destruct (OUT _ F E) as [O|O].
  - apply (flt_fin _ l F Fl) in O. cbn [nlt F64num] in C1. ftypes. congruence.
  - apply (flt_fin u _ Fu F) in O. cbn [nlt F64num] in C2. ftypes. congruence.
Qed.
Lemma reflective_hangs_inf : forall n d mem (b : bounds F64num) pos i j x l u, is_matrix n d pos -> box_dim d b -> b_arr b = true ->
  entry pos i j = Some x -> column b j l u -> x = finf \/ x = fninf ->
  ffinite l = true -> ffinite u = true -> ffinite (fmul (fofZ 2) l) = true -> ffinite (fmul (fofZ 2) u) = true -> hangs mem b pos.
Proof.
  intros n d mem b pos i j x l u M B A X C Hx Fl Fu F2l F2u dr. rewrite (reflective_call n d b _ _ _ M B A).
  rewrite (reflective_loop_stuck d b (bd_fuel dr) pos i j x l u B X C); auto.
  assert (L1 : flt fninf l = true /\ flt l fninf = false /\ flt finf l = false) by (destruct l as [|[]| |[]]; try discriminate; auto).
  assert (U1 : flt u finf = true /\ flt finf u = false /\ flt u fninf = false) by (destruct u as [|[]| |[]]; try discriminate; auto).
  assert (E1 : fsub (fmul (fofZ 2) l) fninf = finf) by (destruct (fmul (fofZ 2) l); try discriminate; reflexivity).
  assert (E2 : fsub (fmul (fofZ 2) u) finf = fninf) by (destruct (fmul (fofZ 2) u); try discriminate; reflexivity).
  assert (INV : forall k y, y = finf \/ y = fninf -> let z := it k (fun y => reflect_el (N := F64num) y l u) y in z = finf \/ z = fninf).
  { induction k; intros y Hy; [exact Hy|]. cbn [it]. apply IHk. unfold reflect_el, lower, greater. cbn [nlt nsub nmul nofZ F64num].
    destruct Hy; subst y.
    - rewrite (proj2 (proj2 L1)), (proj1 U1), E2. auto.
    - rewrite (proj1 L1), (proj2 (proj2 U1)), E1. auto. }
  intros k [C1 C2]. cbn [nlt F64num] in C1, C2. destruct (INV k x Hx) as [E|E]; ftypes; rewrite E in C1, C2.
  - destruct U1 as (U1 & _). congruence.
  - destruct L1 as (L1 & _). congruence.
Qed.
Lemma reflective_hangs_flat : forall n d mem (b : bounds Rnum) pos i j x l, is_matrix n d pos -> box_dim d b -> b_arr b = true ->
  entry pos i j = Some x -> column b j l l -> x <> l -> hangs mem b pos.
Proof.
  intros n d mem b pos i j x l M B A X C H dr. rewrite (reflective_call n d b _ _ _ M B A).
  rewrite (reflective_loop_stuck d b (bd_fuel dr) pos i j x l l B X C); auto.
  intros k [C1 C2]. pose proof (reflect_flat l k x H) as Q. cbn [nlt Rnum T] in *.
  revert C1 C2. rlt; intros; try discriminate. apply Q. apply Rle_antisym; auto.
Qed.
