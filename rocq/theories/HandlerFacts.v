(** Facts about the boundary and velocity handlers. *)
From Coq Require Import String ZArith List Arith Bool Reals Lra Lia.
From Flocq Require Import Core IEEE754.BinarySingleNaN.
From Verif Require Import Prelude F64 F64Facts F64More Num Np Handlers SpecHandlers ListFacts NpFacts ShapeFacts.
Import ListNotations.
Local Open Scope list_scope.
Local Open Scope nat_scope.

Lemma nth_error_ext2 : forall {A} (l m : list A), length l = length m ->
  (forall i x y, nth_error l i = Some x -> nth_error m i = Some y -> x = y) -> l = m.
Proof.
  intros A l m L H. apply nth_error_ext. intros i. destruct (nth_error l i) as [x|] eqn:X.
  - destruct (nth_error_ex m i) as [y Y]. { rewrite <- L. eapply nth_error_lt; eauto. } rewrite Y. f_equal. eauto.
  - symmetry. apply nth_error_None. apply nth_error_None in X. lia.
Qed.

Lemma nth_map_some : forall {A B} (f : A -> B) l i x, nth_error l i = Some x -> nth_error (map f l) i = Some (f x).
Proof. intros A B f l i x E. rewrite nth_error_map, E. reflexivity. Qed.
Lemma nth_map2_some : forall {A B C} (f : A -> B -> C) l m i x y, nth_error l i = Some x -> nth_error m i = Some y ->
  nth_error (map2 f l m) i = Some (f x y).
Proof. intros A B C f l m i x y E F. rewrite nth_error_map2, E, F. reflexivity. Qed.
Lemma nth_map2_inv : forall {A B C} (f : A -> B -> C) l m i z, nth_error (map2 f l m) i = Some z ->
  exists x y, nth_error l i = Some x /\ nth_error m i = Some y /\ z = f x y.
Proof.
  intros A B C f l m i z H. rewrite nth_error_map2 in H. destruct (nth_error l i) as [x|]; [|discriminate].
  destruct (nth_error m i) as [y|]; [|discriminate]. injection H as <-. exists x, y. auto.
Qed.
Ltac bh_cases strategy :=
  repeat match goal with
  | H : context[String.eqb strategy ?s] |- _ => destruct (String.eqb_spec strategy s)
  end.

Section Gen.
Context {N : Num}.

Lemma entry_row : forall {A} (m : list (list A)) i j x, entry m i j = Some x ->
  exists r, nth_error m i = Some r /\ nth_error r j = Some x.
Proof. unfold entry. intros A m i j x H. destruct (nth_error m i) as [r|]; [eauto | discriminate]. Qed.
Lemma entry_of : forall {A} (m : list (list A)) i j r x, nth_error m i = Some r -> nth_error r j = Some x -> entry m i j = Some x.
Proof. unfold entry. intros A m i j r x E X. rewrite E. exact X. Qed.
Lemma entry_in : forall {A} n d (m : list (list A)) i j, is_matrix n d m -> i < n -> j < d -> exists x, entry m i j = Some x.
Proof.
  intros A n d m i j M I J. unfold entry. destruct (nth_error_ex m i) as [r E]. { destruct M; lia. }
  rewrite E. apply nth_error_ex. rewrite (is_matrix_nth _ _ _ _ _ M E). exact J.
Qed.
Lemma entry_lt : forall {A} n d (m : list (list A)) i j x, is_matrix n d m -> entry m i j = Some x -> i < n /\ j < d.
Proof.
  intros A n d m i j x M H. destruct (entry_row _ _ _ _ H) as (r & E & E2).
  pose proof (nth_error_lt _ _ _ E). pose proof (nth_error_lt _ _ _ E2). rewrite (is_matrix_nth _ _ _ _ _ M E) in *.
  destruct M; lia.
Qed.
Lemma entry_ext : forall {A} n d (m m' : list (list A)), is_matrix n d m -> is_matrix n d m' ->
  (forall i j, i < n -> j < d -> entry m i j = entry m' i j) -> m = m'.
Proof.
  intros A n d m m' M M' H. apply nth_error_ext2; [destruct M, M'; lia|].
  intros i r r' E E'. pose proof (nth_error_lt _ _ _ E) as I.
  apply nth_error_ext2.
  { rewrite (is_matrix_nth _ _ _ _ _ M E), (is_matrix_nth _ _ _ _ _ M' E'). auto. }
  intros j x x' X X'. assert (J : j < d). { rewrite <- (is_matrix_nth _ _ _ _ _ M E). eapply nth_error_lt; eauto. }
  specialize (H i j). unfold entry in H. rewrite E, E', X, X' in H. injection H; auto. destruct M; lia.
Qed.
Lemma column_ex : forall d (b : bounds N) j, box_dim d b -> j < d -> exists l u, column b j l u.
Proof.
  intros d b j [L U] J. destruct (nth_error_ex (b_lb b) j) as [l El]; [lia|].
  destruct (nth_error_ex (b_ub b) j) as [u Eu]; [lia|]. exists l, u. split; auto.
Qed.
Lemma column_fun : forall (b : bounds N) j l u l' u', column b j l u -> column b j l' u' -> l' = l /\ u' = u.
Proof. intros b j l u l' u' [A B] [C D]. split; congruence. Qed.
Lemma fit_box : forall n d (b : bounds N) m, is_matrix n d m -> box_dim d b -> bounds_fit m b = true.
Proof.
  intros n d b m [L F] [A B]. unfold bounds_fit. rewrite A, B, Nat.eqb_refl. simpl.
  apply forallb_forall. intros r I. apply Nat.eqb_eq. rewrite Forall_forall in F. auto.
Qed.
Lemma fit_dims : forall (b : bounds N) m, bounds_fit m b = true -> is_matrix (length m) (length (b_lb b)) m /\ box_dim (length (b_lb b)) b.
Proof. intros b m F. apply bounds_fit_spec in F. destruct F. repeat split; auto. Qed.

(** Elementwise strategies *)
Lemma entry_map3 : forall d (b : bounds N) m (f : N -> N -> N -> N) i j x l u,
  entry m i j = Some x -> column b j l u ->
  box_dim d b -> entry (map (fun r => map3 f r (b_lb b) (b_ub b)) m) i j = Some (f x l u).
Proof.
  intros d b m f i j x l u H [L U] _. destruct (entry_row _ _ _ _ H) as (r & E & E2).
  unfold entry. rewrite nth_error_map, E. simpl. rewrite nth_error_map3, E2, L, U. reflexivity.
Qed.
Lemma map3_matrix : forall n d (b : bounds N) m (f : N -> N -> N -> N), is_matrix n d m -> box_dim d b ->
  is_matrix n d (map (fun r => map3 f r (b_lb b) (b_ub b)) m).
Proof.
  intros n d b m f M B. eapply shape_eq_matrix; [|exact M]. apply bounds_map3_shape. eapply fit_box; eauto.
Qed.

Lemma existsb_map2 : forall (f : N -> N -> bool) r l,
  existsb (fun x => x) (map2 f r l) = true <->
  exists j x y, nth_error r j = Some x /\ nth_error l j = Some y /\ f x y = true.
Proof.
  intros f r l. rewrite existsb_exists. split.
  - intros (t & I & E). subst t. apply In_nth_error in I. destruct I as [j J].
    rewrite nth_error_map2 in J. destruct (nth_error r j) as [x|] eqn:X; [|discriminate].
    destruct (nth_error l j) as [y|] eqn:Y; [|discriminate]. injection J as J. exists j, x, y. auto.
  - intros (j & x & y & X & Y & E). exists true. split; auto. apply nth_error_In with j.
    rewrite nth_error_map2, X, Y, E. reflexivity.
Qed.
Lemma row_lower_spec : forall d (b : bounds N) r, box_dim d b -> (row_lower r b = true <-> below b r).
Proof.
  intros d b r B. unfold row_lower. rewrite existsb_map2. split.
  - intros (j & x & l & X & L & E). destruct (column_ex d b j B) as (l' & u & C).
    { destruct B as [B _]. rewrite <- B. eapply nth_error_lt; eauto. }
    exists j, x, l', u. split; auto. split; auto. destruct C as [C _]. replace l' with l by congruence. exact E.
  - intros (j & x & l & u & X & [L U] & E). exists j, x, l. auto.
Qed.
Lemma row_greater_spec : forall d (b : bounds N) r, box_dim d b -> (row_greater r b = true <-> above b r).
Proof.
  intros d b r B. unfold row_greater. rewrite existsb_map2. split.
  - intros (j & x & u & X & L & E). destruct (column_ex d b j B) as (l & u' & C).
    { destruct B as [_ B]. rewrite <- B. eapply nth_error_lt; eauto. }
    exists j, x, l, u'. split; auto. split; auto. destruct C as [_ C]. replace u' with u by congruence. exact E.
  - intros (j & x & l & u & X & [L U] & E). exists j, x, u. auto.
Qed.
Lemma row_lower_false : forall d (b : bounds N) r, box_dim d b -> (row_lower r b = false <-> ~ below b r).
Proof.
  intros d b r B. rewrite <- (row_lower_spec d b r B). destruct (row_lower r b); split; congruence.
Qed.
Lemma row_greater_false : forall d (b : bounds N) r, box_dim d b -> (row_greater r b = false <-> ~ above b r).
Proof.
  intros d b r B. rewrite <- (row_greater_spec d b r B). destruct (row_greater r b); split; congruence.
Qed.
Lemma any_out_false : forall d (b : bounds N) m, box_dim d b ->
  (any_out m b = false <-> forall i j x l u, entry m i j = Some x -> column b j l u -> nlt x l = false /\ nlt u x = false).
Proof.
  intros d b m B. unfold any_out. split.
  - intros H i j x l u E C. destruct (entry_row _ _ _ _ E) as (r & R & X).
    assert (K : row_lower r b || row_greater r b = false).
    { apply not_true_iff_false. intros K. rewrite <- not_true_iff_false in H. apply H. apply existsb_exists.
      exists r. split; auto. eapply nth_error_In; eauto. }
    apply orb_false_iff in K. destruct K as [K1 K2]. apply (row_lower_false d) in K1; auto. apply (row_greater_false d) in K2; auto.
    split; apply not_true_iff_false; intros Q; [apply K1 | apply K2]; exists j, x, l, u; auto.
  - intros H. apply not_true_iff_false. intros K. apply existsb_exists in K. destruct K as (r & I & K).
    apply In_nth_error in I. destruct I as [i I]. apply orb_true_iff in K. destruct K as [K|K].
    + apply (row_lower_spec d) in K; auto. destruct K as (j & x & l & u & X & C & E).
      destruct (H i j x l u) as [Q _]; auto; [exact (entry_of _ _ _ _ _ I X) | congruence].
    + apply (row_greater_spec d) in K; auto. destruct K as (j & x & l & u & X & C & E).
      destruct (H i j x l u) as [_ Q]; auto; [exact (entry_of _ _ _ _ _ I X) | congruence].
Qed.

(** *** A particle inside the box is never changed *)
Lemma map3_id : forall (b : bounds N) (r : list N) (f : N -> N -> N -> N) d, box_dim d b -> length r = d ->
  (forall j x l u, nth_error r j = Some x -> column b j l u -> f x l u = x) ->
  map3 f r (b_lb b) (b_ub b) = r.
Proof.
  intros b r f d [A B] L H. apply nth_error_ext2. { rewrite map3_length. lia. }
  intros j x y X Y. rewrite nth_error_map3, Y in X.
  destruct (nth_error (b_lb b) j) as [l|] eqn:El; [|discriminate].
  destruct (nth_error (b_ub b) j) as [u|] eqn:Eu; [|discriminate].
  injection X as <-. apply (H j); auto. split; auto.
Qed.
Lemma good_el : forall (b : bounds N) r j x l u, good b r -> nth_error r j = Some x -> column b j l u ->
  nlt x l = false /\ nlt u x = false.
Proof.
  intros b r j x l u [A B] X C. split; apply not_true_iff_false; intros Q; [apply A | apply B]; exists j, x, l, u; auto.
Qed.
Lemma nearest_in : forall x l u : N, nlt x l = false -> nlt u x = false -> nearest_el x l u = x.
Proof. intros x l u A B. unfold nearest_el, lower, greater. rewrite A, B. reflexivity. Qed.
Lemma reflect_in : forall x l u : N, nlt x l = false -> nlt u x = false -> reflect_el x l u = x.
Proof. intros x l u A B. unfold reflect_el, lower, greater. rewrite A, B. reflexivity. Qed.
Lemma periodic_in : forall x l u : N, nlt x l = false -> nlt u x = false -> periodic_el x l u = x.
Proof. intros x l u A B. unfold periodic_el, lower, greater. rewrite A, B. reflexivity. Qed.
Lemma intermediate_in : forall x m l u : N, nlt x l = false -> nlt u x = false -> intermediate_el x m l u = x.
Proof. intros x m l u A B. unfold intermediate_el, lower, greater. rewrite A, B. reflexivity. Qed.

Lemma map_row_id : forall d (b : bounds N) m (f : N -> N -> N -> N) i r, box_dim d b -> length r = d ->
  (forall x l u, nlt x l = false -> nlt u x = false -> f x l u = x) ->
  nth_error m i = Some r -> good b r ->
  nth_error (map (fun r => map3 f r (b_lb b) (b_ub b)) m) i = Some r.
Proof.
  intros d b m f i r B L H E G. rewrite nth_error_map, E. simpl. f_equal. apply map3_id with d; auto.
  intros j x l u X C. destruct (good_el _ _ _ _ _ _ G X C). auto.
Qed.
Lemma reflective_row_id : forall d fuel (b : bounds N) m m' i r, box_dim d b -> length r = d ->
  reflective_loop fuel b m = Ok m' -> nth_error m i = Some r -> good b r -> nth_error m' i = Some r.
Proof.
  induction fuel; simpl; intros b m m' i r B L H E G.
  - destruct (any_out m b); [discriminate|]. injection H as <-. auto.
  - destruct (any_out m b). 2:{ injection H as <-. auto. }
    apply (IHfuel b (reflect_pass b m)); auto. unfold reflect_pass. apply map_row_id with d; auto. apply reflect_in.
Qed.
Lemma row_inside : forall d st dr mem (b : bounds N) m m' mem' i r, box_dim d b -> length r = d ->
  bh_call st dr mem b m = Ok (m', mem') -> nth_error m i = Some r -> good b r -> nth_error m' i = Some r.
Proof.
  unfold bh_call. intros d st dr mem b m m' mem' i r B L H E G.
  assert (RL : row_lower r b = false) by (apply (row_lower_false d); auto; apply G).
  assert (RG : row_greater r b = false) by (apply (row_greater_false d); auto; apply G).
  destruct (negb (bh_known st)); try discriminate.
  destruct (bounds_fit m b) eqn:F; simpl in H; try discriminate.
  bh_cases st; try (apply bind_Ok in H; destruct H as (q & Q & H)); injection H as <- <-.
  - apply map_row_id with d; auto. apply nearest_in.
  - unfold reflective in Q. destruct (_ && _); try discriminate. eapply reflective_row_id; eauto.
  - destruct mem as [mm|]; simpl in Q; [|congruence].
    destruct (negb (b_arr b)); try discriminate.
    destruct (same_shape m mm) eqn:S; simpl in Q; try discriminate. apply shape_eq_iff in S.
    clear F. revert i q E Q. induction S as [|x y m1 mm1 X S IH]; intros i q E Q; [destruct i; discriminate|].
    cbn [combine mapM] in Q. apply bind_Ok in Q. destruct Q as (p & P & Q). apply bind_Ok in Q. destruct Q as (q' & Q' & Q).
    injection Q as <-. destruct i; simpl in *.
    + injection E as ->. unfold shrink_row in P. apply bind_Ok in P. destruct P as (s & _ & P).
      rewrite RL, RG in P. simpl in P. congruence.
    + apply IH; auto.
  - unfold random_bh in Q. destruct (negb _) in Q; try discriminate. injection Q as <-.
    etransitivity; [exact (nth_map_some _ _ _ _ E)|]. cbv beta. rewrite RL, RG. reflexivity.
  - destruct mem as [mm|]; simpl in Q; [|congruence].
    destruct (negb (b_arr b)); try discriminate.
    destruct (same_shape m mm) eqn:S; simpl in Q; try discriminate. injection Q as <-.
    apply same_shape_spec in S. destruct S as [S1 S2].
    destruct (nth_error_ex mm i) as [y Y]. { rewrite <- S1. eapply nth_error_lt; eauto. }
    etransitivity; [exact (nth_map2_some _ _ _ _ _ _ E Y)|]. f_equal. apply nth_error_ext2.
    { pose proof (S2 _ _ _ E Y). rewrite map4_length. destruct B; lia. }
    intros j a c A X. rewrite nth_error_map4, X in A.
    destruct (nth_error y j) as [mj|]; [|discriminate].
    destruct (nth_error (b_lb b) j) as [l|] eqn:El; [|discriminate].
    destruct (nth_error (b_ub b) j) as [u|] eqn:Eu; [|discriminate]. injection A as <-.
    destruct (good_el b r j c l u G X) as [C1 C2]. split; auto. apply intermediate_in; auto.
  - apply map_row_id with d; auto. apply periodic_in.
Qed.
End Gen.
