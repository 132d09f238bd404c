(** Facts about the list combinators of [Prelude]. *)
From Coq Require Import List Arith Bool Lia String.
From Verif Require Import Prelude.
Import ListNotations.

Lemma map2_length : forall {A B C} (f : A -> B -> C) l m,
  List.length (map2 f l m) = Nat.min (List.length l) (List.length m).
Proof. induction l; destruct m; simpl; auto. Qed.
Lemma map3_length : forall {A B C D} (f : A -> B -> C -> D) l m n,
  List.length (map3 f l m n) = Nat.min (List.length l) (Nat.min (List.length m) (List.length n)).
Proof. induction l; destruct m, n; simpl; auto. Qed.
Lemma map4_length : forall {A B C D E} (f : A -> B -> C -> D -> E) l m n o,
  List.length (map4 f l m n o) =
  Nat.min (List.length l) (Nat.min (List.length m) (Nat.min (List.length n) (List.length o))).
Proof. induction l; destruct m, n, o; simpl; auto. Qed.

Lemma nth_error_map2 : forall {A B C} (f : A -> B -> C) l m i,
  nth_error (map2 f l m) i =
  match nth_error l i, nth_error m i with Some a, Some b => Some (f a b) | _, _ => None end.
Proof.
  induction l; destruct m, i; simpl; auto.
  - destruct (nth_error l i); auto.
Qed.
Lemma nth_error_map3 : forall {A B C D} (f : A -> B -> C -> D) l m n i,
  nth_error (map3 f l m n) i =
  match nth_error l i, nth_error m i, nth_error n i with
  | Some a, Some b, Some c => Some (f a b c) | _, _, _ => None end.
Proof.
  induction l; destruct m, n, i; simpl; auto;
   repeat match goal with |- context[nth_error ?x ?i] => destruct (nth_error x i) end; auto.
Qed.
Lemma nth_error_map4 : forall {A B C D E} (f : A -> B -> C -> D -> E) l m n o i,
  nth_error (map4 f l m n o) i =
  match nth_error l i, nth_error m i, nth_error n i, nth_error o i with
  | Some a, Some b, Some c, Some d => Some (f a b c d) | _, _, _, _ => None end.
Proof.
  induction l; destruct m, n, o, i; simpl; auto;
   repeat match goal with |- context[nth_error ?x ?i] => destruct (nth_error x i) end; auto.
Qed.

Lemma nth_error_ext : forall {A} (l m : list A),
  (forall i, nth_error l i = nth_error m i) -> l = m.
Proof.
  induction l; destruct m; intros H; auto.
  - specialize (H 0). discriminate.
  - specialize (H 0). discriminate.
  - f_equal.
    + specialize (H 0). simpl in H. congruence.
    + apply IHl. intros i. apply (H (S i)).
Qed.

Lemma nth_error_lt : forall {A} (l : list A) i x, nth_error l i = Some x -> i < List.length l.
Proof. intros. apply nth_error_Some. congruence. Qed.
Lemma nth_error_ex : forall {A} (l : list A) i, i < List.length l -> exists x, nth_error l i = Some x.
Proof. intros. destruct (nth_error l i) eqn:E; eauto. apply nth_error_None in E. lia. Qed.

Lemma nth_error_repeat : forall {A} (x : A) n i, i < n -> nth_error (repeat x n) i = Some x.
Proof. induction n; destruct i; simpl; intros; try lia; auto. apply IHn. lia. Qed.
Lemma nth_error_repeat_inv : forall {A} (x y : A) n i, nth_error (repeat x n) i = Some y -> y = x.
Proof. induction n; destruct i; simpl; intros H; try discriminate; eauto. congruence. Qed.

Lemma Forall2_len : forall {A B} (R : A -> B -> Prop) l m, Forall2 R l m -> List.length l = List.length m.
Proof. induction 1; simpl; congruence. Qed.

(** mapM *)
Lemma mapM_Ok : forall {A B} (f : A -> res B) l l', mapM f l = Ok l' <-> Forall2 (fun a b => f a = Ok b) l l'.
Proof.
  intros A B f. induction l; simpl; intros l'.
  - split; intros H. injection H as <-. constructor. inversion H; auto.
  - split.
    + unfold bind. destruct (f a) eqn:E; try discriminate. destruct (mapM f l) eqn:E'; try discriminate.
      intros H. injection H as <-. constructor; auto. apply IHl; auto.
    + intros H. inversion H; subst. rewrite H2. simpl. apply IHl in H4. rewrite H4. reflexivity.
Qed.

Lemma mapM_Ok_nth : forall {A B} (f : A -> res B) l l' i a,
  mapM f l = Ok l' -> nth_error l i = Some a -> exists b, nth_error l' i = Some b /\ f a = Ok b.
Proof.
  intros A B f l l' i a H. apply mapM_Ok in H. revert i. induction H; intros [|i] E; simpl in *; try discriminate.
  - injection E as <-. eauto.
  - eauto.
Qed.
Lemma mapM_Ok_nth_inv : forall {A B} (f : A -> res B) l l' i b,
  mapM f l = Ok l' -> nth_error l' i = Some b -> exists a, nth_error l i = Some a /\ f a = Ok b.
Proof.
  intros A B f l l' i b H. apply mapM_Ok in H. revert i. induction H; intros [|i] E; simpl in *; try discriminate.
  - injection E as <-. eauto.
  - eauto.
Qed.
Lemma mapM_length : forall {A B} (f : A -> res B) l l', mapM f l = Ok l' -> List.length l' = List.length l.
Proof. intros. apply mapM_Ok in H. symmetry. eapply Forall2_len; eauto. Qed.
Lemma mapM_ext : forall {A B} (f g : A -> res B) l, (forall a, In a l -> f a = g a) -> mapM f l = mapM g l.
Proof.
  induction l; simpl; intros H; auto. rewrite H by auto. destruct (g a); simpl; auto.
  rewrite IHl; auto.
Qed.
Lemma mapM_pure : forall {A B} (f : A -> B) l, mapM (fun a => Ok (f a)) l = Ok (map f l).
Proof. induction l; simpl; auto. rewrite IHl. reflexivity. Qed.

Lemma bind_Ok : forall {A B} (x : res A) (f : A -> res B) b, bind x f = Ok b -> exists a, x = Ok a /\ f a = Ok b.
Proof. intros A B [a|e] f b H; simpl in H; try discriminate. eauto. Qed.
Lemma of_option_Ok : forall {A} e (o : option A) a, of_option e o = Ok a <-> o = Some a.
Proof. intros A e [x|] a; simpl; split; intros; congruence. Qed.

Ltac bind_inv :=
  repeat match goal with
  | H : bind _ _ = Ok _ |- _ => let a := fresh "a" in let E := fresh "E" in
      apply bind_Ok in H; destruct H as (a & E & H)
  | H : of_option _ _ = Ok _ |- _ => apply of_option_Ok in H
  | H : Ok _ = Ok _ |- _ => injection H; clear H; intros; subst
  | H : Err _ = Ok _ |- _ => discriminate H
  end.

(** Shapes *)
Lemma same_shape_spec : forall {A B} (m : list (list A)) (m' : list (list B)),
  same_shape m m' = true <->
  List.length m = List.length m' /\
  (forall i r r', nth_error m i = Some r -> nth_error m' i = Some r' -> List.length r = List.length r').
Proof.
  intros A B. induction m; destruct m'; unfold same_shape in *; simpl; split; intros H; try discriminate.
  - split; auto. intros [|i]; discriminate.
  - reflexivity.
  - destruct H; discriminate.
  - destruct H; discriminate.
  - apply andb_true_iff in H. destruct H as [H1 H2]. apply andb_true_iff in H2. destruct H2 as [H2 H3].
    destruct (IHm m') as [F _]. rewrite H1, H3 in F. destruct F as [F1 F2]; auto.
    split; [congruence|]. intros [|i] r r' E E'; simpl in *.
    + injection E as <-. injection E' as <-. apply Nat.eqb_eq; auto.
    + eauto.
  - destruct H as [H1 H2]. destruct (IHm m') as [_ G].
    assert (G' : (Datatypes.length m =? Datatypes.length m') &&
      forallb (fun p : list A * list B => Datatypes.length (fst p) =? Datatypes.length (snd p)) (combine m m') = true).
    { apply G. split; [congruence|]. intros i. apply (H2 (S i)). }
    apply andb_true_iff in G'. destruct G' as [G1 G2]. rewrite G1, G2.
    rewrite (H2 0 a l eq_refl eq_refl), Nat.eqb_refl. reflexivity.
Qed.

Lemma same_shape_length : forall {A B} (m : list (list A)) (m' : list (list B)),
  same_shape m m' = true -> List.length m = List.length m'.
Proof. intros A B m m' H. apply same_shape_spec in H. apply H. Qed.

Lemma is_matrix_nth : forall {A} n d (m : list (list A)) i r,
  is_matrix n d m -> nth_error m i = Some r -> List.length r = d.
Proof.
  intros A n d m i r [_ H] E. apply nth_error_In in E. rewrite Forall_forall in H. auto.
Qed.
Lemma is_matrix_same_shape : forall {A B} n d (m : list (list A)) (m' : list (list B)),
  is_matrix n d m -> is_matrix n d m' -> same_shape m m' = true.
Proof.
  intros A B n d m m' H H'. apply same_shape_spec. split.
  - destruct H, H'. congruence.
  - intros. rewrite (is_matrix_nth _ _ _ _ _ H H0), (is_matrix_nth _ _ _ _ _ H' H1). reflexivity.
Qed.
Lemma same_shape_is_matrix : forall {A B} n d (m : list (list A)) (m' : list (list B)),
  same_shape m m' = true -> is_matrix n d m -> is_matrix n d m'.
Proof.
  intros A B n d m m' S H. apply same_shape_spec in S. destruct S as [L S]. split.
  - destruct H. congruence.
  - apply Forall_forall. intros r I. apply In_nth_error in I. destruct I as [i E].
    assert (Hi : i < List.length m) by (rewrite L; eapply nth_error_lt; eauto).
    destruct (nth_error_ex m i Hi) as [r0 E0].
    rewrite <- (S _ _ _ E0 E). eapply is_matrix_nth; eauto.
Qed.

(** Dicts *)
Lemma dget_dset_same : forall {V} (d : dict V) k v, dget (dset d k v) k = Some v.
Proof.
  induction d as [|[k' v'] d]; simpl; intros.
  - rewrite String.eqb_refl. reflexivity.
  - destruct (String.eqb k k') eqn:E; simpl; rewrite E; auto.
Qed.
Lemma dget_dset_other : forall {V} (d : dict V) k k' v, k <> k' -> dget (dset d k v) k' = dget d k'.
Proof.
  induction d as [|[k0 v0] d]; simpl; intros.
  - destruct (String.eqb_spec k' k); congruence.
  - destruct (String.eqb_spec k k0); simpl.
    + subst. destruct (String.eqb_spec k' k0); congruence.
    + rewrite IHd by assumption. reflexivity.
Qed.
Lemma dkeys_dset : forall {V} (d : dict V) k v, In k (dkeys d) -> dkeys (dset d k v) = dkeys d.
Proof.
  unfold dkeys. induction d as [|[k0 v0] d]; simpl; intros k v H; [tauto|].
  destruct (String.eqb_spec k k0); simpl; auto. f_equal. apply IHd. destruct H; congruence.
Qed.
Lemma dget_In : forall {V} (d : dict V) k, In k (dkeys d) <-> dget d k <> None.
Proof.
  unfold dkeys. induction d as [|[k0 v0] d]; simpl; intros k; [tauto|].
  destruct (String.eqb_spec k k0).
  - split; intros; subst; auto. discriminate.
  - rewrite <- IHd. split; intros H; auto. destruct H; congruence.
Qed.
