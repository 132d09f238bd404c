(** Which arguments the constructors accept (C65). *)
From Coq Require Import String ZArith List Arith Bool Lia.
From Verif Require Import Prelude ListFacts F64 F64Facts Num Np Handlers Swarms Operators Generators Topology Optimizers Spec SpecHandlers SpecDyn SpecRun
  ShapeFacts HandlerFacts GenFacts.
Import ListNotations.
Local Open Scope string_scope.
Local Open Scope list_scope.
Local Open Scope nat_scope.

Definition okay {A} (r : res A) : Prop := exists a, r = Ok a.
Lemma bind_okay : forall A B (r : res A) (f : A -> res B), okay (bind r f) <-> exists a, r = Ok a /\ okay (f a).
Proof.
  intros A B r f. split.
  - intros (b & E). apply bind_Ok in E. destruct E as (a & -> & E). exists a. split; [reflexivity|]. exists b. exact E.
  - intros (a & -> & H). exact H.
Qed.
Lemma forallb_map2 : forall A B (f : A -> B -> bool) l k, forallb (fun x => x) (map2 f l k) = true <->
  forall j x y, nth_error l j = Some x -> nth_error k j = Some y -> f x y = true.
Proof.
  intros A B f l. induction l as [|a l IH]; intros [|b k]; cbn; split; auto; try (intros _ [|j]; discriminate).
  - intros H [|j] x y X Y; apply andb_prop in H; destruct H as [H1 H2]; [injection X as <-; injection Y as <-; exact H1|]. exact (proj1 (IH k) H2 j x y X Y).
  - intros H. apply andb_true_intro. split; [exact (H 0 a b eq_refl eq_refl)|]. apply IH. intros j. exact (H (S j)).
Qed.
Lemma all_within_inside : forall (b : bounds F64num) (p : fmatrix), length (b_lb b) = length (b_ub b) -> Forall (fun r => length r = length (b_lb b)) p ->
  (all_within b p = true <-> all_inside b p).
Proof.
  intros b p LB LR. unfold all_within. rewrite andb_true_iff, !forallb_forall. rewrite Forall_forall in LR. split.
  - intros [H1 H2] i j x l u E [CL CU]. destruct (entry_row _ _ _ _ E) as (r & R & X). apply nth_error_In in R. split.
    + exact (proj1 (forallb_map2 _ _ _ _ _) (H1 r R) j l x CL X).
    + exact (proj1 (forallb_map2 _ _ _ _ _) (H2 r R) j x u X CU).
  - intros H. split; intros r R; pose proof (LR r R) as L; apply In_nth_error in R; destruct R as (i & R); apply forallb_map2; intros j x y X Y.
    + destruct (nth_error_ex (b_ub b) j) as (u & U); [apply nth_error_lt in X; unfold row in *; cbn [T F64num] in *; lia|]. exact (proj1 (H i j y x u (entry_of _ _ _ _ _ R Y) (conj X U))).
    + destruct (nth_error_ex (b_lb b) j) as (l & U); [apply nth_error_lt in Y; unfold row in *; cbn [T F64num] in *; lia|]. exact (proj2 (H i j x l y (entry_of _ _ _ _ _ R X) (conj U Y))).
Qed.
Lemma swarm_okay : forall n d b center init u, okay (generate_swarm n d b center init u) <->
  (forall b', b = Some b' -> forall p, init = Some p -> length (b_lb b') = length (b_ub b') /\ Forall (fun r => length r = length (b_lb b')) p /\ all_inside b' p) /\
  (forall b', b = Some b' -> init = None -> box_dim d b' /\ forall j l u, column b' j l u -> ffinite (fsub u l) = true) /\
  (init = None -> length center = d).
Proof.
  intros n d b center init u. unfold generate_swarm. destruct init as [p|], b as [b|].
  - unfold bounds_fit. split.
    + intros (m & E). destruct (Nat.eqb (length (b_lb b)) (length (b_ub b))) eqn:E1; [|discriminate]. apply Nat.eqb_eq in E1.
      destruct (forallb (fun r => Nat.eqb (length r) (length (b_lb b))) p) eqn:E2; [|discriminate]. cbn in E.
      destruct (all_within b p) eqn:E3; [|discriminate].
      assert (LR : Forall (fun r => length r = length (b_lb b)) p). { apply Forall_forall. intros r R. rewrite forallb_forall in E2. apply Nat.eqb_eq. auto. }
      split; [|split; discriminate]. intros b' Q p' Q'. injection Q as <-. injection Q' as <-. split; [exact E1|]. split; [exact LR|]. apply all_within_inside; auto.
    + intros (H & _). destruct (H b eq_refl p eq_refl) as (H1 & H2 & H3). rewrite (proj2 (Nat.eqb_eq _ _) H1).
      assert (E2 : forallb (fun r => Nat.eqb (length r) (length (b_lb b))) p = true). { apply forallb_forall. intros r R. rewrite Forall_forall in H2. apply Nat.eqb_eq. auto. }
      rewrite (proj2 (all_within_inside b p H1 H2) H3). cbn [negb andb]. unfold row in *. cbn [T F64num] in *. rewrite E2. cbn. exists p. reflexivity.
  - split; [|intros _; exists p; reflexivity]. intros _. repeat split; discriminate.
  - split.
    + intros (m & E). destruct (Nat.eqb (length center) d) eqn:E1; [|discriminate]. destruct (Nat.eqb (length (b_lb b)) d) eqn:E2; [|discriminate].
      destruct (Nat.eqb (length (b_ub b)) d) eqn:E3; [|discriminate]. cbn [negb andb] in E. apply Nat.eqb_eq in E1, E2, E3.
      destruct (forallb (fun x => x) (map2 (fun l h => ffinite (fsub h l)) (b_lb b) (b_ub b))) eqn:E4; [|discriminate].
      split; [discriminate|]. split; [|auto]. intros b' Q _. injection Q as <-. split; [split; auto|]. intros j l h [A B]. exact (proj1 (forallb_map2 _ _ _ _ _) E4 j l h A B).
    + intros (_ & H & HC). destruct (H b eq_refl eq_refl) as ([H1 H2] & H3). specialize (HC eq_refl).
      rewrite (proj2 (Nat.eqb_eq _ _) H1), (proj2 (Nat.eqb_eq _ _) H2), (proj2 (Nat.eqb_eq _ _) HC). cbn [negb andb].
      assert (E4 : forallb (fun x => x) (map2 (fun l h => ffinite (fsub h l)) (b_lb b) (b_ub b)) = true) by (apply forallb_map2; intros j x y X Y; exact (H3 j x y (conj X Y))).
      rewrite E4. eexists. reflexivity.
  - split.
    + intros (m & E). destruct (Nat.eqb (length center) d) eqn:E1; [|discriminate]. apply Nat.eqb_eq in E1. split; [discriminate|]. split; [discriminate|auto].
    + intros (_ & _ & HC). rewrite (proj2 (Nat.eqb_eq _ _) (HC eq_refl)). eexists. reflexivity.
Qed.
Lemma velocity_okay : forall d clamp u, okay (generate_velocity d clamp u) <-> forall cl, clamp = Some cl -> length (fst cl) = d /\ length (snd cl) = d.
Proof.
  intros d clamp u. unfold generate_velocity. destruct clamp as [[mn mx]|].
  - split.
    + intros (m & E) cl Q. injection Q as <-. cbn. destruct (Nat.eqb (length mn) d) eqn:E1; [|discriminate]. destruct (Nat.eqb (length mx) d) eqn:E2; [|discriminate].
      apply Nat.eqb_eq in E1, E2. auto.
    + intros H. destruct (H _ eq_refl) as [H1 H2]. cbn in H1, H2. apply Nat.eqb_eq in H1, H2. unfold row in *; cbn [T F64num] in *. rewrite H1, H2. eexists. reflexivity.
  - split; [discriminate|]. intros _. rewrite !repeat_length, Nat.eqb_refl. eexists. reflexivity.
Qed.
Lemma discrete_okay : forall bits u init, (forall p i j x, init = Some p -> entry p i j = Some x -> fisnan x = false) ->
  (okay (generate_discrete_swarm true init bits u) <-> forall p, init = Some p -> two_valued p).
Proof.
  intros bits u [p|] N.
  - destruct (discrete_init bits u p) as (A & B & _); [intros i j x; apply N; reflexivity|]. split.
    + intros (m & E) p' Q. injection Q as <-. 
      assert (D : Nat.leb (length (uniq (concat p))) 2 = true). { unfold generate_discrete_swarm in E. destruct (Nat.leb _ 2); [reflexivity|discriminate]. }
      destruct (uniq_two p) as [U _]; [intros i j x; apply N; reflexivity|]. apply U. apply Nat.leb_le. exact D.
    + intros H. exists p. apply A. apply H. reflexivity.
  - split; [discriminate|]. intros _. eexists. reflexivity.
Qed.
Lemma create_okay : forall n d di bi o b center init clamp dr, okay (create_swarm n d di bi o b center init clamp dr) <->
  okay (if di then generate_discrete_swarm bi init (cd_bits dr) (cd_pos dr) else generate_swarm n d b center init (cd_pos dr)) /\ okay (generate_velocity d clamp (cd_vel dr)).
Proof.
  intros. unfold create_swarm. rewrite bind_okay. split.
  - intros (p & -> & H). rewrite bind_okay in H. destruct H as (v & -> & _). split; eexists; reflexivity.
  - intros [(p & ->) (v & ->)]. exists p. split; [reflexivity|]. rewrite bind_okay. exists v. split; [reflexivity|]. eexists. reflexivity.
Qed.
Lemma accepted : forall c top dr, (c_kind c = Binary -> forall p i j x, c_init c = Some p -> entry p i j = Some x -> fisnan x = false) ->
  ((exists o, construct c top dr = Ok o) <-> accepts c).
Proof.
  intros c top dr N. change (exists o, construct c top dr = Ok o) with (okay (construct c top dr)). unfold construct.
  assert (K : okay (match c_kind c with LocalBest | Binary => do _ <- of_option KeyError (dget (c_options c) "k"); of_option KeyError (dget (c_options c) "p") | _ => Ok (PInt (N := F64num) 0) end)
     <-> (c_kind c = LocalBest \/ c_kind c = Binary -> dget (c_options c) "k" <> None /\ dget (c_options c) "p" <> None)).
  { assert (G : okay (do _ <- of_option KeyError (dget (c_options c) "k"); of_option KeyError (dget (c_options c) "p")) <-> dget (c_options c) "k" <> None /\ dget (c_options c) "p" <> None).
    { destruct (dget (c_options c) "k") as [a|], (dget (c_options c) "p") as [b|]; cbn [of_option bind]; split; intros H; try (split; congruence); try (eexists; reflexivity);
        try (destruct H as (z & H); discriminate); destruct H as [H1 H2]; congruence. }
    destruct (c_kind c); [split; [intros _ [Q|Q]; discriminate|intros _; eexists; reflexivity]| |split; [intros _ [Q|Q]; discriminate|intros _; eexists; reflexivity]|];
      (rewrite G; split; [auto|intros H; apply H; auto]). }
  assert (MS : okay (make_swarm c dr) <-> (c_kind c = Binary -> forall p, c_init c = Some p -> two_valued p) /\
     (c_kind c <> Binary -> forall b p, c_bounds c = Some b -> c_init c = Some p -> length (b_lb b) = length (b_ub b) /\ Forall (fun r => length r = length (b_lb b)) p /\ all_inside b p) /\
     (c_kind c <> Binary -> forall b, c_bounds c = Some b -> c_init c = None -> box_dim (c_d c) b /\ forall j l u, column b j l u -> ffinite (fsub u l) = true) /\
     (c_kind c <> Binary -> c_init c = None -> length (c_center c) = c_d c) /\ (forall cl, c_clamp c = Some cl -> length (fst cl) = c_d c /\ length (snd cl) = c_d c)).
  { unfold make_swarm. assert (D : c_kind c = Binary \/ c_kind c <> Binary) by (destruct (c_kind c); auto; right; discriminate). destruct D as [D|D].
    - rewrite D, create_okay, velocity_okay, discrete_okay by (intros; eapply N; eauto). intuition congruence.
    - assert (E : match c_kind c with Binary => create_swarm (c_n c) (c_d c) true true (c_options c) None (repeat fone (c_d c)) (c_init c) (c_clamp c) dr
        | _ => create_swarm (c_n c) (c_d c) false false (c_options c) (c_bounds c) (c_center c) (c_init c) (c_clamp c) dr end
        = create_swarm (c_n c) (c_d c) false false (c_options c) (c_bounds c) (c_center c) (c_init c) (c_clamp c) dr) by (destruct (c_kind c); congruence).
      rewrite E, create_okay, velocity_okay, swarm_okay. split.
      + intros ((A1 & A2 & A3) & A4). split; [congruence|]. split; [intros _ b p Hb Hp; exact (A1 b Hb p Hp)|]. auto.
      + intros (_ & A1 & A2 & A3 & A4). split; [|exact A4]. split; [intros b Hb p Hp; exact (A1 D b p Hb Hp)|]. auto. }
  rewrite bind_okay. unfold accepts. split.
  - intros (z & Ez & H). destruct (Nat.eqb (c_ftol_iter c) 0) eqn:E0; [destruct H; discriminate|]. apply Nat.eqb_neq in E0.
    rewrite bind_okay in H. destruct H as (s & Es & _). pose proof (proj1 MS (ex_intro _ s Es)) as (B1 & B2 & B3 & B4 & B5).
    split; [apply K; exists z; exact Ez|]. split; [lia|]. auto.
  - intros (A1 & A2 & A3 & A4 & A5 & A6 & A7). apply K in A1. destruct A1 as (z & Ez). exists z. split; [exact Ez|].
    assert (E0 : Nat.eqb (c_ftol_iter c) 0 = false) by (apply Nat.eqb_neq; lia). rewrite E0, bind_okay.
    assert (M2 : okay (make_swarm c dr)) by (apply MS; auto). destruct M2 as (s & Es). exists s. split; [exact Es|]. eexists. reflexivity.
Qed.
