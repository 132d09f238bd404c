(** Domain checks of the bundled objectives (C47). *)
From Coq Require Import String ZArith List Arith Bool Reals Lia.
From Verif Require Import Prelude ListFacts F64 F64Facts Num Np Handlers Swarms Operators Generators Topology Optimizers Spec
  RunFacts RunMisc PbestFacts BinFacts Objectives SpecObj.
Import ListNotations.
Local Open Scope string_scope.
Local Open Scope list_scope.

Section Gen.
Context {N : Num}.
Variable m : mathlib N.
Implicit Types X : list (list N).

(** What a bundled function does, row by row. *)
Definition row_ok (name : string) (d : nat) (r : list N) : bool :=
  let is := String.eqb name in
  let b lo hi := forallb (between lo hi) r in
  if is "ackley" then b (nofZ (-32)) (nofZ 32)
  else if is "beale" then b (ndec (-45) 10) (ndec 45 10)
  else if is "bukin6" then between (nofZ (-15)) (nofZ (-5)) (col 0 r) && between (nofZ (-3)) (nofZ 3) (col 1 r)
  else if is "easom" || is "schaffer2" then b (nofZ (-100)) (nofZ 100)
  else if is "eggholder" then b (nofZ (-512)) (nofZ 512)
  else if is "goldstein" then b (nofZ (-2)) (nofZ 2)
  else if is "himmelblau" || is "threehump" then b (nofZ (-5)) (nofZ 5)
  else if is "rastrigin" then b (ndec (-512) 100) (ndec 512 100)
  else if is "rosenbrock" || is "sphere" then true
  else b (nofZ (-10)) (nofZ 10).
Definition row_value (name : string) (d : nat) : list N -> N :=
  let is := String.eqb name in
  if is "ackley" then ackley_row m d else if is "beale" then beale_row m else if is "booth" then booth_row
  else if is "bukin6" then bukin6_row m else if is "crossintray" then crossintray_row m else if is "easom" then easom_row m
  else if is "eggholder" then eggholder_row m else if is "goldstein" then goldstein_row else if is "himmelblau" then himmelblau_row
  else if is "holdertable" then holdertable_row m else if is "levi" then levi_row m else if is "matyas" then matyas_row
  else if is "rastrigin" then rastrigin_row m d else if is "rosenbrock" then rosenbrock_row m else if is "schaffer2" then schaffer2_row m
  else if is "sphere" then sphere_row m else threehump_row m.
Lemma forallb_and : forall A (f g : A -> bool) l, forallb (fun x => f x && g x) l = forallb f l && forallb g l.
Proof. induction l as [|a l IH]; simpl; auto. rewrite IH. destruct (f a), (g a), (forallb f l), (forallb g l); reflexivity. Qed.
Lemma two_checks : forall (a b : bool) (v : list N),
  (if negb a then Err ValueError else if negb b then Err ValueError else Ok v) = if negb (a && b) then Err ValueError else Ok v.
Proof. intros [] [] v; reflexivity. Qed.
(** Every bundled function: dimension check, domain check, one value per row. *)
Lemma bundled_shape : forall name f, In (name, f) (bundled m) -> forall d X,
  f d X = if negb (any_dimension name) && negb (Nat.eqb d 2) then Err IndexError
          else if negb (forallb (row_ok name d) X) then Err ValueError
          else if String.eqb name "ackley" && Nat.eqb d 0 then Err ZeroDivisionError
          else Ok (map (row_value name d) X).
Proof.
  intros name f I d X. unfold bundled in I. cbn [In] in I.
  repeat (destruct I as [I|I]; [injection I as <- <-; cbn -[between col]; 
    try (destruct d as [|[|[|d]]]; reflexivity);
    try (destruct d; reflexivity); try reflexivity |]); try contradiction I.
  - unfold bukin6, col_within. destruct (Nat.eqb d 2); [|reflexivity]. cbn [negb andb]. rewrite two_checks. rewrite <- forallb_and. reflexivity.
  - assert (E : forallb (row_ok "rosenbrock" d) X = true) by (clear; induction X; auto). rewrite E. reflexivity.
  - assert (E : forallb (row_ok "sphere" d) X = true) by (clear; induction X; auto). rewrite E. reflexivity.
Qed.
Lemma forallb_false_ex : forall A (f : A -> bool) l, forallb f l = false -> exists i x, nth_error l i = Some x /\ f x = false.
Proof.
  induction l as [|a l IH]; simpl; intros H; [discriminate|]. destruct (f a) eqn:E.
  - destruct (IH H) as (i & x & X & F). exists (S i), x. auto.
  - exists 0, a. auto.
Qed.
Lemma forallb_nth : forall A (f : A -> bool) l i x, forallb f l = true -> nth_error l i = Some x -> f x = true.
Proof. intros A f l i x H X. rewrite forallb_forall in H. apply H. eapply nth_error_In; eauto. Qed.
Lemma between_spec : forall lo hi x : N, between lo hi x = false <-> nle lo x = false \/ nle x hi = false.
Proof. intros. unfold between. destruct (nle lo x), (nle x hi); simpl; intuition congruence. Qed.
(** A row fails exactly when one of its coordinates is not inside its domain. *)
Lemma row_outside : forall name f d (r : list N), In (name, f) (bundled m) -> ~ wrong_dimension name d -> length r = d ->
  (row_ok name d r = false <-> exists j x lo hi, nth_error r j = Some x /\ domain name j = Some (lo, hi) /\
     (nle (literal lo) x = false \/ nle x (literal hi) = false)).
Proof.
  intros name f d r I W L.
  assert (G : forall lo hi, (forall j, domain name j = Some (lo, hi)) -> (forallb (between (literal lo) (literal hi)) r = false <->
    exists j x lo hi, nth_error r j = Some x /\ domain name j = Some (lo, hi) /\ (nle (literal lo) x = false \/ nle x (literal hi) = false))).
  { intros lo hi D. split.
    - intros H. destruct (forallb_false_ex _ _ _ H) as (j & x & X & B). apply between_spec in B. exists j, x, lo, hi. auto.
    - intros (j & x & lo' & hi' & X & D' & B). rewrite D in D'. injection D' as <- <-.
      destruct (forallb (between (literal lo) (literal hi)) r) eqn:E; auto. apply between_spec in B.
      rewrite (forallb_nth _ _ _ _ _ E X) in B. discriminate. }
  assert (GN : (forall j, domain name j = None) -> (false = true <->
    exists j x lo hi, nth_error r j = Some x /\ domain name j = Some (lo, hi) /\ (nle (literal lo) x = false \/ nle x (literal hi) = false))).
  { intros D. split; [discriminate|]. intros (j & x & lo & hi & _ & D' & _). rewrite D in D'. discriminate. }
  unfold bundled in I. cbn [In] in I.
  repeat (destruct I as [I|I]; [injection I as <- _;
    first [ solve [ eapply (G _ _ (fun _ => eq_refl)) ] | solve [ cbn; rewrite <- GN by reflexivity; intuition discriminate ] | idtac ] |]); try contradiction I.
  (* bukin6 *)
  assert (E : d = 2). { destruct (Nat.eq_dec d 2); auto. exfalso. apply W. split; auto. }
  subst d. destruct r as [|x [|y [|? ?]]]; try discriminate.
  change (row_ok "bukin6" 2 [x; y]) with (between (nofZ (-15)) (nofZ (-5)) x && between (nofZ (-3)) (nofZ 3) y). split.
  - intros H. apply andb_false_iff in H. destruct H as [H|H]; apply between_spec in H.
    + exists 0, x. eexists _, _. split; [reflexivity|]. split; [reflexivity|]. exact H.
    + exists 1, y. eexists _, _. split; [reflexivity|]. split; [reflexivity|]. exact H.
  - intros (j & z & lo & hi & Z0 & D & B). destruct j as [|[|j]]; cbn in Z0, D; try (destruct j; discriminate).
    + injection Z0 as <-. injection D as <- <-. apply between_spec in B. apply andb_false_iff. left. exact B.
    + injection Z0 as <-. injection D as <- <-. apply between_spec in B. apply andb_false_iff. right. exact B.
Qed.
Lemma rows_outside : forall name f d n X, In (name, f) (bundled m) -> ~ wrong_dimension name d -> is_matrix n d X ->
  (forallb (row_ok name d) X = false <-> outside name X).
Proof.
  intros name f d n X I W [_ M]. rewrite Forall_forall in M. split.
  - intros H. destruct (forallb_false_ex _ _ _ H) as (i & r & R & B).
    destruct (proj1 (row_outside name f d r I W (M _ (nth_error_In _ _ R))) B) as (j & x & lo & hi & Q). exists i, r, j, x, lo, hi. intuition.
  - intros (i & r & j & x & lo & hi & R & Q). destruct (forallb (row_ok name d) X) eqn:E; auto.
    pose proof (proj2 (row_outside name f d r I W (M _ (nth_error_In _ _ R))) (ex_intro _ j (ex_intro _ x (ex_intro _ lo (ex_intro _ hi Q))))) as B.
    rewrite (forallb_nth _ _ _ _ _ E R) in B. discriminate.
Qed.
Lemma wrong_dec : forall name d, negb (any_dimension name) && negb (Nat.eqb d 2) = true <-> wrong_dimension name d.
Proof.
  intros. unfold wrong_dimension. destruct (any_dimension name); simpl; [intuition discriminate|].
  destruct (Nat.eqb_spec d 2); simpl; intuition discriminate.
Qed.
Lemma objective_wrong : forall name f d X, In (name, f) (bundled m) -> wrong_dimension name d -> f d X = Err IndexError.
Proof. intros name f d X I W. rewrite (bundled_shape name f I). apply wrong_dec in W. rewrite W. reflexivity. Qed.
Lemma right_shape : forall name f d X, In (name, f) (bundled m) -> ~ wrong_dimension name d ->
  f d X = if negb (forallb (row_ok name d) X) then Err ValueError
          else if String.eqb name "ackley" && Nat.eqb d 0 then Err ZeroDivisionError
          else Ok (map (row_value name d) X).
Proof.
  intros name f d X I W. rewrite (bundled_shape name f I).
  destruct (negb (any_dimension name) && negb (Nat.eqb d 2)) eqn:E; auto. apply wrong_dec in E. contradiction.
Qed.
Lemma objective_outside : forall name f n d X, In (name, f) (bundled m) -> ~ wrong_dimension name d -> is_matrix n d X -> outside name X ->
  f d X = Err ValueError.
Proof.
  intros name f n d X I W M O. rewrite (right_shape name f d X I W). apply (rows_outside name f d n X I W M) in O. rewrite O. reflexivity.
Qed.
Lemma objective_value : forall name f n d X, In (name, f) (bundled m) -> ~ wrong_dimension name d -> is_matrix n d X -> ~ outside name X ->
  (name = "ackley" /\ d = 0 /\ f d X = Err ZeroDivisionError) \/
  exists costs, f d X = Ok costs /\ length costs = n /\
    forall i r, nth_error X i = Some r -> exists c, nth_error costs i = Some c /\ f d [r] = Ok [c].
Proof.
  intros name f n d X I W M O. rewrite (right_shape name f d X I W).
  assert (E : forallb (row_ok name d) X = true).
  { destruct (forallb (row_ok name d) X) eqn:E; auto. exfalso. apply O. apply (rows_outside name f d n X I W M). exact E. }
  rewrite E. cbn [negb]. destruct (String.eqb name "ackley" && Nat.eqb d 0) eqn:Z0.
  - left. apply andb_prop in Z0. destruct Z0 as [Z1 Z2]. apply String.eqb_eq in Z1. apply Nat.eqb_eq in Z2. auto.
  - right. eexists. split; [reflexivity|]. destruct M as [LN M]. split; [rewrite map_length; exact LN|].
    intros i r R. exists (row_value name d r). split; [rewrite nth_error_map, R; reflexivity|].
    rewrite (right_shape name f d [r] I W). cbn [forallb]. rewrite (forallb_nth _ _ _ _ _ E R), Z0. reflexivity.
Qed.
Lemma objective_rows : forall name f d, In (name, f) (bundled m) -> ~ wrong_dimension name d -> (name = "ackley" -> 1 <= d) ->
  exists g : list N -> res N, forall X, f d X = mapM g X.
Proof.
  intros name f d I W A.
  assert (Z0 : String.eqb name "ackley" && Nat.eqb d 0 = false).
  { destruct (String.eqb_spec name "ackley"); auto. specialize (A e). destruct d; [lia|reflexivity]. }
  exists (fun r => if negb (row_ok name d r) then Err ValueError else Ok (row_value name d r)). intros X.
  rewrite (right_shape name f d X I W), Z0. induction X as [|r X IH]; [reflexivity|]. cbn [forallb mapM map].
  destruct (row_ok name d r); [|reflexivity]. cbn [negb andb bind]. rewrite <- IH. destruct (forallb (row_ok name d) X); reflexivity.
Qed.
End Gen.

(** At binary64: row-wise, and only finite coordinates are accepted where a domain is given. *)
Lemma objective_rowwise : forall (m : mathlib F64num) name f d, In (name, f) (bundled m) -> ~ wrong_dimension name d -> (name = "ackley" -> 1 <= d) ->
  rowwise (f d).
Proof. intros m name f d I W A. destruct (objective_rows m name f d I W A) as (g & G). exists g. exact G. Qed.
Lemma literal_finite : forall name f (m : mathlib F64num) j lo hi, In (name, f) (bundled m) -> domain name j = Some (lo, hi) ->
  ffinite (literal (N := F64num) lo) = true /\ ffinite (literal (N := F64num) hi) = true.
Proof.
  intros name f m j lo hi I D. unfold bundled in I. cbn [In] in I.
  repeat (destruct I as [I|I]; [injection I as <- _; destruct j; cbn in D; try discriminate; injection D as <- <-; split; vm_compute; reflexivity|]). contradiction I.
Qed.
Lemma accepted_finite : forall (m : mathlib F64num) name f d X costs, In (name, f) (bundled m) -> name <> "rosenbrock" -> name <> "sphere" ->
  Forall (fun r => length r = d) X -> f d X = Ok costs -> forall i r j (x : f64), nth_error X i = Some r -> nth_error r j = Some x -> ffinite x = true.
Proof.
  intros m name f d X costs I NR NS M H i r j x R Xx.
  assert (W : ~ wrong_dimension name d). { intros W. rewrite (objective_wrong m name f d X I W) in H. discriminate. }
  rewrite (right_shape m name f d X I W) in H. destruct (forallb (row_ok name d) X) eqn:E; [|discriminate].
  assert (D : exists lo hi, domain name j = Some (lo, hi)).
  { unfold bundled in I. cbn [In] in I.
    repeat (destruct I as [I|I]; [injection I as <- _; try congruence; destruct j; eexists _, _; reflexivity|]). contradiction I. }
  destruct D as (lo & hi & D). destruct (literal_finite name f m j lo hi I D) as [F1 F2].
  assert (B : nle (n := F64num) (literal lo) x = true /\ nle (n := F64num) x (literal hi) = true).
  { destruct (nle (n := F64num) (literal lo) x) eqn:B1; [destruct (nle (n := F64num) x (literal hi)) eqn:B2; auto|]; exfalso.
    all: rewrite (proj2 (rows_outside m name f d (length X) X I W (conj eq_refl M))) in E; [discriminate|]; exists i, r, j, x, lo, hi; auto. }
  destruct B as [B1 B2]. change (fle (literal (N := F64num) lo) x = true) in B1. change (fle x (literal (N := F64num) hi) = true) in B2.
  revert B1 B2 F1 F2. generalize (literal (N := F64num) lo), (literal (N := F64num) hi). intros a b B1 B2 F1 F2.
  clear -B1 B2 F1 F2. destruct x as [s|s| |s mm e W]; try reflexivity.
  - destruct s.
    + destruct a as [|s| |]; try discriminate; destruct s; discriminate.
    + destruct b as [|s| |]; try discriminate; destruct s; discriminate.
  - destruct a as [|s| |]; discriminate.
Qed.
