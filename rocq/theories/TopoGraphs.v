(** Nearest-neighbour coverage, Delannoy numbers, and the random graph. *)
From Coq Require Import ZArith List Arith Bool Lia Reals Lra FinFun.
From Verif Require Import Prelude ListFacts F64 Num Generators Topology Optimizers Spec.
Import ListNotations.
Local Close Scope R_scope.
Local Open Scope nat_scope.

(** *** C07 *)
Lemma knn_self : forall dist k X rows i row,
  (forall x, dist x x = 0%R) -> (forall x y, (0 <= dist x y)%R) ->
  knn_contract dist k X rows -> at_most_coincide dist k X -> nth_error rows i = Some row -> In i row.
Proof.
  intros dist k X rows i row D0 DP [L K] A E.
  destruct (nth_error_ex X i) as [xi Ei]. { apply nth_error_lt in E. lia. }
  destruct (K _ _ _ E Ei) as (ND & LK & B & M).
  destruct (in_dec Nat.eq_dec i row) as [|NI]; auto. exfalso.
  assert (Q : length (i :: row) <= k).
  { eapply A; eauto. constructor; auto. intros j [<-|Ij].
    - exists xi. auto.
    - destruct (nth_error_ex X j) as [xj Ej]; auto. exists xj. split; auto.
      pose proof (M j i xj xi Ij NI Ej Ei) as Hle. rewrite D0 in Hle. pose proof (DP xi xj). lra. }
  cbn in Q. lia.
Qed.
Lemma knn_covers : forall dist k X rows,
  (forall x, dist x x = 0%R) -> (forall x y, (0 <= dist x y)%R) ->
  knn_contract dist k X rows -> at_most_coincide dist k X -> covers (length X) rows.
Proof.
  intros dist k X rows D0 DP K A a Ha. destruct K as [L K]. destruct (nth_error_ex rows a) as [row E]. lia.
  exists row. split. eapply nth_error_In; eauto. eapply knn_self; eauto. split; eauto.
Qed.

(** *** C30 *)
Lemma delannoy_S : forall d r, delannoy (S d) (S r) = delannoy d (S r) + delannoy d r + delannoy (S d) r.
Proof. reflexivity. Qed.
Lemma delannoy_r0 : forall d, delannoy d 0 = 1. Proof. destruct d; reflexivity. Qed.
Lemma delannoy_d0 : forall r, delannoy 0 r = 1. Proof. destruct r; reflexivity. Qed.
Lemma delannoy_pos : forall d r, 1 <= delannoy d r.
Proof.
  induction d; intros [|r]; rewrite ?delannoy_d0, ?delannoy_r0; auto. rewrite delannoy_S. specialize (IHd r). lia.
Qed.
Lemma delannoy_sym : forall d r, delannoy d r = delannoy r d.
Proof.
  induction d; intros r. rewrite delannoy_d0, delannoy_r0; auto.
  induction r. rewrite delannoy_d0, delannoy_r0; auto.
  rewrite (delannoy_S d r), (delannoy_S r d), IHr, (IHd (S r)), (IHd r). lia.
Qed.

Fixpoint zrange (r : nat) : list Z :=
  match r with O => [0%Z] | S r' => Z.of_nat r :: (- Z.of_nat r)%Z :: zrange r' end.
Lemma zrange_spec : forall r z, In z (zrange r) <-> (Z.abs z <= Z.of_nat r)%Z.
Proof.
  induction r; intros z; cbn [zrange In].
  - lia.
  - rewrite IHr. lia.
Qed.
Lemma zrange_NoDup : forall r, NoDup (zrange r).
Proof.
  induction r; cbn [zrange]. constructor; auto using NoDup_nil. 
  constructor; [|constructor; auto].
  - cbn [In]. rewrite zrange_spec. lia.
  - rewrite zrange_spec. lia.
Qed.
Fixpoint ball (d r : nat) : list (list Z) :=
  match d with
  | O => [[]]
  | S d' => flat_map (fun z => map (cons z) (ball d' (r - Z.to_nat (Z.abs z)))) (zrange r)
  end.
Lemma ball_spec : forall d r v, In v (ball d r) <-> (length v = d /\ (l1norm v <= Z.of_nat r)%Z).
Proof.
  induction d; intros r v; cbn [ball].
  - cbn [In]. split.
    + intros [<-|[]]. cbn. lia.
    + intros [L _]. destruct v; [auto|discriminate].
  - rewrite in_flat_map. split.
    + intros (z & Iz & Iv). apply zrange_spec in Iz. apply in_map_iff in Iv. destruct Iv as (u & <- & Iu).
      apply IHd in Iu. cbn. lia.
    + intros [L N]. destruct v as [|z u]; [discriminate|]. cbn in L, N.
      assert (P : (0 <= l1norm u)%Z) by (clear; induction u; cbn; lia).
      exists z. split. apply zrange_spec. lia. apply in_map. apply IHd. lia.
Qed.
Lemma NoDup_flat_map : forall A B (f : A -> list B) l, NoDup l -> (forall a, In a l -> NoDup (f a)) ->
  (forall a b x, In a l -> In b l -> In x (f a) -> In x (f b) -> a = b) -> NoDup (flat_map f l).
Proof.
  induction 1 as [|a l NI ND IH]; intros H1 H2; cbn. constructor.
  assert (IH' : NoDup (flat_map f l)).
  { apply IH. intros; apply H1; right; auto. intros b b' x Ib Ib'. apply H2; right; auto. }
  assert (D : forall x, In x (f a) -> ~ In x (flat_map f l)).
  { intros x Ia Ix. apply in_flat_map in Ix. destruct Ix as (b & Ib & Ix).
    assert (a = b) by (eapply H2; eauto; [left|right]; auto). congruence. }
  assert (NA : NoDup (f a)) by (apply H1; left; auto).
  clear - IH' D NA. induction (f a) as [|y l' IHl]; cbn; auto. inversion NA; subst. constructor.
  - rewrite in_app_iff. intros [I|I]; auto. apply (D y); auto. left; auto.
  - apply IHl; auto. intros x Ix. apply D. right; auto.
Qed.
Lemma ball_NoDup : forall d r, NoDup (ball d r).
Proof.
  induction d; intros r; cbn [ball]. constructor; auto using NoDup_nil.
  apply NoDup_flat_map.
  - apply zrange_NoDup.
  - intros z _. apply FinFun.Injective_map_NoDup; auto. intros a b E. injection E; auto.
  - intros a b x _ _ I1 I2. apply in_map_iff in I1, I2. destruct I1 as (u & <- & _), I2 as (w & E & _). injection E; auto.
Qed.
Fixpoint sumn (f : nat -> nat) (n : nat) : nat := match n with O => 0 | S m => sumn f m + f m end.
Lemma flat_length : forall A B (f : A -> list B) l, length (flat_map f l) = list_sum (map (fun a => length (f a)) l).
Proof. induction l; cbn; auto. rewrite app_length, IHl. reflexivity. Qed.
Lemma zrange_sum : forall (g : nat -> nat) m r, r <= m ->
  list_sum (map (fun z => g (m - Z.to_nat (Z.abs z))) (zrange r)) = g m + 2 * sumn (fun i => g (m - S i)) r.
Proof.
  induction r; intros H; cbn [zrange map list_sum sumn fold_right].
  - cbn. rewrite Nat.sub_0_r. lia.
  - unfold list_sum in *. cbn [fold_right]. rewrite IHr by lia.
    replace (Z.to_nat (Z.abs (Z.of_nat (S r)))) with (S r) by lia.
    replace (Z.to_nat (Z.abs (- Z.of_nat (S r)))) with (S r) by lia. lia.
Qed.
Lemma sumn_ext : forall f g n, (forall i, i < n -> f i = g i) -> sumn f n = sumn g n.
Proof. induction n; intros; cbn; auto. rewrite IHn, H; auto. Qed.
Lemma sumn_shift : forall f n, sumn f (S n) = f 0 + sumn (fun i => f (S i)) n.
Proof. induction n; cbn in *; lia. Qed.
Lemma sumn_rev : forall g n, sumn (fun i => g (n - S i)) n = sumn g n.
Proof.
  induction n; auto. rewrite sumn_shift. cbn [sumn]. replace (S n - 1) with n by lia.
  rewrite (sumn_ext _ (fun i => g (n - S i))). lia. intros i Hi. f_equal.
Qed.
Lemma delannoy_sum : forall d r, delannoy (S d) r = delannoy d r + 2 * sumn (delannoy d) r.
Proof.
  induction r. rewrite !delannoy_r0. reflexivity. rewrite delannoy_S, IHr. cbn [sumn]. lia.
Qed.
Lemma ball_length : forall d r, length (ball d r) = delannoy d r.
Proof.
  induction d; intros r; cbn [ball]. rewrite delannoy_d0. reflexivity.
  rewrite flat_length. rewrite (map_ext _ (fun z => delannoy d (r - Z.to_nat (Z.abs z)))).
  - rewrite (zrange_sum (delannoy d)), sumn_rev, delannoy_sum; auto.
  - intros z. rewrite map_length. apply IHd.
Qed.
Theorem delannoy_counts : forall d r, counts_ball d r (delannoy d r).
Proof.
  intros d r. exists (ball d r). split. apply ball_NoDup. split. apply ball_length. apply ball_spec.
Qed.

(** *** C31 *)
Section Graph.
Variable n : nat.
Variable adj : nat -> nat -> bool.

Lemma mem_In : forall x l, mem x l = true <-> In x l.
Proof.
  intros x l. unfold mem. rewrite existsb_exists. split.
  - intros (y & I & E). apply Nat.eqb_eq in E. subst. auto.
  - intros I. exists x. split; auto. apply Nat.eqb_refl.
Qed.
Definition edge (i j : nat) : Prop := adj i j = true \/ adj j i = true.
Definition grow (seen : list nat) : list nat :=
  filter (fun j => mem j seen || existsb (fun i => adj i j || adj j i) seen) (seq 0 n).
Lemma grow_spec : forall seen j, In j (grow seen) <-> (j < n /\ (In j seen \/ exists i, In i seen /\ edge i j)).
Proof.
  intros seen j. unfold grow, edge. rewrite filter_In, in_seq, orb_true_iff, mem_In, existsb_exists.
  split.
  - intros [H1 [H2|(i & H2 & H3)]]. split; [lia|auto]. split; [lia|]. right. exists i. apply orb_true_iff in H3. auto.
  - intros [H1 [H2|(i & H2 & H3)]]. split; [lia|auto]. split; [lia|]. right. exists i. split; auto. apply orb_true_iff; auto.
Qed.
Lemma reach_S : forall k seen, reach n adj (S k) seen = reach n adj k (grow seen). Proof. reflexivity. Qed.

Lemma reach_sound : forall k i seen, (forall j, In j seen -> path n adj i j) ->
  forall j, In j (reach n adj k seen) -> path n adj i j.
Proof.
  induction k; intros i seen H j I; [auto|]. rewrite reach_S in I. eapply IHk; [|exact I].
  intros m Im. apply grow_spec in Im. destruct Im as [L [Im|(a & Ia & E)]]; auto.
  econstructor 2; eauto.
Qed.
Definition closed (seen : list nat) : Prop := forall a b, In a seen -> b < n -> edge a b -> In b seen.
Lemma grow_incl : forall seen, (forall j, In j seen -> j < n) -> incl seen (grow seen).
Proof. intros seen B j I. apply grow_spec. auto. Qed.
Lemma grow_bound : forall seen j, In j (grow seen) -> j < n.
Proof. intros seen j I. apply grow_spec in I. tauto. Qed.
Lemma grow_NoDup : forall seen, NoDup (grow seen).
Proof. intros. apply NoDup_filter, seq_NoDup. Qed.
Lemma grow_closed : forall seen, (forall j, In j seen -> j < n) -> closed seen -> closed (grow seen) /\ incl (grow seen) seen.
Proof.
  intros seen B C. assert (I : incl (grow seen) seen).
  { intros j Ij. apply grow_spec in Ij. destruct Ij as [L [Ij|(a & Ia & E)]]; auto. eapply C; eauto. }
  split; auto. intros a b Ia Lb E. apply grow_spec. split; auto. right. exists a. auto.
Qed.
(** Either closed already, or the next set is strictly larger. *)
Lemma closed_or_grow : forall seen, (forall j, In j seen -> j < n) -> NoDup seen ->
  closed seen \/ S (length seen) <= length (grow seen).
Proof.
  intros seen B ND.
  destruct (existsb (fun b => negb (mem b seen) && existsb (fun a => adj a b || adj b a) seen) (seq 0 n)) eqn:E.
  - right. apply existsb_exists in E. destruct E as (b & Ib & E). apply andb_true_iff in E. destruct E as [E1 E2].
    apply negb_true_iff in E1. assert (NI : ~ In b seen) by (rewrite <- mem_In; congruence).
    apply existsb_exists in E2. destruct E2 as (a & Ia & E2). apply orb_true_iff in E2. apply in_seq in Ib.
    assert (Q : length (b :: seen) <= length (grow seen)); [|exact Q].
    apply NoDup_incl_length. constructor; auto. intros x [<-|Ix].
    + apply grow_spec. split; [lia|]. right. exists a. auto.
    + apply grow_incl; auto.
  - left. intros a b Ia Lb Ed. destruct (mem b seen) eqn:M; [apply mem_In; auto|].
    assert (existsb (fun b => negb (mem b seen) && existsb (fun a => adj a b || adj b a) seen) (seq 0 n) = true); [|congruence].
    apply existsb_exists. exists b. split. apply in_seq; lia. rewrite M. cbn. apply existsb_exists. exists a. split; auto.
    apply orb_true_iff. auto.
Qed.
Lemma reach_closed : forall k seen, (forall j, In j seen -> j < n) -> closed seen ->
  closed (reach n adj k seen) /\ incl seen (reach n adj k seen).
Proof.
  induction k; intros seen B C. split; auto. apply incl_refl. rewrite reach_S.
  destruct (grow_closed _ B C) as [C' I']. destruct (IHk (grow seen) (grow_bound seen) C') as [H1 H2].
  split; auto. eapply incl_tran; [apply grow_incl; auto|auto].
Qed.
Lemma reach_complete : forall k seen, (forall j, In j seen -> j < n) -> NoDup seen -> n <= k + length seen ->
  closed (reach n adj k seen) /\ incl seen (reach n adj k seen).
Proof.
  induction k; intros seen B ND L.
  - cbn in *. split; [|apply incl_refl]. intros a b Ia Lb Ed.
    assert (I : incl (seq 0 n) seen).
    { apply NoDup_length_incl. apply ND. rewrite seq_length; auto. intros x Ix. apply in_seq. specialize (B _ Ix). lia. }
    apply I. apply in_seq. lia.
  - destruct (closed_or_grow seen B ND) as [C|G].
    + apply reach_closed; auto.
    + rewrite reach_S. destruct (IHk (grow seen)) as [H1 H2]. intros; eapply grow_bound; eauto. apply grow_NoDup. lia.
      split; auto. eapply incl_tran; [apply grow_incl; auto|auto].
Qed.
Lemma reachable_path : forall i j, i < n -> (reachable n adj i j = true <-> path n adj i j).
Proof.
  intros i j Hi. unfold reachable. rewrite mem_In. split.
  - apply reach_sound. intros m [<-|[]]. constructor.
  - intros P. destruct (reach_complete n [i]) as [C I].
    + intros m [<-|[]]; auto.
    + constructor; auto using NoDup_nil.
    + cbn. lia.
    + induction P as [|j k P IH L E]. apply I; left; auto. eapply C; eauto.
Qed.
Lemma path_lt : forall i j, i < n -> path n adj i j -> j < n.
Proof. intros i j Hi P. destruct P; auto. Qed.
Lemma path_trans : forall i j k, path n adj i j -> path n adj j k -> path n adj i k.
Proof. intros i j k P Q. induction Q; auto. econstructor 2; eauto. Qed.
Lemma path_sym : forall i j, i < n -> path n adj i j -> path n adj j i.
Proof.
  intros i j Hi P. induction P as [|j k P IH L E]. constructor.
  apply (path_trans k j i); [|exact IH]. apply (path_step n adj k k j).
  - constructor.
  - exact (path_lt i j Hi P).
  - destruct E; auto.
Qed.
Definition connected : Prop := forall i j, i < n -> j < n -> path n adj i j.

Lemma components_connected : 0 < n -> (components n adj = 1 <-> connected).
Proof.
  intros Hn. unfold components. set (p := fun i => negb (existsb (fun j => reachable n adj i j) (seq 0 i))).
  assert (P0 : p 0 = true) by reflexivity.
  assert (PS : forall i, i < n -> (p i = false <-> exists j, j < i /\ path n adj i j)).
  { intros i Hi. unfold p. rewrite negb_false_iff, existsb_exists. split.
    - intros (j & Ij & E). apply in_seq in Ij. exists j. split; [lia|]. apply reachable_path; auto.
    - intros (j & Lj & P). exists j. split. apply in_seq; lia. apply reachable_path; auto. }
  split.
  - intros E. assert (U : forall i, i < n -> i <> 0 -> p i = false).
    { intros i Hi Ni. destruct (p i) eqn:Q; auto. exfalso.
      assert (L : length [0; i] <= length (filter p (seq 0 n))).
      { apply NoDup_incl_length. constructor. intros [->|[]]; auto. constructor; auto using NoDup_nil.
        intros x [<-|[<-|[]]]; apply filter_In; split; auto; apply in_seq; lia. }
      cbn in L. lia. }
    assert (Z : forall i, i < n -> path n adj i 0).
    { induction i as [i IH] using lt_wf_ind. intros Hi. destruct (Nat.eq_dec i 0) as [->|Ni]. constructor.
      destruct (proj1 (PS i Hi) (U i Hi Ni)) as (j & Lj & P). eapply path_trans; eauto. apply IH; lia. }
    intros i j Hi Hj. eapply path_trans; eauto. apply path_sym; auto.
  - unfold connected. intros C. assert (E : filter p (seq 0 n) = [0]).
    { destruct n as [|m]; [lia|]. cbn [seq filter]. rewrite P0. f_equal.
      assert (F : forall l, (forall x, In x l -> p x = false) -> filter p l = []).
      { clear. induction l; intros H; cbn; auto. rewrite H by (left; auto). apply IHl. intros; apply H; right; auto. }
      apply F. intros x Ix. apply in_seq in Ix. apply PS; [lia|]. exists 0. split; [lia|]. apply C; lia. }
    rewrite E. reflexivity.
Qed.
End Graph.

Lemma path_mono : forall n a b i j, (forall x y, a x y = true -> b x y = true) -> path n a i j -> path n b i j.
Proof. intros n a b i j H P. induction P; [constructor|]. econstructor 2; eauto. destruct H1; auto. Qed.

Definition joined (n : nat) (adj : nat -> nat -> bool) (i j : nat) : bool :=
  if negb (reachable n adj i j) then true else adj i j.
Lemma joined_connected : forall n adj, connected n (joined n adj).
Proof.
  intros n adj i j Hi Hj. destruct (reachable n adj i j) eqn:E.
  - apply (path_mono n adj). unfold joined. intros x y H. rewrite H. destruct (negb _); auto.
    apply reachable_path; auto.
  - econstructor 2. constructor. auto. left. unfold joined. rewrite E. reflexivity.
Qed.
Lemma adj_drawn_sym : forall ch i j, adj_drawn ch i j = adj_drawn ch j i.
Proof. intros. unfold adj_drawn. rewrite (Nat.eqb_sym i j). destruct (Nat.eqb j i); cbn; auto. apply orb_comm. Qed.
Lemma bool_iff_eq : forall a b : bool, (a = true <-> b = true) -> a = b.
Proof. intros [] [] [H1 H2]; auto; symmetry; auto. Qed.
Lemma joined_sym : forall n ch i j, i < n -> j < n -> joined n (adj_drawn ch) i j = joined n (adj_drawn ch) j i.
Proof.
  intros n ch i j Hi Hj. unfold joined. rewrite (adj_drawn_sym ch i j).
  replace (reachable n (adj_drawn ch) i j) with (reachable n (adj_drawn ch) j i); auto.
  apply bool_iff_eq. rewrite !reachable_path by auto. split; apply path_sym; auto.
Qed.

Lemma random_adj_total : forall n k ch, (0 <= k <= Z.of_nat n - 1)%Z -> exists adj, random_adj 1 n k ch = Ok adj.
Proof.
  intros n k ch Hk. unfold random_adj. destruct (Nat.eqb_spec n 0); [lia|].
  assert (E : (k <? 0)%Z || (Z.of_nat n - 1 <? k)%Z = false).
  { apply orb_false_iff. split; apply Z.ltb_ge; lia. }
  rewrite E. cbn [repair]. destruct (Nat.eqb_spec (components n (adj_drawn ch)) 1); [eauto|].
  change (fun i j => if negb (reachable n (adj_drawn ch) i j) then true else adj_drawn ch i j) with (joined n (adj_drawn ch)).
  assert (Q : components n (joined n (adj_drawn ch)) = 1). { apply (proj2 (components_connected n _ ltac:(lia))), joined_connected. }
  rewrite Q. cbn. eauto.
Qed.
Lemma random_adj_cases : forall fuel n k ch adj, random_adj fuel n k ch = Ok adj -> fuel <= 1 ->
  (0 <= k <= Z.of_nat n - 1)%Z /\
  ((adj = adj_drawn ch /\ components n adj = 1) \/ (adj = joined n (adj_drawn ch) /\ components n (adj_drawn ch) <> 1)).
Proof.
  unfold random_adj. intros fuel n k ch adj H F. destruct (Nat.eqb_spec n 0); [discriminate|].
  destruct (Z.ltb_spec k 0); [discriminate|]. destruct (Z.ltb_spec (Z.of_nat n - 1) k); [discriminate|]. cbn [orb] in H.
  split; [lia|].
  destruct fuel as [|[|f]]; [| |lia]; cbn [repair] in H.
  - destruct (Nat.eqb_spec (components n (adj_drawn ch)) 1); [|discriminate]. injection H as <-. auto.
  - destruct (Nat.eqb_spec (components n (adj_drawn ch)) 1); [injection H as <-; auto|].
    destruct (Nat.eqb_spec (components n (fun i j => if negb (reachable n (adj_drawn ch) i j) then true else adj_drawn ch i j)) 1); [|discriminate].
    injection H as <-. right. split; auto.
Qed.
Lemma random_adj_good : forall n k ch adj, random_adj 1 n k ch = Ok adj ->
  connected n adj /\ (forall i j, i < n -> j < n -> adj i j = adj j i) /\ (forall i, adj i i = true) /\
  (forall i j, adj_drawn ch i j = true -> adj i j = true).
Proof.
  intros n k ch adj H. apply random_adj_cases in H; [|lia]. destruct H as [Hk [(-> & E)|(-> & E)]].
  - split. apply (proj1 (components_connected n _ ltac:(lia)) E). split. intros; apply adj_drawn_sym.
    split; auto. intros i. unfold adj_drawn. rewrite Nat.eqb_refl. reflexivity.
  - assert (J : forall i j, adj_drawn ch i j = true -> joined n (adj_drawn ch) i j = true).
    { intros i j Q. unfold joined. rewrite Q. destruct (negb _); auto. }
    split. apply joined_connected. split. intros; apply joined_sym; auto. split; auto.
    intros i. apply J. unfold adj_drawn. rewrite Nat.eqb_refl. reflexivity.
Qed.
Lemma random_degree : forall n k ch adj i, random_adj 1 n (Z.of_nat k) ch = Ok adj -> choice_ok n k ch -> i < n ->
  exists nbs, NoDup nbs /\ length nbs = k /\ forall j, In j nbs -> j < n /\ j <> i /\ adj i j = true /\ adj j i = true.
Proof.
  intros n k ch adj i H [L C] Hi. destruct (random_adj_good _ _ _ _ H) as (_ & S & _ & D).
  destruct (nth_error_ex ch i) as [row E]. lia. destruct (C _ _ E) as (ND & LK & B). exists row. split; auto. split; auto.
  intros j Ij. destruct (B _ Ij) as [Lj Nj].
  assert (A : adj i j = true).
  { apply D. unfold adj_drawn, rowof. rewrite (nth_error_nth _ _ _ E).
    replace (mem j row) with true by (symmetry; apply mem_In; auto). rewrite orb_true_r. reflexivity. }
  repeat split; auto. rewrite <- S; auto.
Qed.
Lemma drawn_In : forall ch i j row, nth_error ch i = Some row -> In j row -> adj_drawn ch i j = true /\ adj_drawn ch j i = true.
Proof.
  intros ch i j row E I. assert (A : adj_drawn ch i j = true).
  { unfold adj_drawn, rowof. rewrite (nth_error_nth _ _ _ E).
    replace (mem j row) with true by (symmetry; apply mem_In; auto). rewrite orb_true_r. reflexivity. }
  split; auto. rewrite adj_drawn_sym. auto.
Qed.
Lemma random_graph : forall n k ch adj, random_adj 1 n k ch = Ok adj ->
  (forall i j, i < n -> j < n -> path n adj i j) /\
  (forall i j, i < n -> j < n -> adj i j = adj j i) /\ (forall i, adj i i = true) /\
  (forall i j row, nth_error ch i = Some row -> In j row -> adj i j = true /\ adj j i = true).
Proof.
  intros n k ch adj H. destruct (random_adj_good _ _ _ _ H) as (C & S & D & E). split; auto. split; auto. split; auto.
  intros i j row N I. destruct (drawn_In _ _ _ _ N I). auto.
Qed.
(** Edges other than the drawn ones only join particles that the drawn graph separates. *)
Lemma random_graph_extra : forall n k ch adj i j, random_adj 1 n k ch = Ok adj -> i < n -> j < n -> adj i j = true ->
  i = j \/ (exists row, nth_error ch i = Some row /\ In j row) \/ (exists row, nth_error ch j = Some row /\ In i row) \/
  ~ path n (fun a b => existsb (Nat.eqb b) (nth a ch [])) i j.
Proof.
  intros n k ch adj i j H Li Lj A.
  assert (DR : forall a b, adj_drawn ch a b = true -> a = b \/ (exists row, nth_error ch a = Some row /\ In b row) \/
             (exists row, nth_error ch b = Some row /\ In a row)).
  { intros a b Q. unfold adj_drawn in Q. apply orb_prop in Q.
    assert (M : forall x y, mem x (rowof ch y) = true -> exists row, nth_error ch y = Some row /\ In x row).
    { intros x y W. apply mem_In in W. unfold rowof in W. destruct (nth_error ch y) as [row|] eqn:E.
      - rewrite (nth_error_nth _ _ _ E) in W. eauto.
      - apply nth_error_None in E. rewrite nth_overflow in W by auto. destruct W. }
    destruct Q as [Q|Q]; [|auto]. apply orb_prop in Q. destruct Q as [Q|Q]; [apply Nat.eqb_eq in Q; auto|auto]. }
  apply random_adj_cases in H; [|lia]. destruct H as [Hk [(-> & E)|(-> & E)]].
  - destruct (DR _ _ A) as [?|[?|?]]; auto.
  - unfold joined in A. destruct (reachable n (adj_drawn ch) i j) eqn:R; cbn [negb] in A.
    + destruct (DR _ _ A) as [?|[?|?]]; auto.
    + right. right. right. intros P. assert (Q : path n (adj_drawn ch) i j).
      { revert P. apply path_mono. intros x y W. unfold adj_drawn. change (mem y (rowof ch x) = true) in W. rewrite W, orb_true_r. reflexivity. }
      apply reachable_path in Q; auto. congruence.
Qed.
Lemma random_total : forall n k ch, (0 <= k <= Z.of_nat n - 1)%Z ->
  exists adj, forall fuel, random_adj (S fuel) n k ch = Ok adj.
Proof.
  intros n k ch Hk.
  assert (G : forall fuel, random_adj (S fuel) n k ch = Ok (if Nat.eqb (components n (adj_drawn ch)) 1 then adj_drawn ch else joined n (adj_drawn ch))).
  { intros fuel. unfold random_adj. destruct (Nat.eqb_spec n 0); [lia|].
    assert (E : (k <? 0)%Z || (Z.of_nat n - 1 <? k)%Z = false).
    { apply orb_false_iff. split; apply Z.ltb_ge; lia. }
    rewrite E. cbn [repair]. destruct (Nat.eqb_spec (components n (adj_drawn ch)) 1); auto.
    change (fun i j => if negb (reachable n (adj_drawn ch) i j) then true else adj_drawn ch i j) with (joined n (adj_drawn ch)).
    assert (Q : components n (joined n (adj_drawn ch)) = 1). { apply (proj2 (components_connected n _ ltac:(lia))), joined_connected. }
    destruct fuel; cbn [repair]; rewrite Q; reflexivity. }
  eexists. exact G.
Qed.
