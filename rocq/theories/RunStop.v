(** Early stopping, best-cost history of neighbour-based topologies, mean history. *)
From Coq Require Import String ZArith List Arith Bool Lia Reals Lra.
From Flocq Require Import Core BinarySingleNaN.
From Verif Require Import Prelude ListFacts F64 F64Facts Num Np NpFacts Handlers Swarms Operators
  Generators Topology Optimizers Spec RunFacts PbestFacts ShapeFacts GbestFacts RunBest RunMain RunResults.
Import ListNotations.
Local Close Scope R_scope.
Local Open Scope nat_scope.

(** *** The deque of flags *)
Lemma skipn_snoc : forall {A} (l : list A) x n, n <= length l -> skipn n (l ++ [x]) = skipn n l ++ [x].
Proof. intros. rewrite skipn_app. replace (n - length l) with 0 by lia. reflexivity. Qed.
Lemma deque_lastn : forall {A} (m : nat) (l : list A) x,
  deque_append m (skipn (length l - m) l) x = skipn (length (l ++ [x]) - m) (l ++ [x]).
Proof.
  intros A m l x. unfold deque_append. rewrite !app_length, skipn_length. simpl.
  destruct m as [|m].
  - rewrite !Nat.sub_0_r. rewrite !skipn_all2; auto; rewrite app_length; simpl; rewrite ?skipn_length; lia.
  - destruct (Nat.le_gt_cases (length l) m).
    + replace (length l - S m) with 0 by lia. simpl.
      replace (length l - 0 + 1 - S m) with 0 by lia. replace (length l + 1 - S m) with 0 by lia. reflexivity.
    + replace (length l - (length l - S m) + 1 - S m) with 1 by lia.
      replace (length l + 1 - S m) with (S (length l - S m)) by lia.
      rewrite <- skipn_snoc by lia.
      set (k := length l - S m). clearbody k. 
      assert (E : forall (p : list A), skipn 1 (skipn k p) = skipn (S k) p).
      { induction k as [|k IH]; intros p; [reflexivity|]. destruct p as [|a p]; [reflexivity|]. apply (IH p). }
      apply E.
Qed.
Lemma forallb_nth : forall (l : list bool), forallb (fun x => x) l = true <->
  (forall i b, nth_error l i = Some b -> b = true).
Proof.
  intros l. rewrite forallb_forall. split.
  - intros H i b E. apply H. eapply nth_error_In; eauto.
  - intros H x I. apply In_nth_error in I. destruct I as [i I]. eauto.
Qed.
Lemma nth_error_skipn : forall {A} (l : list A) n i, nth_error (skipn n l) i = nth_error l (n + i).
Proof. intros A l n. revert l. induction n; intros [|a l] i; auto. destruct i; auto. apply IHn. Qed.

Record StopInv (c : config) (o0 : ostate) (i : nat) (o : ostate) (q : list bool) (fl : list bool) (B : list f64) : Prop := {
  st_B : o_cost_history o = o_cost_history o0 ++ B;
  st_len : length B = i;
  st_fl : length fl = i;
  st_q : q = skipn (length fl - c_ftol_iter c) fl;
  st_best : cost_before (s_best_cost (o_swarm o0)) B i = Some (s_best_cost (o_swarm o));
  st_flag : forall t b, nth_error fl t = Some b ->
            (b = true <-> stalled (c_ftol c) (s_best_cost (o_swarm o0)) B t)
}.

Lemma stalled_app : forall f b0 B l t, t < length B -> (stalled f b0 (B ++ l) t <-> stalled f b0 B t).
Proof.
  intros f b0 B l t L. unfold stalled, cost_before.
  destruct t; rewrite ?(nth_error_app1 B) by lia; tauto.
Qed.
Lemma window_app : forall f m b0 B l t, t < length B -> (window f m b0 (B ++ l) t <-> window f m b0 B t).
Proof.
  intros f m b0 B l t L. unfold window. split; intros [H1 H2]; split; auto; intros s Hs1 Hs2; specialize (H2 s Hs1 Hs2).
  - rewrite stalled_app in H2; auto; lia.
  - rewrite stalled_app; auto; lia.
Qed.

Lemma cost_before_app : forall b0 B l t, t <= length B -> cost_before b0 (B ++ l) t = cost_before b0 B t.
Proof. intros b0 B l [|t] L; auto. cbn. apply nth_error_app1; lia. Qed.

Lemma StopInv_eval : forall c e pool o0 i o q fl B o3 cost pp pc t bp bc np,
  StopInv c o0 i o q fl B -> Evald c e pool i o o3 cost pp pc t bp bc np ->
  let x := small_change (c_ftol c) (s_best_cost (o_swarm o)) bc in
  StopInv c o0 (S i) o3 (deque_append (c_ftol_iter c) q x) (fl ++ [x]) (B ++ [bc]).
Proof.
  intros c e pool o0 i o q fl B o3 cost pp pc t bp bc np [I1 I2 I3 I4 I5 I6] (E1 & E2 & E3 & ->) x.
  constructor; cbn.
  - rewrite I1. rewrite app_assoc. reflexivity.
  - rewrite app_length. simpl. lia.
  - rewrite app_length. simpl. lia.
  - subst q. apply deque_lastn.
  - rewrite nth_error_app2 by lia. replace (i - length B) with 0 by lia. reflexivity.
  - intros s b E. apply nth_error_snoc in E. destruct E as [E|[-> ->]].
    + rewrite (I6 _ _ E). symmetry. apply stalled_app. apply nth_error_lt in E. lia.
    + rewrite I3. split.
      * intros Ex. exists (s_best_cost (o_swarm o)), bc. split; [rewrite cost_before_app by lia; auto|]. split.
        -- rewrite nth_error_app2 by lia. replace (i - length B) with 0 by lia. reflexivity.
        -- exact Ex.
      * intros (prev & cur & C1 & C2 & C3). rewrite cost_before_app in C1 by lia. rewrite I5 in C1. injection C1 as <-.
        rewrite nth_error_app2 in C2 by lia. replace (i - length B) with 0 in C2 by lia. injection C2 as <-. exact C3.
Qed.
Lemma StopInv_test : forall c o0 i o q fl B, StopInv c o0 (S i) o q fl B ->
  (Nat.leb (c_ftol_iter c) i && forallb (fun x => x) q = true <->
   window (c_ftol c) (c_ftol_iter c) (s_best_cost (o_swarm o0)) B i).
Proof.
  intros c o0 i o q fl B [I1 I2 I3 I4 I5 I6]. rewrite andb_true_iff, Nat.leb_le, forallb_nth. subst q.
  unfold window. split; intros [H1 H2]; split; auto.
  - intros s Hs1 Hs2. destruct (nth_error_ex fl s) as [b Eb]. lia.
    apply (I6 _ _ Eb). apply (H2 (s - (length fl - c_ftol_iter c))). rewrite nth_error_skipn.
    rewrite <- Eb. f_equal. lia.
  - intros j b E. rewrite nth_error_skipn in E. apply (I6 _ _ E). apply nth_error_lt in E. apply H2; lia.
Qed.

(** The loop left its [for] statement (normally or by [break]). *)
Lemma optimize_stop : forall c e pool iters o o' r, optimize c e pool iters o = (o', r) -> pool <> Some 0 ->
  exists B, o_cost_history o' = o_cost_history o ++ B /\ length B <= iters /\
    let W := window (c_ftol c) (c_ftol_iter c) (s_best_cost (o_swarm o)) B in
    (forall t, S t < length B -> ~ W t) /\
    ((r = final_result o' /\ (length B < iters -> exists t, length B = S t /\ W t)) \/
     ((exists x, r = Err x) /\ forall t, t < length B -> ~ W t)).
Proof.
  intros c e pool iters o o' r H NP.
  set (N := fun (B : list f64) n => forall t, t < n -> ~ window (c_ftol c) (c_ftol_iter c) (s_best_cost (o_swarm o)) B t).
  assert (NA : forall B l n, n <= length B -> N B n -> N (B ++ l) n).
  { intros B l n L HN t Ht W. rewrite window_app in W by lia. eapply HN; eauto. }
  destruct (optimize_rule c e pool iters o
    (fun i s q => exists fl B, StopInv c o i s q fl B /\ N B i)
    (fun i s q => exists fl B, StopInv c o (S i) s q fl B /\ N B (S i))
    (fun s => exists fl B q i, StopInv c o i s q fl B /\ i <= iters /\ N B (i - 1) /\
        (i < iters -> exists t, i = S t /\ window (c_ftol c) (c_ftol_iter c) (s_best_cost (o_swarm o)) B t))
    (fun s x => exists fl B q i s', StopInv c o i s' q fl B /\ i <= iters /\ N B i /\ o_cost_history s = o_cost_history s'))
   with (o' := o') (r := r) as [(Z & _)|[(_ & Q & ->)|(_ & x & Q & ->)]]; auto.
  - destruct (started_facts c o) as (E1 & E2 & E3 & E4 & E5 & E6 & E7 & _).
    exists [], []. split; [|intros t Ht; lia]. constructor; rewrite ?E2, ?E7; cbn; auto.
    + rewrite app_nil_r; auto.
    + intros [|t]; discriminate.
  - intros i s q Hi (fl & B & I & HN). pose proof (evaluate_cases c e pool i s q) as EC.
    destruct (evaluate_swarm c e pool i s q) as [o1 q1|o1|o1 x].
    + destruct EC as (cost & pp & pc & t & bp & bc & np & E & -> & T). do 2 eexists.
      pose proof (StopInv_eval _ _ _ _ _ _ _ _ _ _ _ _ _ _ _ _ _ I E) as I'. split; [exact I'|].
      apply StopInv_test in I'. intros s' Hs'. destruct (Nat.eq_dec s' i) as [->|].
      * rewrite <- I'. congruence.
      * apply (NA B [bc] i); auto. rewrite (st_len _ _ _ _ _ _ _ I); auto. lia.
    + destruct EC as (cost & pp & pc & t & bp & bc & np & E & T).
      pose proof (StopInv_eval _ _ _ _ _ _ _ _ _ _ _ _ _ _ _ _ _ I E) as I'.
      do 3 eexists. exists (S i). split; [exact I'|]. split; [lia|]. split.
      * apply NA. rewrite (st_len _ _ _ _ _ _ _ I); lia. simpl. rewrite Nat.sub_0_r. auto.
      * intros _. exists i. split; auto. apply StopInv_test in I'. apply I'. auto.
    + exists fl, B, q, i, s. repeat (split; auto). lia.
      destruct EC; reflexivity.
  - intros i s q Hi (fl & B & I & HN). pose proof (update_cases c e iters i s q) as UC.
    destruct (update_swarm c e iters i s q) as [o1 q1|o1|o1 x].
    + destruct UC as (-> & CE & _). exists fl, B. split; auto. destruct CE, I.
      constructor; auto. congruence. rewrite ce_bc. auto.
    + contradiction.
    + destruct UC as [CE _]. exists fl, B, q, (S i), s. repeat (split; auto). apply CE.
  - intros s q (fl & B & I & HN). exists fl, B, q, iters. repeat (split; auto).
    intros t Ht. apply HN. lia. lia.
  - congruence.
  - destruct Q as (fl & B & q & i & I & Hi & HN & HW). destruct I. exists B. split; auto. split; [lia|]. split.
    + intros t Ht. apply HN. lia.
    + left. split; auto. rewrite st_len0. auto.
  - destruct Q as (fl & B & q & i & s' & I & Hi & HN & HC). destruct I. exists B. split; [congruence|]. split; [lia|]. split.
    + intros t Ht. apply HN. lia.
    + right. split; eauto. intros t Ht. apply HN. lia.
Qed.

(** *** C08 *)
Lemma fabs_nonneg : forall x, fisnan x = false -> fle fzero (fabs x) = true.
Proof.
  intros x H. apply fle_spec. split; [reflexivity|].
  assert (Z : fkey fzero = 0%R) by reflexivity. rewrite Z.
  destruct x as [s|s| |s m e Hx]; try discriminate; (split; [reflexivity|]).
  - apply Rle_refl.
  - pose proof bmax_pos. change (fabs (B754_infinity s)) with finf. rewrite fkey_finf. lra.
  - apply F2R_ge_0. cbn. lia.
Qed.
Lemma fabs_finite : forall x, ffinite (fabs x) = ffinite x.
Proof. intros [s|s| |s m e Hx]; reflexivity. Qed.
Lemma one_plus_abs : forall x, fisnan x = false -> fle fone (fadd fone (fabs x)) = true.
Proof.
  intros x H. destruct (ffinite x) eqn:F.
  - rewrite <- fabs_finite in F. pose proof (fadd_round fone (fabs x) fone_fin F) as R.
    eapply is_round_le_l; [exact R|apply fone_fin|]. pose proof (fabs_nonneg x H) as N. apply fle_spec in N.
    destruct N as (_ & _ & N). rewrite (fkey_finite _ F) in N. assert (Z : fkey fzero = 0%R) by reflexivity.
    rewrite Z in N. lra.
  - destruct x as [s|s| |s m e Hx]; try discriminate. reflexivity.
Qed.
Lemma never_stalled : forall b0 B t, ~ stalled fninf b0 B t.
Proof.
  intros b0 B t (prev & cur & _ & _ & H).
  assert (flt (fabs (fsub cur prev)) (fmul fninf (fadd fone (fabs prev))) = false); [|congruence].
  destruct (fisnan prev) eqn:N.
  - destruct prev; try discriminate. cbn. apply flt_false_spec. auto.
  - pose proof (one_plus_abs _ N) as P. destruct (fadd fone (fabs prev)) as [s|s| |s m e Hx]; cbn.
    + apply flt_false_spec. auto.
    + destruct s; cbn; [|apply nlt_fninf]. vm_compute in P. discriminate.
    + apply flt_false_spec. auto.
    + destruct s; cbn; [|apply nlt_fninf]. exfalso.
      apply fle_spec in P. destruct P as (_ & _ & P). rewrite (fkey_finite fone fone_fin), fone_R in P. cbn in P.
      assert (F2R (Float radix2 (Z.neg m) e) < 0)%R by (apply F2R_lt_0; reflexivity). lra.
Qed.

Lemma Reachable_ftol : forall c o, Reachable c o -> c_ftol_iter c <> 0.
Proof. induction 1; auto. apply construct_inv in H. destruct H as (s & _ & _ & H). auto. Qed.

Lemma default_ftol_iters : forall c e pool iters o o' v, Reachable c o -> c_ftol c = fninf ->
  optimize c e pool iters o = (o', Ok v) ->
  exists h C, length h = iters /\ logged e pool h C /\ o_pos_history o' = o_pos_history o ++ h /\
    length (o_cost_history o') = length (o_cost_history o) + iters /\
    length (o_mean_pbest_history o') = length (o_mean_pbest_history o) + iters /\
    length (o_mean_neighbor_history o') = length (o_mean_neighbor_history o) + iters /\
    length (o_velocity_history o') = length (o_velocity_history o) + iters.
Proof.
  intros c e pool iters o o' v R F H. pose proof (optimize_pool_ok _ _ _ _ _ _ _ H) as NP.
  destruct (optimize_stop _ _ _ _ _ _ _ H NP) as (B & EB & LB & _ & S).
  destruct S as [(_ & S)|((x & S) & _)]; [|discriminate].
  assert (L : length B = iters).
  { destruct (Nat.lt_ge_cases (length B) iters) as [L|L]; [|lia]. destruct (S L) as (t & Et & M & W). exfalso.
    apply (never_stalled (s_best_cost (o_swarm o)) B t). rewrite <- F. apply W; auto.
    pose proof (Reachable_ftol _ _ R). lia. }
  destruct (optimize_ok _ _ _ _ _ _ _ H) as (_ & k & h & C & B' & _ & [P I _ _]).
  destruct I as [[I1 I1'] [I2 I2'] (lm & I3 & I3') I4 (lv & I5 & I5') _ _ _ _ _ _ _ _].
  assert (B' = B) by (rewrite EB in I2; apply app_inv_head in I2; auto). subst B'.
  exists h, C. rewrite EB, I3, I4, I5, !app_length. repeat split; try apply P; lia.
Qed.
