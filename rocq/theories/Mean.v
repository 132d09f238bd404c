(** The recorded means are the means of the personal best costs, up to rounding (C51). *)
From Coq Require Import String ZArith List Arith Bool Reals Permutation Lra Lia Psatz.
From Flocq Require Import Core Relative Plus_error IEEE754.BinarySingleNaN.
From Verif Require Import Prelude ListFacts F64 F64Facts F64More Num Np NpFacts Handlers Swarms Operators Generators Topology Optimizers Spec SpecHandlers SpecDyn SpecRun
  RunFacts PbestFacts ShapeFacts RunBest RunInv RunMain RunMono RunClaims Trajectory Textbook Tame Rounding.
Import ListNotations.
Local Open Scope R_scope.

Lemma rsum_perm : forall l l', Permutation l l' -> rsum l = rsum l'.
Proof. intros l l' H. unfold rsum. induction H; cbn; lra. Qed.
Lemma rsum_app : forall l l', rsum (l ++ l') = rsum l + rsum l'.
Proof. intros l l'. unfold rsum. induction l; cbn; lra. Qed.
Lemma rsum_abs_pos : forall A (f : A -> R) l, 0 <= rsum (map (fun x => Rabs (f x)) l).
Proof. intros A f l. unfold rsum. induction l as [|x l IH]; cbn; [lra|]. pose proof (Rabs_pos (f x)). lra. Qed.
Lemma rsum_abs : forall A (f : A -> R) l, Rabs (rsum (map f l)) <= rsum (map (fun x => Rabs (f x)) l).
Proof. intros A f l. unfold rsum. induction l as [|x l IH]; cbn; [rewrite Rabs_R0; lra|]. eapply Rle_trans; [apply Rabs_triang|]. lra. Qed.
Lemma map_nth_seq : forall A B (f : A -> B) (l : list A) d, map (fun i => f (nth i l d)) (seq 0 (length l)) = map f l.
Proof.
  intros A B f l d. induction l as [|x l IH]; [reflexivity|]. cbn [length seq map]. f_equal. rewrite <- seq_shift, map_map. exact IH.
Qed.
Lemma leaves_pos : forall t, (1 <= length (leaves t))%nat.
Proof. induction t; cbn; [lia|]. rewrite app_length. lia. Qed.

Lemma tree_err : forall (l : list f64) t, ffinite (tree_sum t l) = true ->
  Rabs (FR (tree_sum t l) - rsum (map (fun i => FR (nth i l fzero)) (leaves t))) <=
    ((1 + uu) ^ (length (leaves t) - 1) - 1) * rsum (map (fun i => Rabs (FR (nth i l fzero))) (leaves t)).
Proof.
  intros l. pose proof uu_small as U. induction t as [i|a IHa b IHb]; intros F.
  - cbn. rewrite Rplus_0_r, Rminus_diag_eq, Rabs_R0 by reflexivity. lra.
  - cbn [tree_sum leaves] in *. destruct (fadd_fin_inv _ _ F) as [Fa Fb]. specialize (IHa Fa). specialize (IHb Fb).
    rewrite !map_app, !rsum_app, app_length. pose proof (leaves_pos a) as La. pose proof (leaves_pos b) as Lb.
    pose proof (position_accuracy _ _ F) as E.
    set (SA := rsum (map (fun i => FR (nth i l fzero)) (leaves a))) in *. set (SB := rsum (map (fun i => FR (nth i l fzero)) (leaves b))) in *.
    set (A := rsum (map (fun i => Rabs (FR (nth i l fzero))) (leaves a))) in *. set (B := rsum (map (fun i => Rabs (FR (nth i l fzero))) (leaves b))) in *.
    assert (PA : Rabs SA <= A) by apply (rsum_abs _ (fun i => FR (nth i l fzero))). assert (PB : Rabs SB <= B) by apply (rsum_abs _ (fun i => FR (nth i l fzero))).
    set (x := FR (tree_sum a l)) in *. set (y := FR (tree_sum b l)) in *. set (z := FR (fadd (tree_sum a l) (tree_sum b l))) in *. clearbody SA SB A B x y z.
    assert (M : forall k m, (k <= m)%nat -> 1 <= (1 + uu) ^ k <= (1 + uu) ^ m).
    { intros k m KM. split; [apply pow_R1_Rle; lra|]. apply Rle_pow; [lra|exact KM]. }
    set (N := (length (leaves a) + length (leaves b) - 2)%nat).
    assert (Q : (1 + uu) ^ (length (leaves a) + length (leaves b) - 1) = (1 + uu) * (1 + uu) ^ N).
    { replace (length (leaves a) + length (leaves b) - 1)%nat with (S N) by (unfold N; lia). reflexivity. }
    rewrite Q. destruct (M (length (leaves a) - 1)%nat N ltac:(unfold N; lia)) as [M1 M2]. destruct (M (length (leaves b) - 1)%nat N ltac:(unfold N; lia)) as [M3 M4].
    set (pa := (1 + uu) ^ (length (leaves a) - 1)) in *. set (pb := (1 + uu) ^ (length (leaves b) - 1)) in *. set (p := (1 + uu) ^ N) in *. clearbody pa pb p. clear M Q.
    pose proof (Rabs_pos SA). pose proof (Rabs_pos SB).
    assert (EA : Rabs (x - SA) <= (p - 1) * A) by nra. assert (EB : Rabs (y - SB) <= (p - 1) * B) by nra.
    pose proof (near_add _ _ _ _ _ _ EA EB) as N1. pose proof (near_trans _ _ _ _ _ E N1) as T. pose proof (near_abs _ _ _ N1) as AB. pose proof (Rabs_triang SA SB) as TR.
    eapply Rle_trans; [exact T|]. assert (uu * Rabs (x + y) <= uu * (p * (A + B))) by (apply Rmult_le_compat_l; lra). lra.
Qed.
Lemma fofZ_small : forall n, (0 < n <= 2 ^ 53)%Z -> ffinite (fofZ n) = true /\ FR (fofZ n) = IZR n.
Proof.
  intros n N. pose proof (fofZe_round n 0) as R. change (fofZe n 0) with (fofZ n) in R.
  assert (V : F2R (Float radix2 n 0) = IZR n) by (unfold F2R; cbn; lra). rewrite V in R.
  assert (G : rnd (IZR n) = IZR n).
  { apply round_generic; [apply valid_rnd_N|]. replace (IZR n) with (IZR n * bpow radix2 0) by (cbn; lra). apply pow_format; lia. }
  destruct R as [R _]. rewrite G in R. apply R. rewrite Rabs_pos_eq by (apply IZR_le; lia).
  apply Rle_lt_trans with (bpow radix2 53); [change (bpow radix2 53) with (IZR (2 ^ 53)); apply IZR_le; lia|]. apply bpow_lt. reflexivity.
Qed.
Lemma mean_err : forall tree (ys : list f64), proper_sum (tree (length ys)) (length ys) -> (Z.of_nat (length ys) <= 2 ^ 53)%Z ->
  ffinite (np_mean tree ys) = true ->
  Rabs (FR (np_mean tree ys) - exact_mean ys) <= ((1 + bpow radix2 (-53)) ^ length ys - 1) * mean_magnitude ys + bpow radix2 (-1075).
Proof.
  intros tree ys P L F. unfold np_mean in *. set (n := length ys) in *.
  assert (LN : length (leaves (tree n)) = n). { rewrite (Permutation_length P), seq_length. reflexivity. }
  pose proof (leaves_pos (tree n)) as LP. rewrite LN in LP.
  destruct (fofZ_small (Z.of_nat n) ltac:(lia)) as [FN RN]. rewrite <- INR_IZR_INZ in RN.
  assert (NP : 0 < INR n) by (apply lt_0_INR; lia).
  assert (FS : ffinite (tree_sum (tree n) ys) = true).
  { revert F FN. destruct (tree_sum (tree n) ys) as [s|s| |s m ee B]; auto; destruct (fofZ (Z.of_nat n)) as [s'|s'| |s' m' e' B']; intros F FN; try discriminate. }
  pose proof (tree_err ys (tree n) FS) as E. rewrite LN in E.
  rewrite (rsum_perm _ _ (Permutation_map (fun i => FR (nth i ys fzero)) P)), (rsum_perm _ _ (Permutation_map (fun i => Rabs (FR (nth i ys fzero))) P)) in E.
  assert (Q1 := map_nth_seq _ _ (fun y : f64 => FR y) ys fzero). assert (Q2 := map_nth_seq _ _ (fun y : f64 => Rabs (FR y)) ys fzero).
  fold n in Q1, Q2. cbv beta in Q1, Q2. rewrite Q1, Q2 in E.
  unfold exact_mean, mean_magnitude. fold n. fold uu. fold eta. set (S := rsum (map (fun y => FR y) ys)) in *. set (A := rsum (map (fun y => Rabs (FR y)) ys)) in *.
  assert (PA : Rabs S <= A) by apply rsum_abs.
  assert (ND : FR (fofZ (Z.of_nat n)) <> 0) by (rewrite RN; lra).
  pose proof (is_round_finite_eq _ _ (fdiv_round _ _ FS FN ND) F) as D. rewrite RN in D.
  pose proof (rnd_err (FR (tree_sum (tree n) ys) / INR n)) as E2. rewrite <- D in E2.
  change (Rabs (FR (tree_sum (tree n) ys) - S) <= ((1 + uu) ^ (n - 1) - 1) * A) in E.
  set (x := FR (tree_sum (tree n) ys)) in *. set (m := FR (fdiv (tree_sum (tree n) ys) (fofZ (Z.of_nat n)))) in *. clearbody x m S A.
  assert (Q : (1 + uu) ^ n = (1 + uu) * (1 + uu) ^ (n - 1)). { replace n with (Datatypes.S (n - 1)) at 1 by lia. reflexivity. }
  pose proof uu_small as U. assert (P1 : 1 <= (1 + uu) ^ (n - 1)) by (apply pow_R1_Rle; lra).
  rewrite Q. set (p := (1 + uu) ^ (n - 1)) in *. clearbody p.
  assert (DIV : Rabs (x / INR n - S / INR n) <= (p - 1) * (A / INR n)).
  { replace (x / INR n - S / INR n) with ((x - S) / INR n) by (field; lra). unfold Rdiv. rewrite Rabs_mult, (Rabs_pos_eq (/ INR n)) by (apply Rlt_le, Rinv_0_lt_compat; lra).
    rewrite <- Rmult_assoc. apply Rmult_le_compat_r; [apply Rlt_le, Rinv_0_lt_compat; lra|exact E]. }
  assert (PAD : Rabs (S / INR n) <= A / INR n).
  { unfold Rdiv. rewrite Rabs_mult, (Rabs_pos_eq (/ INR n)) by (apply Rlt_le, Rinv_0_lt_compat; lra). apply Rmult_le_compat_r; [apply Rlt_le, Rinv_0_lt_compat; lra|exact PA]. }
  pose proof (near_trans _ _ _ _ _ E2 DIV) as T. pose proof (near_abs _ _ _ DIV) as AB. eapply Rle_trans; [exact T|].
  assert (uu * Rabs (x / INR n) <= uu * (p * (A / INR n))) by (apply Rmult_le_compat_l; lra). lra.
Qed.

(** *** Whole calls *)
Local Close Scope R_scope.
Local Open Scope nat_scope.
Definition MeanAt (e : env) (o : ostate) (h : list fmatrix) (C : list (list f64)) (t : nat) (m : f64) : Prop :=
  exists ys, length ys = length (s_position (o_swarm o)) /\
    (forall i y, nth_error ys i = Some y -> exists x0 px, nth_error (s_position (o_swarm o)) i = Some x0 /\ best_of_run (so_far t h) (so_far t C) i x0 px y) /\
    m = np_mean (e_tree e) ys.
Lemma so_far_app : forall A t (l k : list A), t < length l -> so_far t (l ++ k) = so_far t l.
Proof. intros A t l k L. unfold so_far. rewrite firstn_app. replace (S t - length l) with 0 by lia. cbn. rewrite app_nil_r. reflexivity. Qed.
Lemma so_far_all : forall A t (l : list A), length l = S t -> so_far t l = l.
Proof. intros A t l L. unfold so_far. rewrite <- L. apply firstn_all. Qed.
Definition MInv c e pool (o : ostate) (k : nat) (o1 : ostate) : Prop :=
  exists h C B M, Run c e pool o k o1 h C B /\ o_mean_pbest_history o1 = o_mean_pbest_history o ++ M /\ length M = k /\
    forall t m, nth_error M t = Some m -> MeanAt e o h C t m.
Definition MHist (c : config) e pool (o : ostate) (o1 : ostate) : Prop :=
  exists h C M, o_pos_history o1 = o_pos_history o ++ h /\ logged e pool h C /\ o_mean_pbest_history o1 = o_mean_pbest_history o ++ M /\ length M = length h /\
    forall t m, nth_error M t = Some m -> MeanAt e o h C t m.
Lemma MInv_hist : forall c e pool o k o1, MInv c e pool o k o1 -> MHist c e pool o o1.
Proof.
  intros c e pool o k o1 (h & C & B & M & R & E & L & H). exists h, C, M. destruct (ru_p _ _ _ _ _ _ _ _ _ R). split; [exact pi_hist|]. split; [exact pi_log|]. split; [exact E|].
  split; [lia|exact H].
Qed.
Lemma MInv_eval : forall c e pool o k o1 o3 cost pp pc tp bp bc np, pool <> Some 0 -> Fresh c o -> MInv c e pool o k o1 ->
  Evald c e pool k o1 o3 cost pp pc tp bp bc np -> MInv c e pool o (S k) o3.
Proof.
  intros c e pool o k o1 o3 cost pp pc tp bp bc np NP F (h & C & B & M & R & E & L & H) EV.
  pose proof (Run_eval _ _ _ _ _ _ _ _ _ _ _ _ _ _ _ _ _ NP R EV) as R'.
  exists (h ++ [s_position (o_swarm o1)]), (C ++ [cost]), (B ++ [bc]), (M ++ [np_mean (e_tree e) pc]). split; [exact R'|].
  pose proof EV as (_ & _ & _ & E3). split; [rewrite E3; cbn; rewrite E, app_assoc; reflexivity|].
  split; [rewrite app_length; cbn; lia|]. intros t m T.
  destruct (ru_p _ _ _ _ _ _ _ _ _ R). destruct pi_log as [LG _].
  destruct (Nat.lt_ge_cases t k) as [Q|Q].
  - rewrite nth_error_app1 in T by lia. destruct (H t m T) as (ys & A1 & A2 & A3). exists ys. split; [exact A1|]. split; [|exact A3].
    rewrite !so_far_app by lia. exact A2.
  - rewrite nth_error_app2 in T by lia. assert (t = k). { apply nth_error_lt in T. cbn in T. lia. } subst t. rewrite L, Nat.sub_diag in T. injection T as <-.
    exists pc. assert (PC : s_pbest_cost (o_swarm o3) = pc) by (rewrite E3; reflexivity).
    destruct (ru_p _ _ _ _ _ _ _ _ _ R') as []. destruct (pi_n0 ltac:(lia)) as (N1 & N2 & N3).
    destruct (Fresh_inv _ _ F) as (dim & pos & vel & SW & _).
    assert (LP : length (s_pbest_pos (o_swarm o)) = length (s_position (o_swarm o))) by (rewrite SW; reflexivity).
    rewrite PC in *. split; [ftypes; lia|]. split; [|reflexivity]. intros i y Y.
    rewrite !so_far_all by (rewrite app_length; cbn; lia).
    destruct (nth_error_ex (s_pbest_pos (o_swarm o3)) i) as [px PX]; [apply nth_error_lt in Y; ftypes; lia|].
    destruct (run_pbest _ _ _ _ _ _ _ _ _ _ _ F R' PX) as (x0 & py & X0 & PY & BR). rewrite PC in PY.
    pose proof (eq_trans (eq_sym PY) Y) as EY. injection EY as ->. eauto.
Qed.
Lemma MInv_core : forall c e pool o k o1 o2, MInv c e pool o k o1 -> core_eq o1 o2 -> length (s_position (o_swarm o2)) = length (s_position (o_swarm o1)) -> MInv c e pool o k o2.
Proof.
  intros c e pool o k o1 o2 (h & C & B & M & R & E & L & H) CE LN. exists h, C, B, M. split; [eapply Run_core; eauto|]. rewrite (ce_mp _ _ CE). auto.
Qed.
Lemma MHist_same : forall c e pool o o1 o2, MHist c e pool o o1 -> o_pos_history o2 = o_pos_history o1 -> o_mean_pbest_history o2 = o_mean_pbest_history o1 -> MHist c e pool o o2.
Proof. intros c e pool o o1 o2 (h & C & M & H) A B. exists h, C, M. rewrite A, B. exact H. Qed.
Lemma mean_run : forall c e pool iters o o' r, Fresh c o -> pool <> Some 0 -> optimize c e pool iters o = (o', r) -> MHist c e pool o o'.
Proof.
  intros c e pool iters o o' r F NP E.
  destruct (optimize_rule c e pool iters o (fun k o1 _ => MInv c e pool o k o1) (fun k o1 _ => MInv c e pool o (S k) o1) (MHist c e pool o) (fun o1 _ => MHist c e pool o o1)) with (o' := o') (r := r)
    as [(Q & _)|[(_ & Q & _)|(_ & x & Q & _)]]; auto; [| | | |congruence].
  - exists [], [], [], []. split; [apply Run_start|]. rewrite app_nil_r. destruct (started_facts c o) as (_ & _ & E3 & _).
    split; [|split; [reflexivity|intros [|t]; discriminate]]. unfold started. destruct (c_kind c) eqn:K; unfold start_pbest, start_memory; rewrite ?K; reflexivity.
  - intros i o1 q Hi I. pose proof (evaluate_cases c e pool i o1 q) as EC. destruct (evaluate_swarm c e pool i o1 q) as [o2 q2|o2|o2 x].
    + destruct EC as (cost & pp & pc & t & bp & bc & np & EV & _). eapply MInv_eval; eauto.
    + destruct EC as (cost & pp & pc & t & bp & bc & np & EV & _). eapply MInv_hist. eapply MInv_eval; eauto.
    + apply MInv_hist in I. inversion EC; subst; eapply MHist_same; eauto.
  - intros i o1 q Hi I. pose proof (update_cases c e iters i o1 q) as UC. destruct (update_swarm c e iters i o1 q) as [o2 q2|o2|o2 x].
    + destruct UC as (_ & CE & opts & v & vm & p & bm & U). pose proof (Updated_length _ _ _ _ _ _ _ _ _ _ _ U) as [L _]. apply shape_eq_length in L.
      eapply MInv_core; eauto. destruct U as (_ & U & _). rewrite U. symmetry. exact L.
    + contradiction.
    + destruct UC as (CE & Pp). eapply MHist_same; [eapply MInv_hist; exact I|exact (ce_ph _ _ CE)|exact (ce_mp _ _ CE)].
  - intros o1 q I. eapply MInv_hist; eauto.
Qed.
Lemma mean_value : forall c e pool iters o o' r, Fresh c o -> pool <> Some 0 -> optimize c e pool iters o = (o', r) ->
  exists C, logged e pool (o_pos_history o') C /\ length (o_mean_pbest_history o') = length (o_pos_history o') /\
    forall t m, nth_error (o_mean_pbest_history o') t = Some m ->
      exists ys, length ys = length (s_position (o_swarm o)) /\
        (forall i y, nth_error ys i = Some y -> exists x0 px, nth_error (s_position (o_swarm o)) i = Some x0 /\
           best_of_run (so_far t (o_pos_history o')) (so_far t C) i x0 px y) /\
        (proper_sum (e_tree e (length ys)) (length ys) -> (Z.of_nat (length ys) <= 2 ^ 53)%Z -> ffinite m = true ->
         Rabs (FR m - exact_mean ys) <= ((1 + bpow radix2 (-53)) ^ length ys - 1) * mean_magnitude ys + bpow radix2 (-1075))%R.
Proof.
  intros c e pool iters o o' r F NP E. destruct (mean_run _ _ _ _ _ _ _ F NP E) as (h & C & M & H1 & H2 & H3 & H4 & H5).
  destruct (Fresh_inv _ _ F) as (dim & pos & vel & SW & _ & M0' & _ & P0 & V0).
  rewrite P0 in H1. rewrite M0' in H3. cbn in H1, H3. rewrite H1, H3. exists C. split; [exact H2|]. split; [exact H4|].
  intros t m T. destruct (H5 t m T) as (ys & A1 & A2 & ->). exists ys. split; [exact A1|]. split; [exact A2|]. apply mean_err.
Qed.
