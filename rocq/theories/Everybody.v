(** A neighbourhood of everybody is a star (C77). *)
From Coq Require Import String ZArith List Arith Bool Lia Permutation.
From Verif Require Import Prelude ListFacts F64 F64Facts Num Np NpFacts Handlers Swarms Operators Generators Topology Optimizers Spec SpecDyn SpecLike SpecMirror SpecShuffle SpecEverybody MirrorFacts HandlerFacts TopoGraphs RunFacts RunMain Prefixes RunStop Trajectory Reorder ShuffleTopo Shuffle EverybodyTopo.
Import ListNotations.
Local Open Scope string_scope.
Local Open Scope list_scope.
Local Open Scope nat_scope.

Section S.
Variables (c : config) (kd : opt_kind) (e : env) (n d : nat) (k : topo_kind) (h : list fmatrix).
Notation c' := (with_kind c kd).
Hypothesis CK : c_kind c <> Binary.
Hypothesis CK' : kd <> Binary.
Hypothesis N1 : 1 <= n.
Hypothesis SE : sees_everybody c' e n d k.
Hypothesis UT : untied e h.

Definition followed (b b' : fbestpos) : Prop := match b with BPEmpty => b' = BPEmpty | BPVec p => told n p b' | BPMat _ => False end.
Record W (o o' : ostate) : Prop := mkW {
  w_swarm : exists b x, o_swarm o' = set_best (o_swarm o) b x (s_best_np (o_swarm o)) /\ followed (s_best_pos (o_swarm o)) b /\ same (s_best_cost (o_swarm o)) x;
  w_star : t_kind (o_top o) = Star;
  w_top : ready n k (o_top o');
  w_bmem : o_bmem o' = o_bmem o;
  w_vmem : o_vmem o' = o_vmem o;
  w_ch : Forall2 same (o_cost_history o) (o_cost_history o');
  w_mp : o_mean_pbest_history o' = o_mean_pbest_history o;
  w_mn : Forall2 same (o_mean_neighbor_history o) (o_mean_neighbor_history o');
  w_ph : o_pos_history o' = o_pos_history o;
  w_vh : o_velocity_history o' = o_velocity_history o }.
Record Inv (i : nat) (o : ostate) : Prop := mkInv {
  i_n : s_n (o_swarm o) = n;
  i_d : s_d (o_swarm o) = d;
  i_len : length (s_pbest_cost (o_swarm o)) = n;
  i_hist : length (o_pos_history o) = i;
  i_old : (i = 0 /\ Forall (fun x => x = finf) (s_pbest_cost (o_swarm o)) /\ s_best_cost (o_swarm o) = finf) \/
    (known e h (o_swarm o) /\ s_best_np (o_swarm o) = true /\ exists q x, s_best_pos (o_swarm o) = BPVec q /\ evaluated e h q x /\ feq x (s_best_cost (o_swarm o)) = true /\
     exists j y, nth_error (s_pbest_cost (o_swarm o)) j = Some y /\ fle y (s_best_cost (o_swarm o)) = true) }.
Definition stepw (i : nat) (x y : step) : Prop :=
  match x, y with
  | Next o q, Next o' q' => W o o' /\ q' = q /\ Inv i o /\ length (s_position (o_swarm o)) = n /\ s_best_pos (o_swarm o) <> BPEmpty
  | Break o, Break o' => W o o' /\ Inv i o
  | Raise o x, Raise o' x' => W o o' /\ x' = x
  | _, _ => False
  end.

Lemma w_set : forall o o' s s', W o o' -> (exists b x, s' = set_best s b x (s_best_np s) /\ followed (s_best_pos s) b /\ same (s_best_cost s) x) -> W (with_swarm o s) (with_swarm o' s').
Proof. intros o o' s s' [] H. constructor; cbn; assumption. Qed.
Lemma pbest_lens : forall (s : fswarm) pp pc, compute_pbest (N := F64num) s = Ok (pp, pc) -> length pp = length (s_position s) /\ length (s_position s) = length (s_pbest_cost s) /\ length pc = length (s_pbest_cost s).
Proof.
  intros s pp pc H. pose proof (pbest_len _ _ _ H) as L. unfold compute_pbest in H. destruct (Nat.eqb_spec (length (s_current_cost s)) (length (s_pbest_cost s))) as [E|]; cbn [negb] in H; [|discriminate].
  destruct (Nat.eqb_spec (length (map2 nlt (s_current_cost s) (s_pbest_cost s))) (length (s_position s))) as [E2|]; cbn [negb andb] in H; [|discriminate].
  destruct (same_shape (s_position s) (s_pbest_pos s)) eqn:SH; cbn [negb] in H; [|discriminate]. injection H as <- <-.
  apply same_shape_length in SH. rewrite map2_length in E2. rewrite map3_length, map2_length. ftypes. lia.
Qed.
Lemma pbest_le : forall (s : fswarm) pp pc j x y, compute_pbest (N := F64num) s = Ok (pp, pc) -> nth_error (s_pbest_cost s) j = Some x -> nth_error pc j = Some y -> fisnan x = false -> fle y x = true.
Proof.
  intros s pp pc j x y H X Y NX. unfold compute_pbest in H. destruct (negb _) in H; [discriminate|]. destruct (negb _) in H; [discriminate|]. injection H as <- <-.
  apply map3_nth in Y. destruct Y as (m & a & b & M & A & B & ->). cbn [T F64num nlt] in M. destruct (map2_flt_nth _ _ _ _ M) as (y & z & YY & Z & ->). ftypes. assert (a = x) by congruence. assert (z = x) by congruence. assert (y = b) by congruence. subst a z y. destruct (flt b x) eqn:LT; cbn [negb]; [apply flt_le; exact LT|apply fle_refl; exact NX].
Qed.
Lemma star_ok : forall u (s : fswarm), length (s_pbest_cost s) = n -> length (s_pbest_pos s) = n -> exists g, snd (star_gbest u s) = Ok g.
Proof.
  intros u s LC LP. assert (NE : s_pbest_cost s <> []) by (intros Z; rewrite Z in LC; cbn in LC; lia). unfold star_gbest. cbn [snd]. destruct (np_min_ok _ NE) as (m & M). ftypes. rewrite M. cbn [bind].
  destruct (flt m (s_best_cost s)); [|eauto]. destruct (np_argmin_ok _ NE) as (i & I). pose proof (np_argmin_lt _ _ I) as LI. ftypes. rewrite I. cbn [bind]. destruct (nth_error_ex (s_pbest_pos s) i) as (p & P); [ftypes; lia|]. ftypes. rewrite P. cbn. eauto.
Qed.

Lemma evaluate_w : forall i o o' q, W o o' -> Inv i o -> (forall a, stated (evaluate_swarm c e None i o q) = Some a -> prefix (o_pos_history a) h) ->
  stepw (S i) (evaluate_swarm c e None i o q) (evaluate_swarm c' e None i o' q).
Proof.
  intros i o o' q HW IV. pose proof HW as [(b & x0 & ES & FO & SM) WS WT WB WV WC WP WN WPH WVH]. unfold evaluate_swarm, compute_objective_function. rewrite ES.
  change (s_position (set_best (o_swarm o) b x0 (s_best_np (o_swarm o)))) with (s_position (o_swarm o)).
  destruct (e_obj e i (s_position (o_swarm o))) as [cost|x] eqn:EO; [|intros _; split; [exact HW|reflexivity]]. cbv zeta.
  change (compute_pbest (set_current_cost (set_best (o_swarm o) b x0 (s_best_np (o_swarm o))) cost)) with (compute_pbest (set_current_cost (o_swarm o) cost)).
  destruct (compute_pbest (set_current_cost (o_swarm o) cost)) as [[pp pc]|x] eqn:EP.
  2: { intros _. split; [|reflexivity]. apply w_set; [exact HW|]. exists b, x0. split; [reflexivity|split; assumption]. }
  set (s2 := set_pbest (set_current_cost (o_swarm o) cost) pp pc). change (set_pbest (set_current_cost (set_best (o_swarm o) b x0 (s_best_np (o_swarm o))) cost) pp pc) with (set_best s2 b x0 (s_best_np s2)).
  destruct (pbest_lens _ _ _ EP) as (L1 & L2 & L3). cbn [set_current_cost s_position s_pbest_cost] in L1, L2, L3. pose proof (i_len _ _ IV) as LL.
  assert (LC : length (s_pbest_cost s2) = n) by (unfold s2; cbn [set_pbest s_pbest_cost]; ftypes; lia). assert (LP : length (s_pbest_pos s2) = n) by (unfold s2; cbn [set_pbest s_pbest_pos]; ftypes; lia).
  assert (LX : length (s_position s2) = n) by (unfold s2; cbn [set_pbest set_current_cost s_position]; ftypes; lia).
  destruct (star_ok (o_top o) s2 LC LP) as (g & G).
  assert (ST : compute_gbest (e_top e i) (gbest_args c) (o_top o) s2 = star_gbest (o_top o) s2) by (unfold compute_gbest; rewrite WS; reflexivity). rewrite ST.
  assert (KS : t_kind (fst (star_gbest (o_top o) s2)) = Star) by (unfold star_gbest; cbn [fst]; destruct (t_nb (o_top o)); exact WS).
  destruct (star_gbest (o_top o) s2) as [t r] eqn:SG. cbn [snd fst] in G, KS. subst r. destruct g as [[bp bc] np]. intros PF.
  assert (NH : nth_error h i = Some (s_position (o_swarm o))).
  { assert (Q : prefix (o_pos_history o ++ [s_position (o_swarm o)]) h).
    { revert PF. destruct (Nat.leb (c_ftol_iter c) i && _); cbn [stated]; intros PF; exact (PF _ eq_refl). }
    destruct Q as (rest & ->). rewrite <- app_assoc, nth_error_app2 by (rewrite (i_hist _ _ IV); lia). rewrite (i_hist _ _ IV), Nat.sub_diag. reflexivity. }
  assert (KN : known e h s2).
  { intros j p x P X. eapply (eval_known e h UT i (o_swarm o)); [exact EO|exact NH|exact EP| |exact P|exact X]. destruct (i_old _ _ IV) as [(A & B & _)|(A & _)]; [left; split; assumption|right; exact A]. }
  assert (CL : clear_of s2) by (apply (known_clear e h UT); [ftypes; congruence|exact KN]).
  destruct (leader_ex s2 n LC LP N1 CL) as (p & m & LD).
  assert (EV : evaluated e h p m) by (destruct LD as [(j & P & M) _]; exact (KN j p m P M)).
  destruct (star_told s2 n LC LP N1 CL (o_top o) m p LD) as (m1 & S1 & Q1).
  { intros NL. change (s_best_cost s2) with (s_best_cost (o_swarm o)) in *. change (s_best_pos s2) with (s_best_pos (o_swarm o)). change (s_best_np s2) with (s_best_np (o_swarm o)).
    destruct (i_old _ _ IV) as [(_ & _ & Z)|(_ & NP & q0 & x & B & EQ & FQ & j & y & J & LE)].
    - exfalso. rewrite Z in NL. destruct UT as [U1 _]. rewrite (U1 _ _ EV) in NL. discriminate.
    - exists q0. split; [exact B|]. split; [exact NP|].
      assert (FM : feq m (s_best_cost (o_swarm o)) = true).
      { assert (JL : j < length pc) by (pose proof (nth_error_lt _ _ _ J); ftypes; lia). destruct (nth_error_ex pc j JL) as (y' & J').
        assert (LY : fle y' y = true) by (eapply (pbest_le (set_current_cost (o_swarm o) cost)); [exact EP|exact J|exact J'|exact (fle_notnan_l _ _ LE)]).
        assert (LM : fle m (s_best_cost (o_swarm o)) = true) by (eapply fle_trans; [|eapply fle_trans; [exact LY|exact LE]]; destruct LD as [_ LD]; apply (LD j y'); exact J').
        apply feq_le; [exact LM|]. pose proof (fle_notnan_l _ _ LM). pose proof (fle_notnan_r _ _ LM). forder. }
      split; [exact FM|]. destruct UT as [_ U2]. apply (U2 q0 x p m EQ EV). rewrite feq_sym in FM. rewrite (feq_trans _ _ m FQ) in FM. exact FM. }
  rewrite SG in S1. cbn [snd] in S1. injection S1 as -> -> ->.
  assert (SE2 : sees_everybody c' e n (s_d (set_best s2 b x0 (s_best_np s2))) k) by (change (s_d (set_best s2 b x0 (s_best_np s2))) with (s_d (o_swarm o)); rewrite (i_d _ _ IV); exact SE).
  destruct (gbest_told (set_best s2 b x0 (s_best_np s2)) n LC LP N1 CL c' e i LX (i_n _ _ IV) k (o_top o') m p SE2 WT LD) as (u & b2 & m2 & GE & RD & TD & Q2). rewrite GE.
  change (s_best_cost (set_best s2 b x0 (s_best_np s2))) with x0. change (s_best_cost s2) with (s_best_cost (o_swarm o)). clear PF.
  assert (S12 : same m1 m2) by (left; rewrite <- (feq_trans _ _ m2 Q1) in Q2; exact Q2).
  rewrite (change_same (c_ftol c') _ _ _ _ SM S12). change (c_ftol c') with (c_ftol c). change (c_ftol_iter c') with (c_ftol_iter c).
  match goal with |- stepw _ (if ?t then Break ?a else _) (if _ then Break ?b else _) => assert (F : W a b /\ Inv (S i) a) end.
  { split.
    - constructor; cbn [populate_history with_top with_swarm o_swarm o_top o_bmem o_vmem o_cost_history o_mean_pbest_history o_mean_neighbor_history o_pos_history o_velocity_history]; try assumption.
      + exists b2, m2. split; [reflexivity|]. split; [exact TD|exact S12].
      + apply Forall2_app; [exact WC|constructor; [exact S12|constructor]].
      + rewrite WP. reflexivity.
      + apply Forall2_app; [exact WN|constructor; [exact S12|constructor]].
      + rewrite WPH. reflexivity.
      + rewrite WVH. reflexivity.
    - constructor; cbn [populate_history with_top with_swarm o_swarm o_pos_history].
      + exact (i_n _ _ IV).
      + exact (i_d _ _ IV).
      + exact LC.
      + rewrite app_length. cbn [length]. rewrite (i_hist _ _ IV). lia.
      + right. split; [exact KN|]. split; [reflexivity|]. exists p, m. split; [reflexivity|]. split; [exact EV|]. split; [exact Q1|]. destruct LD as [(j & P & M) _]. exists j, m. split; [exact M|]. change (fle m m1 = true). clear -Q1. forder. }
  destruct F as [F1 F2]. destruct (Nat.leb (c_ftol_iter c) i && _); [split; assumption|]. split; [exact F1|]. split; [reflexivity|]. split; [exact F2|]. split; [exact LX|discriminate].
Qed.

Lemma rows_told : forall (b b' : fbestpos) x, b <> BPEmpty -> followed b b' -> x = n -> best_rows (N := F64num) x d b' = best_rows (N := F64num) x d b.
Proof. intros b b' x NE F ->. destruct b as [|p|m]; [congruence| |contradiction]. destruct F as [-> | ->]; reflexivity. Qed.
Lemma update_w : forall iters i o o' q, W o o' -> s_d (o_swarm o) = d -> length (s_position (o_swarm o)) = n -> s_best_pos (o_swarm o) <> BPEmpty ->
  match update_swarm c e iters i o q, update_swarm c' e iters i o' q with
  | Next a p, Next a' p' => W a a' /\ p' = p
  | Raise a x, Raise a' x' => W a a' /\ x' = x
  | _, _ => False
  end.
Proof.
  intros iters i o o' q HW SD LX NE. pose proof HW as [(b & x0 & ES & FO & SM) WS WT WB WV WC WP WN WPH WVH].
  assert (U : forall cc, c_kind cc <> Binary -> forall o q, update_swarm cc e iters i o q =
    match oh_call (e_oh e i) (c_oh cc) (c_options cc) (mkOk (Some (Z.of_nat i)) (Some (Z.of_nat iters)) None None None None) with
    | Err x => Raise o x
    | Ok opts => let s1 := set_options (o_swarm o) opts in let o1 := with_swarm o s1 in
       match compute_velocity (e_vel e i) (c_vh cc) (o_vmem o1) s1 (c_clamp cc) (c_bounds cc) with
       | Err x => Raise o1 x
       | Ok (v, vmem) => let s2 := set_velocity s1 v in let o2 := with_vmem (with_swarm o1 s2) vmem in
           match compute_position (e_bh e i) (c_bh cc) (o_bmem o2) s2 (c_bounds cc) with
           | Err x => Raise o2 x
           | Ok (p, bmem) => Next (with_bmem (with_swarm o2 (set_position s2 p)) bmem) q
           end
       end
    end) by (intros cc H; unfold update_swarm; destruct (c_kind cc); try reflexivity; congruence).
  rewrite (U c CK), (U c' CK'). clear U. change (c_oh c') with (c_oh c). change (c_options c') with (c_options c). change (c_vh c') with (c_vh c). change (c_clamp c') with (c_clamp c). change (c_bounds c') with (c_bounds c). change (c_bh c') with (c_bh c).
  destruct (oh_call (e_oh e i) (c_oh c) (c_options c) _) as [opts|x]; [|split; [exact HW|reflexivity]]. cbv zeta. rewrite ES.
  cbn [with_swarm o_vmem]. rewrite WV.
  assert (EV : compute_velocity (e_vel e i) (c_vh c) (o_vmem o) (set_options (set_best (o_swarm o) b x0 (s_best_np (o_swarm o))) opts) (c_clamp c) (c_bounds c) = compute_velocity (e_vel e i) (c_vh c) (o_vmem o) (set_options (o_swarm o) opts) (c_clamp c) (c_bounds c)).
  { unfold compute_velocity. cbn [set_options set_best s_options s_position s_d s_best_pos s_pbest_pos s_velocity]. rewrite SD, (rows_told _ _ _ NE FO LX). reflexivity. }
  rewrite EV. clear EV. destruct (compute_velocity (e_vel e i) (c_vh c) (o_vmem o) (set_options (o_swarm o) opts) (c_clamp c) (c_bounds c)) as [[v vm]|x].
  2: { split; [|reflexivity]. apply w_set; [exact HW|]. exists b, x0. split; [reflexivity|split; assumption]. }
  cbn [with_vmem with_swarm o_bmem]. rewrite WB.
  change (compute_position (e_bh e i) (c_bh c) (o_bmem o) (set_velocity (set_options (set_best (o_swarm o) b x0 (s_best_np (o_swarm o))) opts) v) (c_bounds c)) with (compute_position (e_bh e i) (c_bh c) (o_bmem o) (set_velocity (set_options (o_swarm o) opts) v) (c_bounds c)).
  destruct (compute_position (e_bh e i) (c_bh c) (o_bmem o) (set_velocity (set_options (o_swarm o) opts) v) (c_bounds c)) as [[p bm]|x]; (split; [|reflexivity]); constructor; cbn; try assumption; try reflexivity; exists b, x0; (split; [reflexivity|split; assumption]).
Qed.
Definition ends (x y : loop_end) : Prop := match x, y with LDone o, LDone o' => W o o' | LRaise o x, LRaise o' x' => W o o' /\ x' = x | _, _ => False end.
Lemma loop_w : forall iters m i o o' q, W o o' -> Inv i o -> prefix (o_pos_history (end_state (opt_loop c e None iters m i o q))) h ->
  ends (opt_loop c e None iters m i o q) (opt_loop c' e None iters m i o' q).
Proof.
  intros iters m. induction m as [|m IH]; intros i o o' q HW IV PF; [exact HW|].
  pose proof (loop_grows c e None iters m) as LG. cbn [opt_loop] in *. unfold iteration in *. pose proof (evaluate_w i o o' q HW IV) as E.
  destruct (evaluate_swarm c e None i o q) as [a p|a|a x] eqn:EA.
  - pose proof (update_cases c e iters i a p) as UC.
    assert (PA : prefix (o_pos_history a) h).
    { destruct PF as (rest & PF). destruct (update_swarm c e iters i a p) as [b p2|b|b x]; [|contradiction|].
      - destruct UC as (_ & CE & _). destruct (LG (S i) b p2) as (_ & _ & _ & (r2 & G) & _). ftypes. rewrite G in PF. rewrite (ce_ph _ _ CE) in PF. exists (r2 ++ rest). rewrite PF, app_assoc. reflexivity.
      - destruct UC as (CE & _). cbn [end_state] in PF. rewrite (ce_ph _ _ CE) in PF. exists rest. exact PF. }
    assert (E0 : stepw (S i) (Next a p) (evaluate_swarm c' e None i o' q)) by (apply E; intros z Z; injection Z as <-; exact PA).
    destruct (evaluate_swarm c' e None i o' q) as [a' p'|a'|a' x']; cbn [stepw] in E0; try contradiction. destruct E0 as (WA & -> & IA & LX & NE).
    pose proof (update_w iters i a a' p WA (i_d _ _ IA) LX NE) as US.
    destruct (update_swarm c e iters i a p) as [b p2|b|b x], (update_swarm c' e iters i a' p) as [b' p2'|b'|b' x']; try contradiction; [|exact US].
    destruct US as [SB ->]. destruct UC as (_ & CE & _). apply IH; [exact SB| |exact PF].
    destruct IA as [A1 A2 A3 A4 A5]. constructor; [rewrite (ce_n _ _ CE); exact A1|rewrite (ce_d _ _ CE); exact A2|rewrite (ce_pc _ _ CE); exact A3|rewrite (ce_ph _ _ CE); exact A4|].
    right. destruct A5 as [[Z _]|A5]; [discriminate|]. unfold known in *. rewrite (ce_pp _ _ CE), (ce_pc _ _ CE), (ce_np _ _ CE), (ce_bp _ _ CE), (ce_bc _ _ CE). exact A5.
  - assert (E0 : stepw (S i) (Break a) (evaluate_swarm c' e None i o' q)) by (apply E; intros z Z; injection Z as <-; exact PF).
    destruct (evaluate_swarm c' e None i o' q) as [a' p'|a'|a' x']; cbn [stepw] in E0; try contradiction. apply E0.
  - assert (E0 : stepw (S i) (Raise a x) (evaluate_swarm c' e None i o' q)) by (apply E; intros z Z; discriminate).
    destruct (evaluate_swarm c' e None i o' q) as [a' p'|a'|a' x']; cbn [stepw] in E0; try contradiction. exact E0.
Qed.
Lemma final_w : forall o o', W o o' -> same_result (final_result o) (final_result o').
Proof.
  intros o o' [(b & x0 & ES & FO & SM) _ _ _ _ _ _ _ _ _]. unfold final_result. rewrite ES. cbn [set_best s_best_np s_pbest_cost s_pbest_pos s_best_cost]. destruct (negb _); [reflexivity|].
  destruct (np_argmin (s_pbest_cost (o_swarm o))); [|reflexivity]. cbn [bind]. destruct (of_option IndexError _); [|reflexivity]. cbn [bind]. split; [exact SM|reflexivity].
Qed.
Lemma w_course : forall o o', W o o' -> same_course o o'.
Proof.
  intros o o' [(b & x0 & ES & FO & SM) WS WT WB WV WC WP WN WPH WVH]. unfold same_course. rewrite ES. cbn [set_best s_position s_velocity s_pbest_pos s_pbest_cost s_current_cost s_options s_best_cost]. repeat (split; [first [assumption|reflexivity]|]). exact SM.
Qed.
End S.

Lemma construct_kind : forall c kd top top' dr o o', c_kind c <> Binary -> kd <> Binary -> construct c top dr = Ok o -> construct (with_kind c kd) top' dr = Ok o' ->
  o' = with_top o top' /\ o_top o = top.
Proof.
  intros c kd top top' dr o o' CK CK' H H'. apply construct_inv in H. apply construct_inv in H'. destruct H as (s & M & -> & _). destruct H' as (s' & M' & -> & _).
  assert (E : make_swarm (with_kind c kd) dr = make_swarm c dr) by (unfold make_swarm; change (c_kind (with_kind c kd)) with kd; destruct (c_kind c); try congruence; destruct kd; try congruence; reflexivity). assert (s' = s) by congruence. subst s'. split; reflexivity.
Qed.
Lemma sees_pos : forall c e n d k, sees_everybody c e n d k -> 1 <= n.
Proof. intros c e n d [] H; cbn in H; try contradiction; lia. Qed.
Lemma everybody_star : forall c kd top top' dr e iters o o', c_kind c <> Binary -> kd <> Binary ->
  construct c top dr = Ok o -> construct (with_kind c kd) top' dr = Ok o' -> t_kind top = Star -> t_nb top' = None -> s_n (o_swarm o) = c_n c ->
  sees_everybody (with_kind c kd) e (c_n c) (s_d (o_swarm o)) (t_kind top') ->
  untied e (o_pos_history (fst (optimize c e None iters o))) ->
  same_course (fst (optimize c e None iters o)) (fst (optimize (with_kind c kd) e None iters o')) /\
  same_result (snd (optimize c e None iters o)) (snd (optimize (with_kind c kd) e None iters o')).
Proof.
  intros c kd top top' dr e iters o o' CK CK' CO CO' TK TN SN SE UT. destruct (construct_kind _ _ _ _ _ _ _ CK CK' CO CO') as [-> TO].
  assert (FR : s_best_cost (o_swarm o) = finf /\ s_best_pos (o_swarm o) = BPEmpty /\ o_pos_history o = []).
  { apply construct_inv in CO. destruct CO as (s & M & -> & _). destruct (make_swarm_new _ _ _ M) as (a & b & v & ->). repeat split. }
  destruct FR as (FC & FB & FH).
  revert UT. unfold optimize.
  assert (EH : forall l, fst match l with LDone a => (a, final_result a) | LRaise a x => (a, Err x) end = end_state l) by (intros []; reflexivity). intros UT. rewrite EH in UT.
  assert (SM : forall o, start_memory c o = with_vmem (with_bmem o (Some (s_position (o_swarm o)))) (Some (s_position (o_swarm o)))) by (intros; unfold start_memory; destruct (c_kind c); congruence).
  assert (SM' : forall o, start_memory (with_kind c kd) o = with_vmem (with_bmem o (Some (s_position (o_swarm o)))) (Some (s_position (o_swarm o)))) by (intros; unfold start_memory; cbn; destruct kd; congruence).
  rewrite SM, SM' in *. clear SM SM'.
  set (a := start_pbest c (with_vmem (with_bmem o (Some (s_position (o_swarm o)))) (Some (s_position (o_swarm o))))) in *.
  set (a' := start_pbest (with_kind c kd) (with_vmem (with_bmem (with_top o top') (Some (s_position (o_swarm (with_top o top'))))) (Some (s_position (o_swarm (with_top o top')))))).
  assert (W0 : W (c_n c) (t_kind top') a a').
  { constructor; try reflexivity.
    - exists (s_best_pos (o_swarm o)), (s_best_cost (o_swarm o)). split; [reflexivity|]. split; [|apply same_refl]. change (s_best_pos (o_swarm a)) with (s_best_pos (o_swarm o)). rewrite FB. reflexivity.
    - change (t_kind (o_top o) = Star). rewrite TO. exact TK.
    - split; [reflexivity|]. change (t_nb (o_top a')) with (t_nb top'). rewrite TN. exact I.
    - change (Forall2 same (o_cost_history o) (o_cost_history o)). induction (o_cost_history o); constructor; auto using same_refl.
    - change (Forall2 same (o_mean_neighbor_history o) (o_mean_neighbor_history o)). induction (o_mean_neighbor_history o); constructor; auto using same_refl. }
  assert (I0 : Inv e (c_n c) (s_d (o_swarm o)) (o_pos_history (end_state (opt_loop c e None iters iters 0 a []))) 0 a).
  { constructor.
    - exact SN.
    - reflexivity.
    - cbn. apply repeat_length.
    - change (length (o_pos_history o) = 0). rewrite FH. reflexivity.
    - left. split; [reflexivity|]. split; [apply Forall_forall; intros x X; cbn in X; apply repeat_spec in X; exact X|exact FC]. }
  pose proof (loop_w c kd e (c_n c) (s_d (o_swarm o)) (t_kind top') _ CK CK' (sees_pos _ _ _ _ _ SE) SE UT iters iters 0 a a' [] W0 I0 (prefix_refl _ _)) as L.
  destruct (opt_loop c e None iters iters 0 a []) as [b|b x], (opt_loop (with_kind c kd) e None iters iters 0 a' []) as [b'|b' x']; cbn [ends] in L; try contradiction; cbn [fst snd].
  - split; [eapply w_course; exact L|eapply final_w; exact L].
  - destruct L as [L ->]. split; [eapply w_course; exact L|reflexivity].
Qed.
