(** More proofs for C89: values of varied options exist, and an objective with costs below infinity. *)
From Coq Require Import String ZArith List Arith Bool Lia Reals Lra.
From Flocq Require Import Core BinarySingleNaN.
From Verif Require Import Prelude ListFacts F64 F64Facts F64More Num Np Handlers Swarms Operators Generators Topology Optimizers Spec SpecHandlers SpecOpts SpecRun SpecReflect SpecSafe
  RunFacts RunMain RunMisc BoxRun StartRun ReflectEnd BinFacts Shapes SafeFacts.
Import ListNotations.
Local Open Scope string_scope.
Local Open Scope list_scope.

Lemma ofZ_ge : forall a b, (a <= b)%Z -> fle (fofZ a) (fofZ b) = true.
Proof.
  intros a b H. refine (is_round_mono _ _ _ _ (fofZe_round a 0) (fofZe_round b 0) _). unfold F2R. cbn. rewrite !Rmult_1_r. apply IZR_le, H.
Qed.
Lemma seven_fin : ffinite (fofZ 7) = true. Proof. vm_compute. reflexivity. Qed.
Lemma seven_pos : fle fzero (fofZ 7) = true. Proof. vm_compute. reflexivity. Qed.
Lemma one_fin : ffinite (fofZ 1) = true. Proof. vm_compute. reflexivity. Qed.
Lemma one_pos : flt fzero (fofZ 1) = true. Proof. vm_compute. reflexivity. Qed.
Lemma zero_is : fofZ 0 = fzero. Proof. vm_compute. reflexivity. Qed.
Lemma zero_fin : ffinite fzero = true. Proof. reflexivity. Qed.
Lemma FR_zero : FR fzero = 0%R. Proof. reflexivity. Qed.
Lemma seven_inf : fmul (fofZ 7) finf = finf. Proof. vm_compute. reflexivity. Qed.
Lemma one_inf : fadd (fofZ 1) finf = finf. Proof. vm_compute. reflexivity. Qed.
Lemma one_nan : fadd (fofZ 1) fnan = fnan. Proof. vm_compute. reflexivity. Qed.
Lemma FR_pos : forall x, ffinite x = true -> flt fzero x = true -> (0 < FR x)%R.
Proof. intros x F H. destruct x as [s|s| |s m e Hx]; try discriminate. destruct s; [discriminate|]. apply F2R_gt_0. cbn. lia. Qed.
Lemma round_nonneg : forall r z, is_round r z -> (0 <= r)%R -> fle fzero z = true.
Proof. intros r z H P. exact (is_round_le_l r z fzero H zero_fin P). Qed.
Definition nn (x : f64) : Prop := x = fnan \/ fle fzero x = true.
Lemma seven_nn : forall x, fle fzero x = true -> fle fzero (fmul (fofZ 7) x) = true.
Proof.
  intros x H. destruct (nonneg_cases x H) as [->|[F P]]; [rewrite seven_inf; reflexivity|]. apply (round_nonneg _ _ (fmul_round _ _ seven_fin F)).
  apply Rmult_le_pos; [|exact P]. destruct (nonneg_cases _ seven_pos) as [E|[_ Q]]; [|exact Q]. pose proof seven_fin as S. rewrite E in S. discriminate.
Qed.
Lemma div_nn : forall x m, fle fzero x = true -> flt fzero m = true -> nn (fdiv x m).
Proof.
  intros x m H M. destruct (nonneg_cases x H) as [->|[F P]].
  - destruct m as [s|[]| |[] mm e Hm]; try discriminate; [left; reflexivity|right; reflexivity].
  - assert (C : m = finf \/ ffinite m = true) by (clear - M; destruct m as [s|[]| |s mm e Hm]; try discriminate; auto).
    destruct C as [->|FM].
    + destruct x as [s|s| |[] mx e Hx]; try discriminate; right; [destruct s; reflexivity|reflexivity].
    + right. pose proof (FR_pos m FM M) as Q. apply (round_nonneg _ _ (fdiv_round x m F FM ltac:(lra))). apply Rmult_le_pos; [exact P|]. left. apply Rinv_0_lt_compat, Q.
Qed.
Lemma one_more : forall y, nn y -> feq (fadd (fofZ 1) y) fzero = false.
Proof.
  intros y [->|H]; [rewrite one_nan; reflexivity|]. destruct (nonneg_cases y H) as [->|[F P]]; [rewrite one_inf; reflexivity|].
  assert (L : fle (fofZ 1) (fadd (fofZ 1) y) = true). { apply (is_round_le_l _ _ _ (fadd_round _ _ one_fin F) one_fin). lra. }
  pose proof one_pos as O. revert L. generalize (fadd (fofZ 1) y). revert O. generalize (fofZ 1). clear. intros a A z Z. destruct (feq z fzero) eqn:E; [|reflexivity]. exfalso. forder.
Qed.
Lemma decay_nonzero : forall i m, (0 <= i)%Z -> (0 < m)%Z -> feq (fadd (fofZ 1) (fdiv (fmul (fofZ 7) (fofZ i)) (fofZ m))) (fofZ 0) = false.
Proof.
  intros i m I M. rewrite zero_is. apply one_more, div_nn.
  - apply seven_nn. rewrite <- zero_is. apply ofZ_ge, I.
  - pose proof (ofZ_ge 1 m ltac:(lia)) as L. pose proof one_pos as O. revert L O. generalize (fofZ 1) (fofZ m). clear. intros. forder.
Qed.

Lemma held : forall (o : options F64num) k, dget o k <> None -> exists x, holds o k x.
Proof. intros o k H. destruct (dget o k) as [[z|x]|] eqn:E; [| |congruence]; [exists (nofZ (n := F64num) z); right; eauto|exists x; left; exact E]. Qed.
Lemma ended : forall (o : options F64num) i m opt, In opt ["c1"; "c2"; "w"] -> (forall k, In k ["c1"; "c2"; "w"] -> dget o k <> None) ->
  exists e, ends_at o (mkOk (N := F64num) (Some i) (Some m) None None None None) opt e.
Proof.
  intros o i m opt [<-|[<-|[<-|[]]]] H.
  - destruct (held o "c1" (H "c1" ltac:(cbn; tauto))) as [x X]. eexists. right. split; [discriminate|]. right. left. split; [reflexivity|]. exists x. split; [exact X|reflexivity].
  - destruct (held o "c2" (H "c2" ltac:(cbn; tauto))) as [x X]. eexists. right. split; [discriminate|]. right. right. split; [reflexivity|]. exists x. split; [exact X|reflexivity].
  - eexists. right. split; [discriminate|]. left. split; reflexivity.
Qed.
Lemma varied : forall (lib : oh_lib F64num) (start : options F64num) i m opt s, In opt ["c1"; "c2"; "w"] -> (forall k, In k ["c1"; "c2"; "w"] -> dget start k <> None) -> (0 <= i < m)%Z ->
  s = "lin_variation" \/ s = "exp_decay" \/ (s = "nonlin_mod" /\ feq (l_pow lib (fofZ m) (fdec 12 10)) fzero = false) ->
  exists x, new_value (N := F64num) lib start (mkOk (Some i) (Some m) None None None None) opt s x.
Proof.
  intros lib start i m opt s O K I C. destruct (held start opt (K opt O)) as [v V]. destruct (ended start i m opt O K) as [e E].
  assert (HD : has_defaults start) by (split; apply K; cbn; tauto).
  destruct C as [->|[->|[-> P]]]; eexists.
  - eapply NV_lin; [exact V|exact HD|exact E|reflexivity|reflexivity|lia].
  - eapply NV_exp; [exact V|exact HD|exact E|reflexivity|reflexivity|lia|right; split; reflexivity|right; split; reflexivity|]. exact (decay_nonzero i m ltac:(lia) ltac:(lia)).
  - eapply NV_nonlin; [exact V|exact HD|exact E|reflexivity|reflexivity|lia|right; split; reflexivity|]. exact (eq_trans (f_equal (fun z => feq (l_pow lib (fofZ m) (fdec 12 10)) z) zero_is) P).
Qed.

Lemma concat_below : forall (f : fmatrix -> res (list f64)) bs rs, mapM f bs = Ok rs -> (forall b cs v, In b bs -> f b = Ok cs -> In v cs -> flt v finf = true) -> forall v, In v (concat rs) -> flt v finf = true.
Proof.
  intros f. induction bs as [|b bs IH]; intros rs M H v V; cbn [mapM] in M; [injection M as <-; destruct V|].
  destruct (f b) as [cs|x] eqn:E; [|discriminate]. cbn [bind] in M. destruct (mapM f bs) as [rs'|x] eqn:R; [|discriminate]. cbn [bind] in M. injection M as <-. cbn [concat] in V.
  apply in_app_or in V. destruct V as [V|V]; [exact (H b cs v (or_introl eq_refl) E V)|]. exact (IH rs' eq_refl (fun b' cs' v' B => H b' cs' v' (or_intror B)) v V).
Qed.
Lemma below_promising : forall c tk e pool iters o, 1 <= c_n c -> 1 <= iters -> answers (c_d c) e iters -> stays_below (c_d c) e -> pool <> Some 0 -> Calm c tk o -> promising e pool o.
Proof.
  intros c tk e pool iters o N I1 AN BE PO (S & SN & SD & _) cs E. destruct S as (P & _).
  destruct (obj_total c e iters 0 pool _ AN I1 PO P) as (cs' & E' & L). assert (Q : cs' = cs) by congruence. subst cs'.
  destruct cs as [|v cs]; [cbn in L; exfalso; clear - N L; ftypes; lia|]. exists v. split; [left; reflexivity|].
  destruct P as [P1 P2]. assert (R : forall X cs v, Forall (fun r => length r = c_d c) X -> e_obj e 0 X = Ok cs -> In v cs -> flt v finf = true) by (intros; eapply BE; eauto).
  destruct pool as [k|]; cbn [compute_objective_function] in E; [|exact (R _ _ _ P2 E (or_introl eq_refl))].
  apply bind_Ok in E. destruct E as (rs & M & E). injection E as E.
  refine (concat_below _ _ _ M _ v _); [|rewrite E; left; reflexivity]. intros b cs' v' B. apply R.
  destruct k as [|k]; [congruence|]. destruct (chunks _ (s_position (o_swarm o)) k) as (CC & _). apply Forall_forall. intros r RR. rewrite Forall_forall in P2. apply P2. rewrite <- CC. apply in_concat. eauto.
Qed.
Lemma always_returns : forall c top dr o l e pool iters, construct c top dr = Ok o -> t_nb top = None -> shaped_draws (c_n c) (c_d c) dr -> (forall p, c_init c = Some p -> is_matrix (c_n c) (c_d c) p) ->
  consistent c -> suits c (t_kind top) -> (t_kind top = Star -> l = [] \/ 2 <= c_d c) -> Forall (fun q => delivers c (t_kind top) (q_env q) (q_iters q)) l ->
  delivers c (t_kind top) e iters -> answers (c_d c) e iters -> stays_below (c_d c) e -> pool <> Some 0 -> 1 <= iters -> c_bh c <> "reflective" ->
  exists v, snd (optimize c e pool iters (served c l o)) = Ok v.
Proof.
  intros c top dr o l e pool iters C NB SD SI CO SU OD FL DE AN BE PO I1 BH.
  destruct (never_raises c top dr o l e pool iters C NB SD SI CO SU OD FL DE AN PO I1) as [G|(_ & _ & _ & G)]; [|exact G|congruence]. intros _ _.
  destruct (safe_start c top dr o C NB SD SI CO) as [CA FI]. destruct (construct_inv _ _ _ _ C) as (s & M & _).
  destruct (served_any c (t_kind top) CO SU (built_clamp c dr s M) (built_box c top dr o C (proj1 CO) SI) l o FL CA FI) as [CA' _].
  exact (below_promising c (t_kind top) e pool iters _ (proj1 CO) I1 AN BE PO CA').
Qed.
Lemma served_box : forall c b l o, c_kind c <> Binary -> c_bounds c = Some b -> box_dim (c_d c) b -> finite_box b -> c_bh c = "reflective" ->
  is_matrix (c_n c) (c_d c) (s_position (o_swarm o)) -> none_outside b (s_position (o_swarm o)) ->
  is_matrix (c_n c) (c_d c) (s_position (o_swarm (served c l o))) /\ none_outside b (s_position (o_swarm (served c l o))).
Proof.
  intros c b l. induction l as [|q l IH]; intros o K B BD FB BH M NO; cbn [served]; [auto|].
  destruct (optimize c (q_env q) (q_pool q) (q_iters q) o) as [o' r] eqn:E. cbn [fst].
  destruct (box_run c _ _ _ o o' r b (c_n c) (c_d c) K B BD FB ltac:(right; left; exact BH) M NO E) as (_ & _ & _ & M' & NO'). apply IH; auto.
Qed.
Lemma reflective_returns : forall c top dr o l e pool iters b cl k, construct c top dr = Ok o -> t_nb top = None -> shaped_draws (c_n c) (c_d c) dr -> (forall p, c_init c = Some p -> is_matrix (c_n c) (c_d c) p) ->
  consistent c -> suits c (t_kind top) -> (t_kind top = Star -> l = [] \/ 2 <= c_d c) -> Forall (fun q => delivers c (t_kind top) (q_env q) (q_iters q)) l ->
  delivers c (t_kind top) e iters -> answers (c_d c) e iters -> stays_below (c_d c) e -> pool <> Some 0 -> 1 <= iters ->
  c_kind c <> Binary -> c_bh c = "reflective" -> c_vh c = "unmodified" \/ c_vh c = "invert" \/ c_vh c = "adjust" -> c_bounds c = Some b -> finite_box b ->
  (c_init c = None -> c_center c = repeat fone (c_d c) /\ unit_matrix (c_n c) (c_d c) (cd_pos dr)) ->
  c_clamp c = Some cl -> roomy_run b cl k -> (forall t, k <= bd_fuel (e_bh e t)) -> callbacks_end e ->
  exists v, snd (optimize c e pool iters (served c l o)) = Ok v.
Proof.
  intros c top dr o l e pool iters b cl k C NB SD SI CO SU OD FL DE AN BE PO I1 KB BH VH CB FB UN CC RR FU CE.
  destruct (safe_start c top dr o C NB SD SI CO) as [CA FI]. destruct (construct_inv _ _ _ _ C) as (s & M & EO & _).
  pose proof (built_box c top dr o C (proj1 CO) SI KB b CB) as BD.
  destruct (served_any c (t_kind top) CO SU (built_clamp c dr s M) (built_box c top dr o C (proj1 CO) SI) l o FL CA FI) as [CA' _].
  destruct (never_raises c top dr o l e pool iters C NB SD SI CO SU OD FL DE AN PO I1) as [G|(G & _)]; [|exact G|exfalso].
  { intros _ _. exact (below_promising c (t_kind top) e pool iters _ (proj1 CO) I1 AN BE PO CA'). }
  assert (AR : b_arr b = true). { destruct CO as (_ & _ & _ & _ & _ & Q). destruct (Q KB b CB) as [Q1|[_ Q1]]; [|exact Q1]. rewrite BH in Q1. cbn in Q1. intuition discriminate. }
  destruct (start_box c dr s b KB CB BD FB UN SI M) as [S1 S2]. subst o.
  destruct (served_box c b l (mkOstate s top None None [] [] [] [] []) KB CB BD FB BH S1) as [M1 N1].
  { intros i j x lo u X K. destruct (S2 i j x lo u X K) as [H1 H2]. clear - H1 H2. split; forder. }
  destruct (optimize c e pool iters (served c l (mkOstate s top None None [] [] [] [] []))) as [o' r] eqn:E. cbn [snd] in G.
  exact (reflective_run_ends c e pool iters _ o' r b cl k CE KB BH VH CB CC BD AR RR FU M1 N1 E G).
Qed.
