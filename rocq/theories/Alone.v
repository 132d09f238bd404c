(** Without the social coefficient the topology does not matter (C79). *)
From Coq Require Import String ZArith List Arith Bool Lia Reals.
From Flocq Require Import Core BinarySingleNaN.
From Verif Require Import Prelude ListFacts F64 F64Facts F64More Num Np NpFacts Handlers Swarms Operators Generators Topology Optimizers
  Spec SpecDyn SpecLike SpecMirror SpecHandlers SpecTame SpecEverybody SpecAlone RunFacts RunMain HandlerFacts Prefixes Entries MirrorFacts Like Everybody SameFacts.
Import ListNotations.
Local Open Scope string_scope.
Local Open Scope list_scope.
Local Open Scope nat_scope.

Notation wi := (fun _ : nat => within 1022).
Lemma Forall2_nth_r : forall A B (P : A -> B -> Prop) l l', Forall2 P l l' -> forall i y, nth_error l' i = Some y -> exists x, nth_error l i = Some x /\ P x y.
Proof. intros A B P l l' F. induction F as [|a b l l' H F IH]; intros [|i] y0 H0; cbn in H0; try discriminate; [injection H0 as <-; exists a; auto|destruct (IH i y0 H0) as (x & X & Y); exists x; auto]. Qed.
Lemma within_same : forall x x', same x x' -> within 1022 x -> within 1022 x'.
Proof.
  intros x x' S W. destruct (same_cases _ _ S) as [->|(s & s' & -> & ->)]; [exact W|]. destruct W as [_ W]. split; [reflexivity|]. exact W.
Qed.
Lemma all_within : forall m, all_e wi m -> Forall (Forall (within 1022)) m.
Proof.
  intros m H. apply Forall_forall. intros r R. apply Forall_forall. intros x X. apply In_nth_error in R. destruct R as (i & R). apply In_nth_error in X. destruct X as (j & X).
  exact (row_entries _ _ _ _ H R j x X).
Qed.
Lemma same_within : forall m m', same_matrix m m' -> all_e wi m -> all_e wi m'.
Proof.
  intros m m' S H i j x X. destruct (entry_row _ _ _ _ X) as (r' & R & Rj). destruct (Forall2_nth_r _ _ _ _ _ S _ _ R) as (r & Q & SR). destruct (Forall2_nth_r _ _ _ _ _ SR _ _ Rj) as (y & Y & SY).
  exact (within_same _ _ SY (row_entries _ _ _ _ H Q j y Y)).
Qed.
Lemma rows_within : forall n d b m, best_rows (N := F64num) n d b = Ok m -> best_e wi b -> Forall (Forall (within 1022)) m.
Proof.
  intros n d b m H W. unfold best_rows in H. destruct b as [|v|q].
  - destruct d as [|[|d]]; try discriminate. injection H as <-. apply Forall_forall. intros r R. apply repeat_spec in R. subst r. constructor.
  - injection H as <-. apply Forall_forall. intros r R. apply repeat_spec in R. subst r. apply Forall_forall. intros x X. apply In_nth_error in X. destruct X as (j & X). exact (W 0 j x X).
  - injection H as <-. apply all_within. exact W.
Qed.
Lemma draws_finite : forall e t, finite_social_draws e -> Forall (Forall (fun u => ffinite u = true)) (vd_u2 (e_vel e t)).
Proof.
  intros e t H. apply Forall_forall. intros r R. apply Forall_forall. intros x X. apply In_nth_error in R. destruct R as (i & R). apply In_nth_error in X. destruct X as (j & X).
  exact (H t i j x (entry_of _ _ _ _ _ R X)).
Qed.
Lemma choose_same : forall (mask : list bool) (o o' n n' : fmatrix), same_matrix o o' -> same_matrix n n' ->
  same_matrix (map3 (fun (m : bool) (x y : frow) => if negb m then x else y) mask o n) (map3 (fun (m : bool) (x y : frow) => if negb m then x else y) mask o' n').
Proof.
  intros mask o o' n n' O. revert mask n n'. induction O as [|r r' o o' R O IH]; intros [|m mask] n n' N; try (constructor; fail). destruct N as [|q q' n n' Q N]; [constructor|]. cbn. constructor; [destruct m; assumption|apply IH; exact N].
Qed.
Lemma pbest_same : forall (s s' : fswarm), same_matrix (s_position s) (s_position s') -> same_matrix (s_pbest_pos s) (s_pbest_pos s') -> s_pbest_cost s' = s_pbest_cost s -> s_current_cost s' = s_current_cost s ->
  RR (fun x y => same_matrix (fst x) (fst y) /\ snd y = snd x) (compute_pbest (N := F64num) s) (compute_pbest (N := F64num) s').
Proof.
  intros s s' X P C D. unfold compute_pbest. rewrite C, D, (sm_shape _ _ _ _ X P). cbv zeta. destruct (negb (Nat.eqb (length (s_current_cost s)) _)); [reflexivity|].
  pose proof (sm_len _ _ X) as L. ftypes. rewrite L. destruct (negb _); [reflexivity|]. split; [|reflexivity]. cbn [fst]. apply choose_same; assumption.
Qed.

Section A.
Variables (c : config) (kd : opt_kind) (e e' : env) (pool : option nat) (h : list fmatrix).
Notation c' := (with_kind c kd).
Hypothesis CK : c_kind c <> Binary.
Hypothesis CK' : kd <> Binary.
Hypothesis NS : c_bh c <> "shrink".
Hypothesis FT : c_ftol c = fninf.
Hypothesis FI : 0 < c_ftol_iter c.
Hypothesis SO : no_social c.
Hypothesis SE : same_but_social e e'.
Hypothesis NO : no_overflow h.

Record R (o o' : ostate) : Prop := mkR {
  r_x : same_matrix (s_position (o_swarm o)) (s_position (o_swarm o'));
  r_v : same_matrix (s_velocity (o_swarm o)) (s_velocity (o_swarm o'));
  r_pp : same_matrix (s_pbest_pos (o_swarm o)) (s_pbest_pos (o_swarm o'));
  r_pc : s_pbest_cost (o_swarm o') = s_pbest_cost (o_swarm o);
  r_bm : maybe same_matrix (o_bmem o) (o_bmem o');
  r_vm : maybe same_matrix (o_vmem o) (o_vmem o');
  r_ph : Forall2 same_matrix (o_pos_history o) (o_pos_history o');
  r_vh : Forall2 same_matrix (o_velocity_history o) (o_velocity_history o');
  r_mp : o_mean_pbest_history o' = o_mean_pbest_history o;
  r_w : s_pbest_pos (o_swarm o) = s_position (o_swarm o) \/ all_e wi (s_pbest_pos (o_swarm o));
  r_b : best_e wi (s_best_pos (o_swarm o));
  r_b' : best_e wi (s_best_pos (o_swarm o')) }.

Lemma evaluate_r : forall i o o' o3 o3' cost pp pc t bp bc np cost' pp' pc' t' bp' bc' np', R o o' -> all_e wi (s_position (o_swarm o)) ->
  Evald c e pool i o o3 cost pp pc t bp bc np -> Evald c' e' pool i o' o3' cost' pp' pc' t' bp' bc' np' -> R o3 o3'.
Proof.
  intros i o o' o3 o3' cost pp pc t bp bc np cost' pp' pc' t' bp' bc' np' [X V P C BM VM PH VH MP PW B B'] W (O & Q & G & ->) (O' & Q' & G' & ->). destruct SE as (SO1 & _ & _ & ST & _).
  assert (EO : compute_objective_function pool (e_obj e' i) (s_position (o_swarm o')) = compute_objective_function pool (e_obj e i) (s_position (o_swarm o))) by (apply (objective_co sr); [intros; apply SO1; assumption|exact X]).
  assert (cost' = cost) by congruence. subst cost'.
  pose proof (pbest_same (set_current_cost (o_swarm o) cost) (set_current_cost (o_swarm o') cost) X P C eq_refl) as E. rewrite Q, Q' in E. destruct E as [E1 E2]. cbn [fst snd] in E1, E2. subst pc'.
  assert (PP : all_e wi pp).
  { refine (pbest_entries _ _ _ _ Q W _). cbn [set_current_cost s_pbest_pos]. destruct PW as [Z|Z]; [rewrite Z; exact W|exact Z]. }
  pose proof (gbest_entries wi _ _ _ _ _ _ _ _ G PP B) as GB. pose proof (gbest_entries wi _ _ _ _ _ _ _ _ G' (same_within _ _ E1 PP) B') as GB'.
  constructor; cbn; try assumption; try reflexivity.
  - apply Forall2_app; [exact PH|]. constructor; [exact X|constructor].
  - apply Forall2_app; [exact VH|]. constructor; [exact V|constructor].
  - rewrite MP. f_equal. f_equal. unfold np_mean. first [rewrite ST; reflexivity|congruence].
  - right. exact PP.
Qed.

Lemma velocity_r : forall i (s s' : fswarm) opts vm vm' cl b (x : f64) y, num_of (N := F64num) opts "c2" = Ok x -> feq x fzero = true ->
  same_matrix (s_position s) (s_position s') -> same_matrix (s_velocity s) (s_velocity s') -> same_matrix (s_pbest_pos s) (s_pbest_pos s') -> maybe same_matrix vm vm' ->
  all_e wi (s_position s) -> best_e wi (s_best_pos s) -> best_e wi (s_best_pos s') ->
  compute_velocity (e_vel e i) (c_vh c) vm (set_options s opts) cl b = Ok y -> forall y', compute_velocity (e_vel e' i) (c_vh c) vm' (set_options s' opts) cl b = Ok y' -> sms y y'.
Proof.
  intros i s s' opts vm vm' cl b z y Z FZ X V P VM WX B B' H y' H'. destruct SE as (_ & S1 & _ & _ & F2 & F2'). unfold compute_velocity in H, H'. cbn [set_options s_options s_position s_d s_best_pos s_pbest_pos s_velocity] in H, H'.
  apply bind_Ok in H. destruct H as (c1 & C1 & H). apply bind_Ok in H. destruct H as (c2 & C2 & H). apply bind_Ok in H. destruct H as (w & W & H). apply bind_Ok in H. destruct H as (m & M & H).
  apply bind_Ok in H'. destruct H' as (c1' & C1' & H'). apply bind_Ok in H'. destruct H' as (c2' & C2' & H'). apply bind_Ok in H'. destruct H' as (w' & W' & H'). apply bind_Ok in H'. destruct H' as (m' & M' & H').
  assert (c1' = c1) by congruence. assert (c2 = z) by congruence. assert (c2' = z) by congruence. assert (w' = w) by congruence. subst c1' c2 c2' w'.
  match type of H with (if negb ?t then _ else _) = _ => destruct t eqn:SH end; [|discriminate]. match type of H' with (if negb ?t then _ else _) = _ => destruct t eqn:SH' end; [|discriminate]. cbn [negb] in H, H'.
  apply andb_true_iff in SH. destruct SH as [SH A5]. apply andb_true_iff in SH. destruct SH as [SH A4]. apply andb_true_iff in SH. destruct SH as [SH A3]. apply andb_true_iff in SH. destruct SH as [A1 A2].
  apply andb_true_iff in SH'. destruct SH' as [SH' D5]. apply andb_true_iff in SH'. destruct SH' as [SH' D4]. apply andb_true_iff in SH'. destruct SH' as [SH' D3]. apply andb_true_iff in SH'. destruct SH' as [D1 D2].
  assert (T : same_matrix (velocity_mat c1 z w (vd_u1 (e_vel e i)) (vd_u2 (e_vel e i)) (s_position s) (s_velocity s) (s_pbest_pos s) m) (velocity_mat c1 z w (vd_u1 (e_vel e' i)) (vd_u2 (e_vel e' i)) (s_position s') (s_velocity s') (s_pbest_pos s') m')).
  { rewrite S1. assert (SH : forall q : fmatrix, same_shape (s_position s') q = true -> sh (s_position s) q).
    { intros q Q. apply shape_sh. rewrite <- (sm_shape _ _ q q X (sm_refl q)). exact Q. }
    apply (velocity_mat_same c1 z w FZ _ _ X (all_within _ WX) (all_within _ (same_within _ _ X WX))); try assumption; try (apply shape_sh; assumption); try (apply SH; assumption).
    - apply draws_finite. exact F2.
    - apply draws_finite. exact F2'.
    - exact (rows_within _ _ _ _ M B).
    - exact (rows_within _ _ _ _ M' B'). }
  pose proof (vh_same (c_vh c) cl vm vm' (s_position s) (s_position s') b None _ _ VM X T) as E. rewrite H, H' in E. exact E.
Qed.

Lemma update_r : forall iters i o o' p p' opts v vm x bm opts' v' vm' x' bm', R o o' -> all_e wi (s_position (o_swarm o)) -> all_e wi (s_pbest_pos (o_swarm o)) -> core_eq o p -> core_eq o' p' ->
  Updated c e iters i o p opts v vm x bm -> Updated c' e' iters i o' p' opts' v' vm' x' bm' -> R p p'.
Proof.
  intros iters i o o' p p' opts v vm x bm opts' v' vm' x' bm' [X V P C BM VM PH VH MP PW B B'] W PWW CE CE' U U'.
  assert (U0 : oh_call (e_oh e i) (c_oh c) (c_options c) (mkOk (Some (Z.of_nat i)) (Some (Z.of_nat iters)) None None None None) = Ok opts /\
    compute_velocity (e_vel e i) (c_vh c) (o_vmem o) (set_options (o_swarm o) opts) (c_clamp c) (c_bounds c) = Ok (v, vm) /\
    compute_position (e_bh e i) (c_bh c) (o_bmem o) (set_velocity (set_options (o_swarm o) opts) v) (c_bounds c) = Ok (x, bm)) by (unfold Updated in U; destruct (c_kind c); try congruence; apply U).
  assert (U0' : oh_call (e_oh e' i) (c_oh c) (c_options c) (mkOk (Some (Z.of_nat i)) (Some (Z.of_nat iters)) None None None None) = Ok opts' /\
    compute_velocity (e_vel e' i) (c_vh c) (o_vmem o') (set_options (o_swarm o') opts') (c_clamp c) (c_bounds c) = Ok (v', vm') /\
    compute_position (e_bh e' i) (c_bh c) (o_bmem o') (set_velocity (set_options (o_swarm o') opts') v') (c_bounds c) = Ok (x', bm')) by (unfold Updated in U'; change (c_kind c') with kd in U'; destruct kd; try congruence; apply U').
  assert (U1 : o_swarm p = set_position (set_velocity (set_options (o_swarm o) opts) v) x /\ o_vmem p = vm /\ o_bmem p = bm) by (unfold Updated in U; apply U).
  assert (U1' : o_swarm p' = set_position (set_velocity (set_options (o_swarm o') opts') v') x' /\ o_vmem p' = vm' /\ o_bmem p' = bm') by (unfold Updated in U'; apply U').
  clear U U'. destruct U0 as (O & UV & UP). destruct U0' as (O' & UV' & UP'). destruct SO as [SO1 (z & Z & FZ)]. rewrite SO1 in O, O'. cbn [oh_call] in O, O'. assert (opts = c_options c) by congruence. assert (opts' = c_options c) by congruence. subst opts opts'. clear O O'.
  destruct (velocity_r i _ _ _ _ _ _ _ z _ Z FZ X V P VM W B B' UV _ UV') as [SV SVM]. cbn [fst snd] in SV, SVM.
  destruct SE as (_ & _ & S3 & _). rewrite S3 in UP'.
  pose proof (position_same (e_bh e i) (c_bh c) (o_bmem o) (o_bmem o') (set_velocity (set_options (o_swarm o) (c_options c)) v) (set_velocity (set_options (o_swarm o') (c_options c)) v') (c_bounds c) NS X SV BM) as E. rewrite UP, UP' in E. destruct E as [E1 E2]. cbn [fst snd] in E1, E2.
  destruct U1 as (D1 & D2 & D3). destruct U1' as (D1' & D2' & D3').
  constructor; rewrite ?D1, ?D1', ?D2, ?D2', ?D3, ?D3'; cbn [set_position set_velocity set_options s_position s_velocity s_pbest_pos s_pbest_cost s_best_pos]; try assumption.
  - rewrite (ce_ph _ _ CE), (ce_ph _ _ CE'). exact PH.
  - rewrite (ce_vh _ _ CE), (ce_vh _ _ CE'). exact VH.
  - rewrite (ce_mp _ _ CE), (ce_mp _ _ CE'). exact MP.
  - right. exact PWW.
Qed.

Lemma never_break : forall cc ee i o q a, c_ftol cc = fninf -> 0 < c_ftol_iter cc -> evaluate_swarm cc ee pool i o q <> Break a.
Proof.
  intros cc ee i o q a F I H. pose proof (evaluate_cases cc ee pool i o q) as E. rewrite H in E. destruct E as (co & pp & pc & t & bp & bc & np & _ & E). rewrite F, small_never, deque_false, andb_false_r in E by exact I. discriminate.
Qed.
Lemma loop_r : forall iters m i o o' q q' z z', R o o' -> opt_loop c e pool iters m i o q = LDone z -> opt_loop c' e' pool iters m i o' q' = LDone z' -> SpecDyn.prefix (o_pos_history z) h -> R z z'.
Proof.
  intros iters m. induction m as [|m IH]; intros i o o' q q' z z' HR H H' PF; [cbn in H, H'; injection H as <-; injection H' as <-; exact HR|].
  pose proof (loop_grows c e pool iters m) as LG. cbn [opt_loop] in H, H'. unfold iteration in H, H'.
  pose proof (evaluate_cases c e pool i o q) as E. pose proof (evaluate_cases c' e' pool i o' q') as E'. pose proof (never_break c e i o q) as NB. pose proof (never_break c' e' i o' q') as NB'.
  destruct (evaluate_swarm c e pool i o q) as [a p|a|a x]; [|exfalso; exact (NB a FT FI eq_refl)|discriminate]. destruct (evaluate_swarm c' e' pool i o' q') as [a' p'|a'|a' x']; [|exfalso; exact (NB' a' FT FI eq_refl)|discriminate].
  clear NB NB'. destruct E as (co & pp & pc & t & bp & bc & np & E & _). destruct E' as (co' & pp' & pc' & t' & bp' & bc' & np' & E' & _).
  pose proof (update_cases c e iters i a p) as UC. pose proof (update_cases c' e' iters i a' p') as UC'.
  destruct (update_swarm c e iters i a p) as [b p2|b|b x]; [|contradiction|discriminate]. destruct (update_swarm c' e' iters i a' p') as [b' p2'|b'|b' x']; [|contradiction|discriminate].
  destruct UC as (_ & CE & opts & v & vm & x & bm & U). destruct UC' as (_ & CE' & opts' & v' & vm' & x' & bm' & U').
  assert (W : all_e wi (s_position (o_swarm o))).
  { destruct (LG (S i) b p2) as (_ & _ & _ & (r2 & G) & _). rewrite H in G. cbn [end_state] in G. destruct PF as (rest & PF). rewrite (ce_ph _ _ CE) in G.
    assert (HA : o_pos_history a = o_pos_history o ++ [s_position (o_swarm o)]) by (destruct E as (_ & _ & _ & ->); reflexivity).
    intros r j y Y. apply (NO (s_position (o_swarm o))) with r j; [|exact Y]. ftypes. rewrite PF, G, HA. apply in_or_app. left. apply in_or_app. left. apply in_or_app. right. left. reflexivity. }
  pose proof (evaluate_r _ _ _ _ _ _ _ _ _ _ _ _ _ _ _ _ _ _ _ HR W E E') as RA.
  assert (SX : s_position (o_swarm a) = s_position (o_swarm o)) by (destruct E as (_ & _ & _ & ->); reflexivity).
  refine (IH (S i) b b' p2 p2' z z' _ H H' PF). refine (update_r _ _ _ _ _ _ _ _ _ _ _ _ _ _ _ _ RA _ _ CE CE' U U').
  - rewrite SX. exact W.
  - destruct (r_w _ _ RA) as [Z|Z]; [rewrite Z, SX; exact W|exact Z].
Qed.
End A.

Lemma topology_idle : forall c kd top top' dr e e' pool iters o o' z z' p p' y y', c_kind c <> Binary -> kd <> Binary -> c_bh c <> "shrink" -> c_ftol c = fninf -> no_social c -> same_but_social e e' ->
  construct c top dr = Ok o -> construct (with_kind c kd) top' dr = Ok o' ->
  optimize c e pool iters o = (z, Ok (y, p)) -> optimize (with_kind c kd) e' pool iters o' = (z', Ok (y', p')) -> no_overflow (o_pos_history z) ->
  same_ways z z' /\ Forall2 same p p'.
Proof.
  intros c kd top top' dr e e' pool iters o o' z z' p p' y y' CK CK' NS FT SO SE CO CO' H H' NO. destruct (construct_kind _ _ _ _ _ _ _ CK CK' CO CO') as [-> TO].
  assert (FR : s_best_pos (o_swarm o) = BPEmpty /\ s_pbest_pos (o_swarm o) = s_position (o_swarm o) /\ 0 < c_ftol_iter c).
  { apply construct_inv in CO. destruct CO as (s & M & -> & Q). destruct (make_swarm_new _ _ _ M) as (a & b & v & ->). split; [reflexivity|]. split; [reflexivity|]. lia. }
  destruct FR as (FB & FP & FI).
  assert (PN : pool <> Some 0) by (intros ->; discriminate).
  rewrite (optimize_loop _ _ _ _ _ PN) in H. rewrite (optimize_loop _ _ _ _ _ PN) in H'.
  assert (SM : forall o, start_memory c o = with_vmem (with_bmem o (Some (s_position (o_swarm o)))) (Some (s_position (o_swarm o)))) by (intros; unfold start_memory; destruct (c_kind c); congruence).
  assert (SM' : forall o, start_memory (with_kind c kd) o = with_vmem (with_bmem o (Some (s_position (o_swarm o)))) (Some (s_position (o_swarm o)))) by (intros; unfold start_memory; cbn; destruct kd; congruence).
  unfold started in H, H'. rewrite SM in H. rewrite SM' in H'. clear SM SM'.
  destruct (opt_loop c e pool iters iters 0 _ []) as [b|b x] eqn:L; [|discriminate]. destruct (opt_loop (with_kind c kd) e' pool iters iters 0 _ []) as [b'|b' x'] eqn:L'; [|discriminate].
  injection H as -> H. injection H' as -> H'.
  assert (RZ : R z z').
  { refine (loop_r c kd e e' pool (o_pos_history z) CK CK' NS FT FI SO SE NO iters iters 0 _ _ [] [] z z' _ L L' (ex_intro _ [] (eq_sym (app_nil_r _)))).
    constructor; cbn; try apply sm_refl; try reflexivity.
    - induction (o_pos_history o); constructor; auto using sm_refl.
    - induction (o_velocity_history o); constructor; auto using sm_refl.
    - left. exact FP.
    - rewrite FB. intros i j x X. discriminate X.
    - rewrite FB. intros i j x X. discriminate X. }
  destruct RZ as [X V P C BM VM PH VH MP PW B B']. split; [unfold same_ways; auto 10|].
  unfold final_result in H, H'. rewrite C in H'. destruct (negb (s_best_np (o_swarm z))); [discriminate|]. destruct (negb (s_best_np (o_swarm z'))); [discriminate|].
  apply bind_Ok in H. destruct H as (k & K & H). apply bind_Ok in H'. destruct H' as (k' & K' & H'). assert (k' = k) by congruence. subst k'.
  apply bind_Ok in H. destruct H as (r & Q & H). apply bind_Ok in H'. destruct H' as (r' & Q' & H'). injection H as _ <-. injection H' as _ <-. apply of_option_Ok in Q, Q'.
  destruct (Forall2_nth_r _ _ _ _ _ P _ _ Q') as (r0 & R0 & S0). ftypes. assert (r0 = r) by congruence. subst r0. exact S0.
Qed.
